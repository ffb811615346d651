(** Proofs about the sequence model, part 2: saveSequenceEvents *)
From Verif Require Import PyBase PyLemmas PyTac Gfx2DLemmas WaveLemmas SeqModel SeqSpec SeqLemmas.
From Coq Require Import ZifyBool.
Ltac Zify.zify_post_hook ::= idtac.

Lemma pos_of_get pos r : e2o_get pos r = match pos_of pos r with Some o => Ok o | None => Err KeyError end.
Proof. destruct r as [i|]; [|reflexivity]. cbn [e2o_get pos_of]. destruct (find _ pos) as [[? ?]|]; reflexivity. Qed.

Lemma pos_of_cons i j o r : pos_of ((i, o) :: r) (Some j) = if i =? j then Some o else pos_of r (Some j).
Proof. cbn [pos_of find fst]. destruct (i =? j); reflexivity. Qed.

Lemma pos_of_notin pos j : ~ In j (map fst pos) -> pos_of pos (Some j) = None.
Proof.
  induction pos as [|[i o] r IH]; intros H; [reflexivity|]. rewrite pos_of_cons.
  cbn [map fst In] in H. destruct (Z.eqb_spec i j) as [->|]; [tauto|]. apply IH. tauto.
Qed.
Lemma pos_of_in pos j o : NoDup (map fst pos) -> In (j, o) pos -> pos_of pos (Some j) = Some o.
Proof.
  induction pos as [|[i p] r IH]; intros N H; [destruct H|]. rewrite pos_of_cons.
  cbn [map fst] in N. inversion_clear N as [|? ? N1 N2]. destruct H as [H|H].
  - injection H as -> ->. rewrite Z.eqb_refl. reflexivity.
  - destruct (Z.eqb_spec i j) as [->|]; [|apply IH; assumption].
    exfalso. apply N1. change j with (fst (j, o)). apply in_map. exact H.
Qed.
Lemma pos_of_some pos j o : pos_of pos (Some j) = Some o -> In (j, o) pos.
Proof.
  induction pos as [|[i p] r IH]; intros H; [discriminate|]. rewrite pos_of_cons in H.
  destruct (Z.eqb_spec i j) as [->|]; [injection H as ->; left; reflexivity|right; apply IH; exact H].
Qed.
Lemma pos_of_ex pos j : In j (map fst pos) -> exists o, pos_of pos (Some j) = Some o.
Proof.
  induction pos as [|[i o] r IH]; intros H; [destruct H|]. rewrite pos_of_cons.
  destruct (Z.eqb_spec i j); [eexists; reflexivity|]. apply IH. destruct H; [contradiction|assumption].
Qed.

Lemma dict_set_new {A} (d : list (Z * A)) k v : ~ In k (map fst d) -> dict_set d k v = d ++ [(k, v)].
Proof.
  induction d as [|[k' v'] r IH]; intros H; [reflexivity|]. cbn [dict_set map fst In app] in *.
  destruct (Z.eqb_spec k' k); [tauto|]. rewrite IH by tauto. reflexivity.
Qed.

(** the items of the layout of a list of distinct objects *)
Fixpoint items_from (off : Z) (l : list (Z * ev)) (ns : list Z) : list (Z * (ev * Z)) :=
  match l, ns with
  | (i, e) :: r, n :: ns => (i, (e, off)) :: items_from (off + n) r ns
  | _, _ => []
  end.
Fixpoint sum (l : list Z) : Z := match l with [] => 0 | x :: r => x + sum r end.

Lemma items_fst off l ns : length l = length ns -> map fst (items_from off l ns) = map fst l.
Proof.
  revert off ns. induction l as [|[i e] r IH]; intros off ns H; [reflexivity|].
  destruct ns as [|n ns]; [discriminate|]. cbn [items_from map fst]. rewrite IH by (cbn in H; lia). reflexivity.
Qed.

Lemma layout_fold l : forall ns d off,
  NoDup (map fst l) -> (forall i, In i (map fst l) -> ~ In i (map fst d)) ->
  Forall2 (fun p n => dataLength (snd p) = Ok n) l ns ->
  foldM (fun acc p => let '(d, off) := acc in
           n <- dataLength (snd p) ;; Ok (dict_set d (fst p) (snd p, off), off + n)) (d, off) l
  = Ok (d ++ items_from off l ns, off + sum ns).
Proof.
  induction l as [|[i e] r IH]; intros ns d off N D F; inversion F as [|? n ? ns' F1 F2]; subst; clear F.
  - cbn [foldM items_from sum]. rewrite app_nil_r. do 2 f_equal. lia.
  - cbn [foldM fst snd] in *. rewrite F1. cbn [bind].
    cbn [map fst] in N. inversion_clear N as [|? ? N1 N2].
    rewrite dict_set_new by (apply D; left; reflexivity).
    rewrite (IH ns').
    + cbn [items_from sum]. rewrite <- app_assoc. cbn [app]. do 2 f_equal. lia.
    + exact N2.
    + intros j Hj. rewrite map_app, in_app_iff. cbn [map fst In]. intros [Q|[Q|[]]].
      * apply (D j); [right; exact Hj|exact Q].
      * subst. contradiction.
    + exact F2.
Qed.

Lemma layout_ok l ns : NoDup (map fst l) ->
  Forall2 (fun p n => dataLength (snd p) = Ok n) l ns -> layout l = Ok (items_from 0 l ns, sum ns).
Proof.
  intros N F. unfold layout. rewrite (layout_fold l ns); [reflexivity|exact N|intros i _ []|exact F].
Qed.

Lemma layout_lengths l : forall d off r,
  foldM (fun acc p => let '(d, off) := acc in
           n <- dataLength (snd p) ;; Ok (dict_set d (fst p) (snd p, off), off + n)) (d, off) l = Ok r ->
  exists ns, Forall2 (fun p n => dataLength (snd p) = Ok n) l ns.
Proof.
  induction l as [|[i e] l IH]; intros d off r H.
  - exists []. constructor.
  - cbn [foldM fst snd] in H. destruct (dataLength e) as [n|] eqn:E; cbn [bind] in H; [|discriminate].
    destruct (IH _ _ _ H) as (ns & F). exists (n :: ns). constructor; assumption.
Qed.

(** positions as a table *)
Definition table (its : list (Z * (ev * Z))) : list (Z * Z) := map (fun it => (fst it, snd (snd it))) its.

Lemma slice_set_exact {A} (a b c v : list A) i j :
  i = zlen a -> j = zlen a + zlen b -> slice_set (a ++ b ++ c) i j v = a ++ v ++ c.
Proof.
  intros -> ->. unfold slice_set. rewrite !clamp_id by (rewrite !zlen_app; pose proof (zlen_nonneg a); pose proof (zlen_nonneg b); pose proof (zlen_nonneg c); lia).
  pose proof (zlen_nonneg b). rewrite Z.max_r by lia.
  rewrite firstn_app_exact by (unfold zlen; lia). f_equal. f_equal.
  rewrite app_assoc. apply skipn_app_exact. rewrite app_length. unfold zlen. lia.
Qed.

Lemma zeros_add a b : 0 <= a -> 0 <= b -> zeros (a + b) = zeros a ++ zeros b.
Proof. intros. unfold zeros, rep. rewrite Z2Nat.inj_add by lia. apply repeat_app. Qed.

(** writing the events one after the other *)
Lemma write_items e2o l : forall bs done off,
  Forall2 (fun p b => ev_save (snd p) e2o = Ok b) l bs -> off = zlen done ->
  foldM (fun data it => let '(_, (e, offset)) := it in
           eData <- ev_save e e2o ;; Ok (slice_set data offset (offset + zlen eData) eData))
        (done ++ zeros (sum (map zlen bs))) (items_from off l (map zlen bs))
  = Ok (done ++ concat bs).
Proof.
  induction l as [|[i e] l IH]; intros bs done off F ->; inversion F as [|? b ? bs' F1 F2]; subst; clear F.
  - reflexivity.
  - cbn [map items_from foldM snd sum concat] in *. rewrite F1. cbn [bind].
    assert (0 <= sum (map zlen bs')).
    { clear. induction bs' as [|b bs IH]; cbn [map sum]; [lia|]. pose proof (zlen_nonneg b). lia. }
    rewrite zeros_add by (try apply zlen_nonneg; assumption).
    rewrite slice_set_exact; [|reflexivity|unfold zeros; autorewrite with zl; pose proof (zlen_nonneg b); lia].
    rewrite app_assoc. rewrite IH; [|exact F2|rewrite zlen_app; reflexivity].
    rewrite <- app_assoc. reflexivity.
Qed.

Lemma save_ok l bs notable :
  NoDup (map fst l) ->
  Forall2 (fun p b => dataLength (snd p) = Ok (zlen b)
                      /\ ev_save (snd p) (table (items_from 0 l (map zlen bs))) = Ok b) l bs ->
  Forall (fun i => In i (map fst l)) notable ->
  exists offs, saveSequenceEvents l notable = Ok (concat bs, offs)
    /\ Forall2 (fun i o => pos_of (table (items_from 0 l (map zlen bs))) (Some i) = Some o) notable offs.
Proof.
  intros N F M. unfold saveSequenceEvents.
  assert (FL : Forall2 (fun p n => dataLength (snd p) = Ok n) l (map zlen bs)).
  { clear M N. revert F. generalize (table (items_from 0 l (map zlen bs))). intros t F.
    induction F as [|p b l bs [H _] F IH]; constructor; assumption. }
  rewrite (layout_ok l _ N FL). cbn [bind]. fold (table (items_from 0 l (map zlen bs))).
  set (t := table (items_from 0 l (map zlen bs))) in *.
  pose proof (write_items t l bs [] 0) as W. cbn [app] in W. rewrite W; [|..|reflexivity].
  2:{ clear - F. clearbody t. induction F as [|p b l' bs' [_ H] F IH]; constructor; assumption. }
  cbn [bind].
  assert (FS : map fst t = map fst l).
  { unfold t, table. rewrite map_map. cbn [fst]. apply items_fst. rewrite map_length.
    clear - F. induction F; cbn; congruence. }
  assert (EO : exists offs, mapM (fun i => e2o_get t (Some i)) notable = Ok offs
     /\ Forall2 (fun i o => pos_of t (Some i) = Some o) notable offs).
  { induction M as [|i r Hi M IH]; [exists []; split; [reflexivity|constructor]|].
    destruct IH as (offs & E & F2). rewrite <- FS in Hi. apply pos_of_ex in Hi as (o & Ho).
    exists (o :: offs). split; [|constructor; assumption]. cbn [mapM].
    rewrite pos_of_get, Ho. cbn [bind]. rewrite E. reflexivity. }
  destruct EO as (offs & E & F2). exists offs. rewrite E. cbn [bind]. split; [reflexivity|exact F2].
Qed.

(** the converse: what a successful save did *)
Lemma save_inv l notable data offs :
  NoDup (map fst l) -> Forall (fun p => ev_fits (snd p) /\ is_fromvar (snd p) = false) l ->
  saveSequenceEvents l notable = Ok (data, offs) ->
  exists bs, data = concat bs
    /\ Forall2 (fun p b => dataLength (snd p) = Ok (zlen b)
                      /\ ev_save (snd p) (table (items_from 0 l (map zlen bs))) = Ok b) l bs
    /\ Forall2 (fun i o => pos_of (table (items_from 0 l (map zlen bs))) (Some i) = Some o) notable offs.
Proof.
  intros N G S. unfold saveSequenceEvents in S.
  destruct (layout l) as [[its tot]|] eqn:LA; cbn [bind] in S; [|discriminate].
  pose proof LA as LA'. unfold layout in LA'. apply layout_lengths in LA' as (ns & FN).
  rewrite (layout_ok l ns N FN) in LA.
  assert (its = items_from 0 l ns) as -> by congruence. assert (tot = sum ns) as -> by congruence. clear LA.
  fold (table (items_from 0 l ns)) in S. set (t := table (items_from 0 l ns)) in *.
  destruct (foldM _ (zeros (sum ns)) (items_from 0 l ns)) as [dd|] eqn:W; cbn [bind] in S; [|discriminate].
  destruct (mapM _ notable) as [oo|] eqn:M; cbn [bind] in S; [|discriminate].
  assert (dd = data) as -> by congruence. assert (oo = offs) as -> by congruence. clear S.
  assert (EB : exists bs, Forall2 (fun p b => ev_save (snd p) t = Ok b) l bs).
  { clear M N G. revert W. generalize (zeros (sum ns)). generalize 0 at 1. clearbody t. revert ns FN.
    induction l as [|[i e] l IH]; intros ns FN off z W; inversion FN as [|? n ? ns' F1 F2]; subst.
    - exists []. constructor.
    - cbn [items_from foldM] in W. destruct (ev_save e t) as [b|] eqn:E; cbn [bind] in W; [|discriminate].
      destruct (IH _ F2 _ _ W) as (bs & FB). exists (b :: bs). constructor; assumption. }
  destruct EB as (bs & FB).
  assert (ns = map zlen bs) as ->.
  { clear W M. clearbody t. clear N. revert ns FN bs FB. induction l as [|[i e] l IH]; intros ns FN bs FB;
      inversion FN as [|? n ? ns' F1 F2]; inversion FB as [|? b ? bs' B1 B2]; subst; [reflexivity|].
    inversion_clear G as [|? ? [G1 G2] G']. cbn [map snd] in *. f_equal.
    - rewrite (ev_save_length _ _ _ G1 G2 B1) in F1. congruence.
    - apply IH; assumption. }
  exists bs. subst t. split; [|split].
  - pose proof (write_items (table (items_from 0 l (map zlen bs))) l bs [] 0 FB eq_refl) as W'.
    cbn [app] in W'. congruence.
  - clear - FN FB. revert FB. generalize (table (items_from 0 l (map zlen bs))). intros t FB.
    revert FN. induction FB as [|p b l bs B FB IH]; intros FN; constructor.
    + inversion_clear FN. split; assumption.
    + apply IH. inversion_clear FN. assumption.
  - clear - M. revert M. generalize (table (items_from 0 l (map zlen bs))). intros t.
    revert offs. induction notable as [|i r IH]; intros offs M; cbn [mapM] in M.
    + injection M as <-. constructor.
    + rewrite pos_of_get in M. destruct (pos_of t (Some i)) as [o|] eqn:E; cbn [bind] in M; [|discriminate].
      destruct (mapM _ r) as [os|]; cbn [bind] in M; [|discriminate]. injection M as <-.
      constructor; [exact E|apply IH; reflexivity].
Qed.

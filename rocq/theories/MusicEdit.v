(** * Proofs about simultaneous edits *)
From Coq Require Import Lia Sorting.Sorted Sorting.Permutation.
From Verif Require Import PyBase PyLemmas PyTac SeqModel SeqParse SbnkModel SbnkBank MusicModel MusicSpec MusicLemmas.

Section Edits.
Context {A : Type}.
Implicit Types (l : list (edit A)) (log : list (Z * @entry A)).

Lemma lookup_set {B} (d : list (Z * B)) k v i : lookup i (dict_set d k v) = if k =? i then Some v else lookup i d.
Proof.
  induction d as [|(k' & v') d IH]; cbn [dict_set]; [rewrite lookup_cons; reflexivity|].
  destruct (k' =? k) eqn:E.
  - apply Z.eqb_eq in E. subst k'. rewrite !lookup_cons. destruct (k =? i); reflexivity.
  - rewrite !lookup_cons, IH. destruct (k' =? i) eqn:E2; [|reflexivity]. apply Z.eqb_eq in E2. subst k'. rewrite Z.eqb_sym, E. reflexivity.
Qed.
Lemma keys_set {B} (d : list (Z * B)) k v : map fst (dict_set d k v) = map fst d \/ (~ In k (map fst d) /\ map fst (dict_set d k v) = map fst d ++ [k]).
Proof.
  induction d as [|(k' & v') d IH]; cbn [dict_set map fst]; [right; split; [intros []|reflexivity]|].
  destruct (k' =? k) eqn:E; [left; reflexivity|]. apply Z.eqb_neq in E. cbn [map fst]. destruct IH as [->|(N & ->)]; [left; reflexivity|right]. split; [|reflexivity]. intros [H|H]; [congruence|auto].
Qed.
Lemma record_entry log e i : entry_at (record log e) i =
  {| eAdd := eAdd (entry_at log i) ++ match e with Insert j x => if i =? j then [x] else [] | _ => [] end;
     eRep := match e with Replace j x => if i =? j then Some x else eRep (entry_at log i) | _ => eRep (entry_at log i) end;
     eDel := eDel (entry_at log i) || match e with Delete j => i =? j | _ => false end |}.
Proof.
  destruct e as [j x|j x|j]; unfold record; cbn zeta; unfold entry_at at 1; rewrite lookup_set, (Z.eqb_sym i j); destruct (j =? i) eqn:E; try (apply Z.eqb_eq in E; subst j);
    rewrite ?orb_false_r, ?orb_true_r, ?app_nil_r; try reflexivity; fold (entry_at log i); destruct (entry_at log i); reflexivity.
Qed.
Lemma log_entry l : forall log i, entry_at (fold_left record l log) i =
  {| eAdd := eAdd (entry_at log i) ++ inserted i l; eRep := replaced i l (eRep (entry_at log i)); eDel := eDel (entry_at log i) || deletedb i l |}.
Proof.
  induction l as [|e l IH]; intros log i; cbn [fold_left].
  - cbn [inserted replaced deletedb]. rewrite app_nil_r, orb_false_r. destruct (entry_at log i); reflexivity.
  - rewrite IH, record_entry. cbn [eAdd eRep eDel]. destruct e as [j x|j x|j]; cbn [inserted replaced deletedb].
    + destruct (i =? j); rewrite <- ?app_assoc, ?app_nil_r, ?orb_false_r; reflexivity.
    + destruct (i =? j); rewrite <- ?app_assoc, ?app_nil_r, ?orb_false_r; reflexivity.
    + rewrite <- orb_assoc, app_nil_r. reflexivity.
Qed.
Lemma log_keys l : forall log, NoDup (map fst log) -> NoDup (map fst (fold_left record l log)) /\
  (forall i, In i (map fst (fold_left record l log)) <-> In i (map fst log) \/ In i (map edit_index l)).
Proof.
  induction l as [|e l IH]; intros log N; cbn [fold_left map].
  - split; [exact N|]. intros i. cbn [In]. tauto.
  - assert (R : exists v, record log e = dict_set log (edit_index e) v) by (destruct e; unfold record; cbn zeta; eexists; reflexivity). destruct R as (v & R). rewrite R.
    assert (K : NoDup (map fst (dict_set log (edit_index e) v)) /\ forall i, In i (map fst (dict_set log (edit_index e) v)) <-> In i (map fst log) \/ i = edit_index e).
    { destruct (keys_set log (edit_index e) v) as [E|(N2 & E)]; rewrite E.
      - split; [exact N|]. intros i. split; [tauto|]. intros [H| ->]; [exact H|]. rewrite <- E. clear. induction log as [|(k & w) log IH]; cbn [dict_set map fst]; [left; reflexivity|].
        destruct (k =? edit_index e) eqn:E; [left; apply Z.eqb_eq; exact E|right; exact IH].
      - split; [apply Permutation_NoDup with (edit_index e :: map fst log); [apply Permutation_cons_append|constructor; assumption]|]. intros i. rewrite in_app_iff. cbn [In]. intuition congruence. }
    destruct K as (K1 & K2). destruct (IH _ K1) as (I1 & I2). split; [exact I1|]. intros i. rewrite I2, K2. cbn [In]. intuition congruence.
Qed.

Lemma inserts_at (adds : list A) : forall a b i, i = zlen a -> fold_left (fun (c : list A) x => insert c i x) adds (a ++ b) = a ++ rev adds ++ b.
Proof.
  induction adds as [|x adds IH]; intros a b i E; [reflexivity|]. cbn [fold_left]. rewrite (insert_at a b x i E), (IH a (x :: b) i E). cbn [rev]. rewrite <- app_assoc. reflexivity.
Qed.
Lemma upd_at (a b : list A) x y : upd (a ++ x :: b) (length a) y = a ++ y :: b.
Proof. induction a as [|z a IH]; cbn [upd app length]; [reflexivity|f_equal; exact IH]. Qed.
Lemma apply_at l a x b i : i = zlen a -> apply_entry (a ++ x :: b) i {| eAdd := inserted i l; eRep := replaced i l None; eDel := deletedb i l |} = Ok (a ++ image l i x ++ b).
Proof.
  intros E. pose proof (zlen_nonneg a). pose proof (zlen_nonneg b). unfold apply_entry, image. cbn [eAdd eRep eDel].
  assert (G : (i <? 0) = false) by (apply Z.ltb_ge; lia). assert (G2 : (zlen (a ++ x :: b) <=? i) = false) by (apply Z.leb_gt; rewrite zlen_app, zlen_cons; lia).
  assert (N : Z.to_nat i = length a) by (unfold zlen in E; lia).
  destruct (replaced i l None) as [y|].
  - unfold setl. rewrite G. rewrite G, G2. cbn [orb bind]. rewrite N, upd_at, inserts_at by exact E. rewrite rev_involutive, <- app_assoc. reflexivity.
  - destruct (deletedb i l).
    + unfold del. rewrite G. rewrite G, G2. cbn [orb bind]. rewrite N, firstn_app, firstn_all, Nat.sub_diag. cbn [firstn]. rewrite app_nil_r.
      replace (skipn (S (length a)) (a ++ x :: b)) with b. { rewrite inserts_at by exact E. rewrite rev_involutive, app_nil_r. reflexivity. }
      change (x :: b) with ([x] ++ b). rewrite app_assoc, skipn_app. replace (S (length a)) with (length (a ++ [x])) by (rewrite app_length; cbn [length]; lia). rewrite skipn_all, Nat.sub_diag. reflexivity.
    + cbn [bind]. rewrite inserts_at by exact E. rewrite rev_involutive, <- app_assoc. reflexivity.
Qed.
Definition flat l (k : Z) (a : list A) : list A := flat_map (fun p => image l (fst p) (snd p)) (combine (range_z k (length a)) a).
Lemma flat_app l a : forall k b, flat l k (a ++ b) = flat l k a ++ flat l (k + zlen a) b.
Proof.
  unfold flat. induction a as [|x a IH]; intros k b; [cbn [app length range_z combine flat_map]; change (zlen (@nil A)) with 0; rewrite Z.add_0_r; reflexivity|].
  cbn [app length range_z combine flat_map fst snd]. rewrite IH, <- app_assoc, zlen_cons. replace (k + 1 + zlen a) with (k + (1 + zlen a)) by lia. reflexivity.
Qed.
Lemma untouched l i : ~ In i (map edit_index l) -> inserted i l = [] /\ (forall d, replaced i l d = d) /\ deletedb i l = false.
Proof.
  induction l as [|e l IH]; intros N; [repeat split|]. cbn [map In] in N. destruct IH as (I & R & D); [tauto|].
  destruct e as [j x|j x|j]; cbn [edit_index] in N; cbn [inserted replaced deletedb]; assert (E : (i =? j) = false) by (apply Z.eqb_neq; intros ->; tauto); rewrite E; repeat split; assumption.
Qed.
Lemma flat_same l a : forall k, (forall i, k <= i < k + zlen a -> ~ In i (map edit_index l)) -> flat l k a = a.
Proof.
  unfold flat. induction a as [|x a IH]; intros k H; [reflexivity|]. rewrite zlen_cons in H. pose proof (zlen_nonneg a). cbn [length range_z combine flat_map fst snd]. rewrite IH by (intros i Hi; apply H; lia).
  unfold image. destruct (untouched l k) as (-> & -> & ->); [apply H; lia|reflexivity].
Qed.
Lemma apply_all l log : (forall i, entry_at log i = {| eAdd := inserted i l; eRep := replaced i l None; eDel := deletedb i l |}) ->
  forall ks a R, StronglySorted (fun x y => y < x) ks -> (forall i, In i ks -> 0 <= i < zlen a) -> (forall i, 0 <= i < zlen a -> In i (map edit_index l) -> In i ks) ->
  foldM (fun c idx => apply_entry c idx (entry_at log idx)) (a ++ R) ks = Ok (flat l 0 a ++ R).
Proof.
  intros HL. induction ks as [|i ks IH]; intros a R SS B C; cbn [foldM].
  - f_equal. f_equal. symmetry. apply flat_same. intros j J I. apply (C j); [lia|exact I].
  - inversion SS as [|? ? SS' F]; subst. pose proof (B i (or_introl eq_refl)) as BI.
    assert (SP : exists a1 x a2, a = a1 ++ x :: a2 /\ zlen a1 = i).
    { destruct (get_some a i BI) as (x & _ & NE). apply nth_error_split in NE as (a1 & a2 & E & L). exists a1, x, a2. split; [exact E|]. unfold zlen. lia. }
    destruct SP as (a1 & x & a2 & -> & L1). rewrite HL, <- app_assoc, <- app_comm_cons, (apply_at l a1 x (a2 ++ R) i (eq_sym L1)). cbn [bind].
    rewrite (IH a1 (image l i x ++ a2 ++ R)).
    + f_equal. rewrite flat_app. rewrite zlen_app, zlen_cons in *. cbn [Z.add]. rewrite L1. change (x :: a2) with ([x] ++ a2). rewrite flat_app. change (zlen [x]) with 1. rewrite (flat_same l a2).
      * unfold flat at 3. cbn [length range_z combine flat_map fst snd]. rewrite app_nil_r, <- !app_assoc. reflexivity.
      * intros j J I. specialize (C j ltac:(lia) I) as [E|E]; [lia|]. rewrite Forall_forall in F. specialize (F j E). lia.
    + exact SS'.
    + intros j J. rewrite Forall_forall in F. specialize (F j J). specialize (B j (or_intror J)). lia.
    + intros j J I. rewrite zlen_app, zlen_cons in *. pose proof (zlen_nonneg a2). specialize (C j ltac:(lia) I) as [E|E]; [lia|exact E].
Qed.
Lemma desc_sorted (l : list Z) : NoDup l -> StronglySorted (fun x y => y < x) (rev (sort_by (fun i => i) l)).
Proof.
  intros N. pose proof (sort_sorted (fun i : Z => i) l) as S. assert (N2 : NoDup (sort_by (fun i => i) l)) by (apply Permutation_NoDup with l; [symmetry; apply sort_perm|exact N]).
  induction S as [|x r S IH F]; [constructor|]. inversion N2 as [|? ? NI N3]; subst. cbn [rev]. apply sorted_app; [exact (IH N3)|repeat constructor|].
  intros a b IA [<-|[]]. rewrite <- in_rev in IA. rewrite Forall_forall in F. specialize (F a IA). assert (a <> x) by (intros ->; contradiction). lia.
Qed.
Lemma modify_edited events l : Forall (in_bounds (zlen events)) l -> modify events l = Ok (edited events l).
Proof.
  intros B. unfold modify. cbn zeta. set (log := fold_left record l []).
  assert (HL : forall i, entry_at log i = {| eAdd := inserted i l; eRep := replaced i l None; eDel := deletedb i l |}) by (intros i; unfold log; rewrite log_entry; reflexivity).
  destruct (log_keys l [] (NoDup_nil _)) as (ND & KI). fold log in ND, KI.
  assert (KB : forall i, In i (map edit_index l) -> 0 <= i <= zlen events). { intros i I. apply in_map_iff in I as (e & <- & I). rewrite Forall_forall in B. specialize (B e I). destruct e; cbn in *; lia. }
  pose proof (desc_sorted _ ND) as SS. set (ks := rev (sort_by (fun i => i) (map fst log))) in *.
  assert (KK : forall i, In i ks <-> In i (map edit_index l)).
  { intros i. unfold ks. rewrite <- in_rev. split; intros H. - apply (Permutation_in _ (sort_perm _ _)) in H. apply KI in H as [[]|H]. exact H. - apply (Permutation_in _ (Permutation_sym (sort_perm _ _))). apply KI. right. exact H. }
  assert (NR : replaced (zlen events) l None = None /\ deletedb (zlen events) l = false).
  { clear -B. induction l as [|e l IH]; [split; reflexivity|]. inversion B as [|? ? B1 B2]; subst. destruct (IH B2) as (R & D). destruct e as [j x|j x|j]; cbn [replaced deletedb in_bounds] in *; [split; assumption| |];
      (assert (E : (zlen events =? j) = false) by (apply Z.eqb_neq; lia)); rewrite E; split; assumption. }
  change (edited events l) with (flat l 0 events ++ inserted (zlen events) l).
  assert (ST : forall ks', StronglySorted (fun x y => y < x) ks' -> (forall i, In i ks' <-> In i (map edit_index l) /\ i < zlen events) -> forall R,
    foldM (fun c idx => apply_entry c idx (entry_at log idx)) (events ++ R) ks' = Ok (flat l 0 events ++ R)).
  { intros ks' S' K' R. apply apply_all; [exact HL|exact S'| |].
    - intros i I. apply K' in I as (I & L). specialize (KB i I). lia.
    - intros i I J. apply K'. split; [exact J|lia]. }
  destruct (in_dec Z.eq_dec (zlen events) (map edit_index l)) as [I|NI].
  - assert (E : exists ks', ks = zlen events :: ks' /\ StronglySorted (fun x y => y < x) ks' /\ forall i, In i ks' -> i < zlen events).
    { destruct ks as [|k ks']; [exfalso; apply (proj2 (KK _)) in I; exact I|]. inversion SS as [|? ? S' F]; subst. rewrite Forall_forall in F.
      assert (k = zlen events). { apply KK in I as [I|I]; [exact I|]. specialize (F _ I). pose proof (KB k (proj1 (KK k) (or_introl eq_refl))). lia. }
      subst k. exists ks'. auto. }
    destruct E as (ks' & E & S' & F). rewrite E. cbn [foldM]. rewrite HL. destruct NR as (-> & ->). unfold apply_entry at 1. cbn [eAdd eRep eDel bind].
    pose proof (inserts_at (rev (inserted (zlen events) l)) events [] (zlen events) eq_refl) as IA. rewrite rev_involutive, !app_nil_r in IA. rewrite IA. apply ST; [exact S'|].
    intros i. split; intros H.
    + split; [apply KK; rewrite E; right; exact H|apply F; exact H].
    + destruct H as (H & L). apply KK in H. rewrite E in H. destruct H as [H|H]; [lia|exact H].
  - destruct (untouched l (zlen events) NI) as (-> & _). rewrite app_nil_r. rewrite <- (app_nil_r events) at 1. rewrite ST with (R := []); [rewrite app_nil_r; reflexivity|exact SS|].
    intros i. rewrite KK. split; [|tauto]. intros H. split; [exact H|]. specialize (KB i H). assert (i <> zlen events) by (intros ->; contradiction). lia.
Qed.
(** edits of different indices commute *)
Lemma swap_inserted l1 e1 e2 l2 i : edit_index e1 <> edit_index e2 -> inserted i (l1 ++ e1 :: e2 :: l2) = inserted i (l1 ++ e2 :: e1 :: l2).
Proof.
  intros N. induction l1 as [|e l1 IH]; cbn [app].
  - destruct e1 as [j x|j x|j], e2 as [k y|k y|k]; cbn [edit_index] in N; cbn [inserted]; try reflexivity. destruct (i =? j) eqn:E1, (i =? k) eqn:E2; try reflexivity. apply Z.eqb_eq in E1, E2. congruence.
  - destruct e as [j x|j x|j]; cbn [inserted]; try exact IH. rewrite IH. reflexivity.
Qed.
Lemma swap_replaced l1 e1 e2 l2 i : forall d, edit_index e1 <> edit_index e2 -> replaced i (l1 ++ e1 :: e2 :: l2) d = replaced i (l1 ++ e2 :: e1 :: l2) d.
Proof.
  intros d N. revert d. induction l1 as [|e l1 IH]; intros d; cbn [app].
  - destruct e1 as [j x|j x|j], e2 as [k y|k y|k]; cbn [edit_index] in N; cbn [replaced]; try reflexivity. destruct (i =? j) eqn:E1, (i =? k) eqn:E2; try reflexivity. apply Z.eqb_eq in E1, E2. congruence.
  - destruct e as [j x|j x|j]; cbn [replaced]; apply IH.
Qed.
Lemma swap_deleted l1 e1 e2 l2 i : deletedb i (l1 ++ e1 :: e2 :: l2) = deletedb i (l1 ++ e2 :: e1 :: l2).
Proof.
  induction l1 as [|e l1 IH]; cbn [app].
  - destruct e1 as [j x|j x|j], e2 as [k y|k y|k]; cbn [deletedb]; try reflexivity. rewrite !orb_assoc, (orb_comm (i =? j)). reflexivity.
  - destruct e as [j x|j x|j]; cbn [deletedb]; rewrite IH; reflexivity.
Qed.
Lemma swap_edited events l1 e1 e2 l2 : edit_index e1 <> edit_index e2 -> edited events (l1 ++ e1 :: e2 :: l2) = edited events (l1 ++ e2 :: e1 :: l2).
Proof.
  intros N. unfold edited. rewrite (swap_inserted _ _ _ _ _ N). f_equal. apply flat_map_ext. intros (i & x). unfold image. cbn [fst snd]. rewrite (swap_inserted _ _ _ _ _ N), (swap_replaced _ _ _ _ _ _ N), swap_deleted. reflexivity.
Qed.
End Edits.

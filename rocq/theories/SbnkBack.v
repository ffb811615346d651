(** * Banks with unlisted instruments that are all recognisable come back whole *)
From Coq Require Import String Permutation Sorted.
From Verif Require Import PyBase PyLemmas PyTac WaveModel SbnkModel SbnkSpec SbnkLemmas SbnkBank SbnkInacc SbnkGuess SbnkLayout SbnkScan.

(** ** positions *)
Lemma pos_split es a k c : es = a ++ k :: c -> ~ In k a -> pos es k = lens a.
Proof. intros -> N. unfold pos. rewrite posn_app. rewrite (proj2 (posn_None k a 0) N). cbn [posn]. rewrite key_eqb_refl. reflexivity. Qed.
Lemma pos_in_prefix a c k : In k a -> pos (a ++ c) k + zlen (fst k) <= lens a.
Proof.
  intros I. rewrite posn_app_in by exact I. destruct (posn_split k a I) as (x & y & -> & _ & Q). unfold pos. rewrite Q, lens_app, lens_cons. pose proof (lens_nonneg y). lia.
Qed.
Lemma pos_first a y c : ~ In y a -> pos (dedup [] (a ++ y :: c)) y = lens (dedup [] a).
Proof.
  intros N. rewrite dedup_app. cbn [app dedup].
  assert (K : kmem y (dedup [] a) = false) by (apply kmem_false; rewrite dedup_In0; exact N). rewrite K. apply (pos_split _ _ _ _ eq_refl). rewrite dedup_In0. exact N.
Qed.
Lemma pos_before a y c x : ~ In y a -> In x a -> pos (dedup [] (a ++ y :: c)) x + zlen (fst x) <= pos (dedup [] (a ++ y :: c)) y.
Proof. intros N I. rewrite pos_first by exact N. rewrite dedup_app. cbn [app]. apply pos_in_prefix. rewrite dedup_In0. exact I. Qed.
Lemma pos_apart es x y : NoDup es -> In x es -> In y es -> x <> y -> pos es x + zlen (fst x) <= pos es y \/ pos es y + zlen (fst y) <= pos es x.
Proof.
  intros ND X Y NE. destruct (in_split x es X) as (a & c & ->).
  assert (NA : ~ In x a) by (apply NoDup_remove_2 in ND; intros C; apply ND; apply in_app_iff; left; exact C).
  rewrite (pos_split _ a x c eq_refl NA). apply in_app_iff in Y as [Y|[Y|Y]]; [right; apply pos_in_prefix; exact Y|congruence|].
  destruct (in_split y c Y) as (c1 & c2 & ->). assert (NY : ~ In y (a ++ x :: c1)).
  { replace (a ++ x :: c1 ++ y :: c2) with ((a ++ x :: c1) ++ y :: c2) in ND by (rewrite <- app_assoc; reflexivity). apply NoDup_remove_2 in ND. intros C. apply ND, in_app_iff. left. exact C. }
  left. rewrite (pos_split (a ++ x :: c1 ++ y :: c2) (a ++ x :: c1) y c2) by (try exact NY; rewrite <- app_assoc; reflexivity). rewrite lens_app, lens_cons. pose proof (lens_nonneg c1). lia.
Qed.
Lemma covered_key es x : 0 <= x < lens es -> NoDup es -> exists k, In k es /\ pos es k <= x < pos es k + zlen (fst k).
Proof.
  intros H ND. assert (G : forall es' pre, es = pre ++ es' -> lens pre <= x < lens pre + lens es' -> exists a k c, es = a ++ k :: c /\ lens a <= x < lens a + zlen (fst k)).
  { induction es' as [|k es' IH]; intros pre E R.
    - change (lens []) with 0 in R. lia.
    - rewrite lens_cons in R. destruct (Z.lt_ge_cases x (lens pre + zlen (fst k))).
      + exists pre, k, es'. split; [exact E|lia].
      + apply (IH (pre ++ [k])); [rewrite <- app_assoc; exact E|]. rewrite lens_app, lens_cons. change (lens []) with 0. lia. }
  destruct (G es []) as (a & k & c & E & R); [reflexivity|change (lens []) with 0; lia|]. exists k. split; [rewrite E; apply in_app_iff; right; left; reflexivity|].
  rewrite (pos_split es a k c E); [exact R|]. rewrite E in ND. apply NoDup_remove_2 in ND. intros C. apply ND, in_app_iff. left. exact C.
Qed.

(** ** the order of writing *)
Lemma group_lex test insts : StronglySorted (fun p q : Z * inst => iKey (snd p) < iKey (snd q) \/ (iKey (snd p) = iKey (snd q) /\ fst p < fst q)) (group test insts).
Proof.
  set (R := fun p q : Z * inst => iKey (snd p) < iKey (snd q) \/ (iKey (snd p) = iKey (snd q) /\ fst p < fst q)).
  unfold group. fold (somes test (enumerate_from 0 insts)).
  assert (G : forall l, StronglySorted (fun p q : Z * inst => fst p < fst q) l -> StronglySorted R (sort_by (fun p => iKey (snd p)) l)).
  { induction 1 as [|x l S IH F]; cbn [sort_by fold_right]; [constructor|]. fold (sort_by (fun p : Z * inst => iKey (snd p)) l). set (l' := sort_by (fun p : Z * inst => iKey (snd p)) l) in *.
    assert (F' : Forall (fun q => fst x < fst q) l'). { rewrite Forall_forall in *. intros q Q. apply F. eapply Permutation_in; [apply sort_perm|exact Q]. }
    clearbody l'. clear S F. induction IH as [|y l' S IH F]; cbn [insert_by]; [repeat constructor|]. apply Forall_cons_iff in F' as [F1 F2]. destruct (Z.leb_spec (iKey (snd x)) (iKey (snd y))) as [L|L].
    - constructor; [constructor; assumption|]. constructor; [unfold R; lia|]. rewrite Forall_forall in *. intros q Q. specialize (F q Q). specialize (F2 q Q). unfold R in *. lia.
    - constructor; [apply IH; exact F2|]. apply Forall_forall. intros q Q. apply (Permutation_in _ (insert_perm _ x l')) in Q as [<-|Q]; [unfold R; lia|]. rewrite Forall_forall in F. apply F. exact Q. }
  apply G. assert (E : StronglySorted (fun p q : Z * option inst => fst p < fst q) (enumerate_from 0 insts)).
  { generalize 0. induction insts as [|o insts IH]; intros s; cbn [enumerate_from]; constructor; [apply IH|]. apply Forall_forall. intros [j o'] J. apply in_enumerate in J. cbn [fst]. lia. }
  induction E as [|[j o] l S IH F]; [constructor|]. unfold somes. cbn [flat_map snd fst]. fold (somes test l). apply sorted_app; [| exact IH|].
  - destruct o as [i|]; [destruct (test (itype i))|]; repeat constructor.
  - intros p [j' i'] P Q. apply in_somes in Q as [Q _]. rewrite Forall_forall in F. specialize (F _ Q). cbn [fst] in F. destruct o as [i|]; [|destruct P]. destruct (test (itype i)); [|destruct P]. destruct P as [<-|[]]. exact F.
Qed.
Lemma kind_type b : body_fits b -> kind b = kind_of_type (body_type b) /\ 1 <= body_type b <= 17.
Proof. unfold kind_of_type. destruct b as [n|f ns|rs]; cbn [kind body_type body_fits]; intros F; [|split; [reflexivity|lia]|split; [reflexivity|lia]]. destruct F as [_ F]. split; [|lia]. destruct (Z.ltb_spec (nType n) 16); [reflexivity|lia]. Qed.
Lemma order_written b : insts_ok (bInsts b) -> StronglySorted written_before (save_order b).
Proof.
  intros O. unfold save_order.
  assert (K : forall test c, (forall t, 1 <= t <= 17 -> test t = true -> kind_of_type t = c) -> forall p, In p (group test (bInsts b)) -> kind (iBody (snd p)) = c).
  { intros test c H [id i] P. pose proof (group_cls _ _ _ _ O P) as F. apply in_group in P as (_ & _ & T). cbn [snd]. destruct (kind_type _ F) as [-> B]. apply H; assumption. }
  assert (K1 : forall p, In p (group (fun t => t <? 16) (bInsts b)) -> kind (iBody (snd p)) = 1) by (apply K; unfold kind_of_type; intros t _ ->; reflexivity).
  assert (K2 : forall p, In p (group (fun t => t =? 16) (bInsts b)) -> kind (iBody (snd p)) = 16) by (apply K; unfold kind_of_type; intros t _ T; rewrite T; replace (t <? 16) with false by lia; reflexivity).
  assert (K3 : forall p, In p (group (fun t => t =? 17) (bInsts b)) -> kind (iBody (snd p)) = 17) by (apply K; unfold kind_of_type; intros t _ T; replace (t <? 16) with false by lia; replace (t =? 16) with false by lia; reflexivity).
  clear K.
  assert (S : forall test c, (forall p, In p (group test (bInsts b)) -> kind (iBody (snd p)) = c) -> StronglySorted written_before (group test (bInsts b))).
  { intros test c H. pose proof (group_lex test (bInsts b)) as L. revert H L. generalize (group test (bInsts b)) as l. induction l as [|p l IH]; intros H L; constructor; inversion L as [|? ? L1 L2]; subst.
    - apply IH; [intros q Q; apply H; right; exact Q|exact L1].
    - rewrite Forall_forall in *. intros q Q. right. rewrite (H p) by (left; reflexivity). rewrite (H q) by (right; exact Q). split; [reflexivity|apply L2; exact Q]. }
  apply sorted_app; [apply (S _ 1 K1)|apply sorted_app; [apply (S _ 16 K2)|apply (S _ 17 K3)|]|].
  - intros p q P Q. left. rewrite (K2 p P), (K3 q Q). lia.
  - intros p q P Q. left. rewrite (K1 p P). apply in_app_iff in Q as [Q|Q]; [rewrite (K2 q Q)|rewrite (K3 q Q)]; lia.
Qed.
Lemma written_irrefl p : ~ written_before p p.
Proof. unfold written_before. lia. Qed.
Lemma written_trans p q r : written_before p q -> written_before q r -> written_before p r.
Proof. unfold written_before. lia. Qed.
Lemma written_total p q : fst p <> fst q -> written_before p q \/ written_before q p.
Proof. unfold written_before. lia. Qed.
Lemma shares_key i j : body_fits (iBody i) -> body_fits (iBody j) -> shares i j <-> ikey i = ikey j.
Proof.
  intros F1 F2. unfold shares, ikey. rewrite (body_save_ok _ F1), (body_save_ok _ F2). split.
  - intros [(t & t' & d & [= _ E1] & [= _ E2]) E3]. congruence.
  - intros [= E1 E2]. split; [|exact E2]. do 3 eexists. split; [reflexivity|]. rewrite E1. reflexivity.
Qed.
Lemma key_kind i j : body_fits (iBody i) -> body_fits (iBody j) -> ikey i = ikey j -> kind (iBody i) = kind (iBody j).
Proof.
  intros F1 F2 E. assert (C : zlen (body_bytes (iBody i)) mod 12 = zlen (body_bytes (iBody j)) mod 12) by (injection E as -> _; reflexivity).
  rewrite !zlen_body in C by assumption.
  assert (M1 : forall n, (2 + 12 * n) mod 12 = 2) by (intros n; rewrite Z.mul_comm, Z.mod_add by lia; reflexivity). assert (M2 : forall n, (8 + 12 * n) mod 12 = 8) by (intros n; rewrite Z.mul_comm, Z.mod_add by lia; reflexivity).
  destruct (iBody i), (iBody j); cbn [kind]; rewrite ?M1, ?M2 in C; try reflexivity; discriminate.
Qed.

(** ** banks whose unlisted instruments can be told apart *)
Record separate (b : sbnk) : Prop := {
  sGood : insts_good (bInsts b);
  sKeys : NoDup (map fst (bInacc b));
  sOwner : forall k l, In (k, l) (bInacc b) -> l <> [] -> match k with None => True | Some id => exists i, entry b id i end;
  sHid : forall k l i, In (k, l) (bInacc b) -> In i l -> body_fits (iBody i) /\ body_good (iBody i) /\ 10 <= body_size (iBody i);
  sUniq : forall k l k' l' n n' i j, In (k, l) (bInacc b) -> In (k', l') (bInacc b) -> nth_error l n = Some i -> nth_error l' n' = Some j -> ikey i = ikey j -> k = k' /\ n = n';
  sApart : forall k l i id j, In (k, l) (bInacc b) -> In i l -> entry b id j -> ikey i <> ikey j;
  sOwn : forall id l i0 id' j, In (Some id, l) (bInacc b) -> l <> [] -> entry b id i0 -> entry b id' j -> ikey j = ikey i0 -> id <= id' /\ ~ written_before (id', j) (id, i0) }.

Lemma assoc_In {A} (d : list (option Z * A)) k v : NoDup (map fst d) -> In (k, v) d -> assoc k d = Some v.
Proof.
  unfold assoc. induction d as [|[k' v'] d IH]; intros N H; [destruct H|]. inversion N as [|? ? N1 N2]. subst. cbn [find fst]. destruct (oeqb k' k) eqn:E.
  - apply oeqb_eq in E. subst k'. destruct H as [[= ->]|H]; [reflexivity|]. exfalso. apply N1. apply (in_map fst) in H. exact H.
  - destruct H as [[= -> ->]|H]; [rewrite (proj2 (oeqb_eq k k) eq_refl) in E; discriminate|]. apply IH; assumption.
Qed.
Lemma assoc_some {A} (d : list (option Z * A)) k v : assoc k d = Some v -> In (k, v) d.
Proof. unfold assoc. destruct (find _ d) as [[k' v']|] eqn:E; [|discriminate]. intros [= <-]. apply find_some in E as [I E]. cbn [fst] in E. apply oeqb_eq in E. subst. exact I. Qed.

Section Separate.
  Variable b : sbnk.
  Hypothesis SEP : separate b.
  Let es := em_es b.
  Let base := 0x3C + 4 * zlen (bInsts b).
  Definition place (i : inst) : Z := pos (em_es b) (ikey i) + (0x3C + 4 * zlen (bInsts b)).
  Lemma sep_ok : insts_ok (bInsts b).
  Proof. apply good_ok, SEP. Qed.
  Lemma at_in k i : In i (inacc_at b k) -> exists l, In (k, l) (bInacc b) /\ inacc_at b k = l.
  Proof. unfold inacc_at. destruct (assoc k (bInacc b)) as [l|] eqn:E; [|intros []]. intros _. exists l. split; [apply assoc_some; exact E|reflexivity]. Qed.
  Lemma in_at k i : In i (inacc_at b k) <-> exists l, In (k, l) (bInacc b) /\ In i l.
  Proof.
    split.
    - intros H. destruct (at_in k i H) as (l & A & E). exists l. split; [exact A|rewrite <- E; exact H].
    - intros (l & A & H). unfold inacc_at. rewrite (assoc_In _ _ _ (sKeys b SEP) A). exact H.
  Qed.
  Lemma entry_order id i : entry b id i <-> In (id, i) (save_order b).
  Proof. rewrite (in_order b id i sep_ok). reflexivity. Qed.
  Lemma entry_fits id i : entry b id i -> body_fits (iBody i) /\ body_good (iBody i).
  Proof. intros [_ H]. apply (sGood b SEP). eapply nth_error_In, H. Qed.
  Lemma entry_fun id i j : entry b id i -> entry b id j -> i = j.
  Proof. intros [_ H] [_ H']. congruence. Qed.
  Lemma hid_key k : inacc_at b k <> [] -> match k with None => True | Some id => exists i, entry b id i end.
  Proof. unfold inacc_at. destruct (assoc k (bInacc b)) as [l|] eqn:E; [|congruence]. intros N. apply (sOwner b SEP k l); [apply assoc_some; exact E|exact N]. Qed.
  Lemma high_nil : flat_map (fun k => map (hid (Some k)) (inacc_at b (Some k))) (high_ids b) = [].
  Proof.
    assert (G : forall l, (forall k, In k l -> zlen (bInsts b) <= k) -> flat_map (fun k => map (hid (Some k)) (inacc_at b (Some k))) l = []).
    { induction l as [|k l IH]; intros H; cbn [flat_map]; [reflexivity|]. rewrite IH by (intros k' K; apply H; right; exact K). destruct (inacc_at b (Some k)) as [|x r] eqn:E; [reflexivity|].
      destruct (hid_key (Some k)) as [i [P N]]; [rewrite E; discriminate|]. assert (L : (Z.to_nat k < length (bInsts b))%nat) by (apply nth_error_Some; congruence). specialize (H k (or_introl eq_refl)). unfold zlen in H. lia. }
    apply G. intros k K. unfold high_ids in K. apply filter_In in K as [_ K]. lia.
  Qed.
  Lemma em_eq : em b = map (hid None) (inacc_at b None) ++ flat_map (em_of b) (save_order b).
  Proof. unfold em. rewrite high_nil, app_nil_r. reflexivity. Qed.
  Lemma em_cases e : In e (em b) <-> (exists id i, e = (Some id, Some id, i) /\ entry b id i) \/ (exists k i, e = hid k i /\ In i (inacc_at b k)).
  Proof.
    rewrite em_eq, in_app_iff, in_map_iff, in_flat_map. split.
    - intros [(i & <- & I)|([id i] & P & E)]; [right; exists None, i; split; [reflexivity|exact I]|]. apply entry_order in P. destruct E as [<-|E]; [left; exists id, i; split; [reflexivity|exact P]|]. cbn [fst] in E. apply in_map_iff in E as (j & <- & J). right. exists (Some id), j. split; [reflexivity|exact J].
    - intros [(id & i & -> & P)|(k & i & -> & I)].
      + right. exists (id, i). split; [apply entry_order; exact P|left; reflexivity].
      + destruct k as [id|]; [|left; exists i; split; [reflexivity|exact I]]. right. destruct (hid_key (Some id)) as [j J]; [intros E; rewrite E in I; destruct I|]. exists (id, j). split; [apply entry_order; exact J|]. right. apply in_map. exact I.
  Qed.
  Lemma hid_facts k i : In i (inacc_at b k) -> body_fits (iBody i) /\ body_good (iBody i) /\ 10 <= body_size (iBody i).
  Proof. intros H. apply in_at in H as (l & A & I). exact (sHid b SEP k l i A I). Qed.
  Lemma hid_apart k i id j : In i (inacc_at b k) -> entry b id j -> ikey i <> ikey j.
  Proof. intros H E. apply in_at in H as (l & A & I). exact (sApart b SEP k l i id j A I E). Qed.
  Lemma sep_fits : em_fits b.
  Proof. intros e E. apply em_cases in E as [(id & i & -> & P)|(k & i & -> & I)]; cbn [snd hid]; [apply (entry_fits _ _ P)|apply (hid_facts _ _ I)]. Qed.

  Lemma pos_two q r x y : map ekey (em b) = q ++ r -> In x q -> ~ In y q -> In y r -> pos es x + zlen (fst x) <= pos es y.
  Proof.
    intros E X Y R. destruct (posn_split y r R) as (a & c & -> & N & _). unfold es, em_es. rewrite E, app_assoc. apply pos_before; [|apply in_app_iff; left; exact X].
    intros C. apply in_app_iff in C as [C|C]; contradiction.
  Qed.
  Lemma place_two q r i j : map ekey (em b) = q ++ r -> In (ikey i) q -> ~ In (ikey j) q -> In (ikey j) r -> body_fits (iBody i) -> place i + body_size (iBody i) <= place j.
  Proof. intros E X Y R F. pose proof (pos_two q r _ _ E X Y R) as H. cbn [ikey fst] in H. rewrite zlen_body in H by exact F. unfold place. fold es. destruct (iBody i); cbn [body_size]; lia. Qed.
  Lemma place_le i j : In (ikey i) es -> In (ikey j) es -> place i = place j -> ikey i = ikey j.
  Proof.
    intros I J E. unfold place in E. fold es in E. assert (ND : NoDup es) by exact (dedup_NoDup _ [] (NoDup_nil _)).
    destruct (key_eqb (ikey i) (ikey j)) eqn:Q; [apply key_eqb_eq; exact Q|]. apply key_eqb_neq in Q.
    assert (PO : forall k, In k es -> 0 < zlen (fst k)). { intros k K. unfold es, em_es in K. apply (proj1 (dedup_In0 _ _)) in K. apply in_map_iff in K as (e & <- & K). apply sep_fits in K. apply body_even in K. unfold ekey. cbn [ikey fst]. lia. }
    pose proof (PO _ I). pose proof (PO _ J). destruct (pos_apart es _ _ ND I J Q); lia.
  Qed.
  Lemma entry_es id i : entry b id i -> In (ikey i) es.
  Proof. intros H. apply (em_in_es b (Some id, Some id, i)). apply em_cases. left. exists id, i. split; [reflexivity|exact H]. Qed.
  Lemma hid_es k i : In i (inacc_at b k) -> In (ikey i) es.
  Proof. intros H. apply (em_in_es b (hid k i)). apply em_cases. right. exists k, i. split; [reflexivity|exact H]. Qed.

  (** everything written up to the unlisted instruments filed under [k] *)
  Definition upto (k : option Z) (q r : list key) : Prop :=
    map ekey (em b) = q ++ r /\
    match k with
    | None => q = map ikey (inacc_at b None)
    | Some id => exists s1 i0 s2, save_order b = s1 ++ (id, i0) :: s2 /\
        q = map ikey (inacc_at b None) ++ map ekey (flat_map (em_of b) s1) ++ ikey i0 :: map ikey (inacc_at b (Some id)) end.
  Lemma upto_ex k : inacc_at b k <> [] -> exists q r, upto k q r.
  Proof.
    intros N. pose proof (hid_key k N) as O. unfold upto. rewrite em_eq, map_app, map_hid. destruct k as [id|].
    - destruct O as [i0 O]. apply entry_order in O. apply in_split in O as (s1 & s2 & E). rewrite E. exists (map ikey (inacc_at b None) ++ map ekey (flat_map (em_of b) s1) ++ ikey i0 :: map ikey (inacc_at b (Some id))), (map ekey (flat_map (em_of b) s2)).
      split; [|exists s1, i0, s2; split; reflexivity]. rewrite flat_map_app, map_app. cbn [flat_map]. rewrite map_app. change (map ekey (em_of b (id, i0))) with (ikey i0 :: map ekey (map (hid (Some id)) (inacc_at b (Some id)))). rewrite map_hid. rewrite <- !app_assoc. reflexivity.
    - exists (map ikey (inacc_at b None)), (map ekey (flat_map (em_of b) (save_order b))). split; reflexivity.
  Qed.
  Lemma upto_hid k q r i : upto k q r -> In i (inacc_at b k) -> In (ikey i) q.
  Proof. intros [_ U] I. destruct k as [id|]; [destruct U as (s1 & i0 & s2 & _ & ->); apply in_app_iff; right; apply in_app_iff; right; right; apply in_map; exact I|subst q; apply in_map; exact I]. Qed.
  Lemma em_of_cases s k : (forall p, In p s -> entry b (fst p) (snd p)) -> In k (map ekey (flat_map (em_of b) s)) -> (exists id i, In (id, i) s /\ k = ikey i) \/ (exists id i, In i (inacc_at b (Some id)) /\ k = ikey i).
  Proof.
    intros H K. apply in_map_iff in K as (e & <- & K). apply in_flat_map in K as ([id i] & P & K). destruct K as [<-|K]; [left; exists id, i; split; [exact P|reflexivity]|]. cbn [fst] in K. apply in_map_iff in K as (j & <- & J). right. exists id, j. split; [exact J|reflexivity].
  Qed.
  Lemma order_entries p : In p (save_order b) -> entry b (fst p) (snd p).
  Proof. destruct p as [id i]. intros H. apply entry_order. exact H. Qed.
  (** a listed instrument in [q] is at or before the owner *)
  Lemma upto_in k q r id j : upto k q r -> entry b id j -> In (ikey j) q ->
    exists kid i0, k = Some kid /\ entry b kid i0 /\ (ikey j = ikey i0 \/ exists s1 s2 id' j', save_order b = s1 ++ (kid, i0) :: s2 /\ In (id', j') s1 /\ ikey j' = ikey j).
  Proof.
    intros [E U] J I. destruct k as [kid|].
    - destruct U as (s1 & i0 & s2 & S & ->). exists kid, i0. split; [reflexivity|]. split; [apply entry_order; rewrite S; apply in_app_iff; right; left; reflexivity|].
      apply in_app_iff in I as [I|I]; [apply in_map_iff in I as (h & HE & H); exfalso; exact (hid_apart None h id j H J HE)|]. apply in_app_iff in I as [I|[I|I]].
      + right. apply em_of_cases in I as [(id' & j' & P & K)|(id' & h & H & K)]; [|exfalso; exact (hid_apart _ h id j H J (eq_sym K))|intros p P; apply order_entries; rewrite S; apply in_app_iff; left; exact P].
        exists s1, s2, id', j'. split; [exact S|]. split; [exact P|congruence].
      + left. congruence.
      + apply in_map_iff in I as (h & HE & H). exfalso. exact (hid_apart _ h id j H J HE).
    - subst q. apply in_map_iff in I as (h & HE & H). exfalso. exact (hid_apart None h id j H J HE).
  Qed.
  (** the owner writes its bytes, and its unlisted instruments come after *)
  Lemma owner_first kid i0 s1 s2 : save_order b = s1 ++ (kid, i0) :: s2 -> inacc_at b (Some kid) <> [] ->
    ~ In (ikey i0) (map ikey (inacc_at b None) ++ map ekey (flat_map (em_of b) s1)).
  Proof.
    intros S N C. assert (J : entry b kid i0) by (apply entry_order; rewrite S; apply in_app_iff; right; left; reflexivity).
    apply in_app_iff in C as [C|C]; [apply in_map_iff in C as (h & HE & H); exact (hid_apart None h kid i0 H J HE)|].
    apply em_of_cases in C as [(id' & j' & P & K)|(id' & h & H & K)]; [|exact (hid_apart _ h kid i0 H J (eq_sym K))|intros p P; apply order_entries; rewrite S; apply in_app_iff; left; exact P].
    assert (W : written_before (id', j') (kid, i0)).
    { pose proof (order_written b sep_ok) as SW. rewrite S in SW. clear - SW P. induction s1 as [|p s1 IH]; [destruct P|]. cbn [app] in SW. inversion SW as [|? ? SW1 SW2]. subst. destruct P as [->|P]; [|apply IH; assumption]. rewrite Forall_forall in SW2. apply SW2. apply in_app_iff. right. left. reflexivity. }
    unfold inacc_at in N. destruct (assoc (Some kid) (bInacc b)) as [l|] eqn:A; [|congruence]. apply assoc_some in A.
    destruct (sOwn b SEP kid l i0 id' j' A N J) as [_ X]; [apply entry_order; rewrite S; apply in_app_iff; left; exact P|congruence|contradiction].
  Qed.
  Lemma owner_before kid i0 i : entry b kid i0 -> In i (inacc_at b (Some kid)) -> place i0 + body_size (iBody i0) <= place i.
  Proof.
    intros J I. pose proof J as J'. apply entry_order in J'. apply in_split in J' as (s1 & s2 & S).
    apply (place_two (map ikey (inacc_at b None) ++ map ekey (flat_map (em_of b) s1) ++ [ikey i0]) (map ikey (inacc_at b (Some kid)) ++ map ekey (flat_map (em_of b) s2))).
    - rewrite em_eq, map_app, map_hid, S, flat_map_app, map_app. cbn [flat_map]. rewrite map_app. change (map ekey (em_of b (kid, i0))) with (ikey i0 :: map ekey (map (hid (Some kid)) (inacc_at b (Some kid)))). rewrite map_hid. rewrite <- !app_assoc. reflexivity.
    - apply in_app_iff. right. apply in_app_iff. right. left. reflexivity.
    - intros C. apply in_app_iff in C as [C|C].
      + apply in_map_iff in C as (h & HE & H). apply in_at in H as (l & A & H). apply in_at in I as (l' & A' & I). apply In_nth_error in H as [n H]. apply In_nth_error in I as [n' I]. destruct (sUniq b SEP _ _ _ _ _ _ _ _ A A' H I HE) as [X _]. discriminate.
      + apply in_app_iff in C as [C|[C|[]]]; [|exact (hid_apart _ i kid i0 I J (eq_sym C))].
        apply in_map_iff in C as (e & EK & C). apply in_flat_map in C as ([id' j'] & P & C). assert (P' : entry b id' j') by (apply entry_order; rewrite S; apply in_app_iff; left; exact P).
        destruct C as [<-|C]; [exact (hid_apart _ i id' j' I P' (eq_sym EK))|]. cbn [fst] in C. apply in_map_iff in C as (h & <- & H).
        apply in_at in H as (l & A & H). apply in_at in I as (l' & A' & I). apply In_nth_error in H as [n H]. apply In_nth_error in I as [n' I]. destruct (sUniq b SEP _ _ _ _ _ _ _ _ A A' H I EK) as [X _]. injection X as ->.
        pose proof (order_ids b sep_ok) as ND. rewrite S, map_app in ND. cbn [map fst] in ND. apply NoDup_remove_2 in ND. apply ND. apply in_app_iff. left. apply (in_map fst) in P. exact P.
    - apply in_app_iff. left. apply in_map. exact I.
    - apply (entry_fits _ _ J).
  Qed.
  Lemma s1_before kid i0 s1 s2 id' j' : save_order b = s1 ++ (kid, i0) :: s2 -> In (id', j') s1 -> inacc_at b (Some kid) <> [] -> place j' + body_size (iBody j') <= place i0.
  Proof.
    intros S P N. assert (J' : entry b id' j') by (apply entry_order; rewrite S; apply in_app_iff; left; exact P).
    apply (place_two (map ikey (inacc_at b None) ++ map ekey (flat_map (em_of b) s1)) (ikey i0 :: map ikey (inacc_at b (Some kid)) ++ map ekey (flat_map (em_of b) s2))).
    - rewrite em_eq, map_app, map_hid, S, flat_map_app, map_app. cbn [flat_map]. rewrite map_app. change (map ekey (em_of b (kid, i0))) with (ikey i0 :: map ekey (map (hid (Some kid)) (inacc_at b (Some kid)))). rewrite map_hid. rewrite <- !app_assoc. reflexivity.
    - apply in_app_iff. right. apply in_map_iff. exists (Some id', Some id', j'). split; [reflexivity|]. apply in_flat_map. exists (id', j'). split; [exact P|left; reflexivity].
    - exact (owner_first kid i0 s1 s2 S N).
    - left. reflexivity.
    - apply (entry_fits _ _ J').
  Qed.
  Lemma listed_before k q r id j i : upto k q r -> entry b id j -> In i (inacc_at b k) -> In (ikey j) q ->
    exists kid i0, k = Some kid /\ entry b kid i0 /\ place j <= place i0 /\ place i0 + body_size (iBody i0) <= place i /\ (place j = place i0 -> ikey j = ikey i0).
  Proof.
    intros U J I Q. destruct (upto_in k q r id j U J Q) as (kid & i0 & -> & J0 & C). exists kid, i0. split; [reflexivity|]. split; [exact J0|].
    split; [|split; [exact (owner_before kid i0 i J0 I)|apply place_le; [exact (entry_es _ _ J)|exact (entry_es _ _ J0)]]].
    destruct C as [C|(s1 & s2 & id' & j' & S & P & K)]; [unfold place; rewrite C; lia|]. assert (H := s1_before kid i0 s1 s2 id' j' S P). 
    assert (NE : inacc_at b (Some kid) <> []) by (intros X; rewrite X in I; destruct I). specialize (H NE). pose proof (size_pos (iBody j')). unfold place in *. rewrite K in H. lia.
  Qed.
  Lemma listed_after k q r id j i : upto k q r -> entry b id j -> In i (inacc_at b k) -> ~ In (ikey j) q -> place i + body_size (iBody i) <= place j.
  Proof.
    intros U J I Q. apply (place_two q r); [apply U|exact (upto_hid k q r i U I)|exact Q| |apply (hid_facts _ _ I)].
    pose proof (entry_es _ _ J) as X. unfold es, em_es in X. apply (proj1 (dedup_In0 _ _)) in X. destruct U as [E _]. rewrite E in X. apply in_app_iff in X as [X|X]; [contradiction|exact X].
  Qed.
  Lemma after_out k q r id j : upto k q r -> after b k id j -> ~ In (ikey j) q.
  Proof.
    intros U [[J W] A] C. destruct (upto_in k q r id j U J C) as (kid & i0 & -> & J0 & D). destruct A as (i1 & J1 & A). assert (i1 = i0) by exact (entry_fun _ _ _ J1 J0). subst i1.
    destruct D as [D|(s1 & s2 & id' & j' & S & P & K)].
    - apply (W kid i0 J0); [apply shares_key; [apply (entry_fits _ _ J0)|apply (entry_fits _ _ J)|congruence]|exact A].
    - assert (J' : entry b id' j') by (apply entry_order; rewrite S; apply in_app_iff; left; exact P).
      assert (WB : written_before (id', j') (kid, i0)).
      { pose proof (order_written b sep_ok) as SW. rewrite S in SW. clear - SW P. induction s1 as [|p s1 IH]; [destruct P|]. cbn [app] in SW. inversion SW as [|? ? SW1 SW2]. subst. destruct P as [->|P]; [|apply IH; assumption]. rewrite Forall_forall in SW2. apply SW2. apply in_app_iff. right. left. reflexivity. }
      apply (W id' j' J'); [apply shares_key; [apply (entry_fits _ _ J')|apply (entry_fits _ _ J)|exact K]|exact (written_trans _ _ _ WB A)].
  Qed.
  Lemma first_in (l : list (Z * inst)) k : In k (map (fun p => ikey (snd p)) l) -> exists a p c, l = a ++ p :: c /\ ikey (snd p) = k /\ ~ In k (map (fun p => ikey (snd p)) a).
  Proof.
    induction l as [|p l IH]; intros H; [destruct H|]. destruct (key_eqb (ikey (snd p)) k) eqn:E.
    - apply key_eqb_eq in E. exists [], p, l. split; [reflexivity|]. split; [exact E|intros []].
    - apply key_eqb_neq in E. destruct H as [H|H]; [congruence|]. destruct (IH H) as (a & p' & c & -> & K & N). exists (p :: a), p', c. split; [reflexivity|]. split; [exact K|]. intros [C|C]; contradiction.
  Qed.
  Lemma out_after k q r id j : upto k q r -> entry b id j -> ~ In (ikey j) q -> exists id' j', after b k id' j' /\ ikey j' = ikey j.
  Proof.
    intros U J Q. pose proof J as J'. apply entry_order in J'. destruct (first_in (save_order b) (ikey j)) as (a & [id' j'] & c & S & K & N); [apply in_map_iff; exists (id, j); split; [reflexivity|exact J']|]. cbn [snd] in K.
    pose proof (order_written b sep_ok) as SW. assert (JJ : entry b id' j') by (apply entry_order; rewrite S; apply in_app_iff; right; left; reflexivity).
    exists id', j'. split; [|exact K]. split; [split; [exact JJ|]|].
    - intros id2 j2 J2 SH W. apply shares_key in SH; [|apply (entry_fits _ _ J2)|apply (entry_fits _ _ JJ)]. pose proof J2 as J2'. apply entry_order in J2'. rewrite S in J2', SW. apply in_app_iff in J2' as [J2'|[E|J2']].
      + apply N. apply in_map_iff. exists (id2, j2). split; [cbn [snd]; congruence|exact J2'].
      + injection E as <- <-. exact (written_irrefl _ W).
      + assert (X : written_before (id', j') (id2, j2)). { clear - SW J2'. induction a as [|p a IH]; cbn [app] in SW; inversion SW as [|? ? S1 S2]; subst; [rewrite Forall_forall in S2; apply S2; exact J2'|apply IH; exact S1]. }
        exact (written_irrefl _ (written_trans _ _ _ X W)).
    - destruct U as [E U]. destruct k as [kid|]; [|exact I]. destruct U as (s1 & i0 & s2 & S' & EQ). exists i0.
      assert (J0 : entry b kid i0) by (apply entry_order; rewrite S'; apply in_app_iff; right; left; reflexivity). split; [exact J0|].
      destruct (Z.eq_dec kid id') as [->|NE]; [exfalso; assert (i0 = j') by exact (entry_fun _ _ _ J0 JJ); subst; apply Q; apply in_app_iff; right; apply in_app_iff; right; left; exact K|].
      destruct (written_total (kid, i0) (id', j')) as [W|W]; [exact NE|exact W|exfalso]. apply Q. rewrite EQ. apply in_app_iff. right. apply in_app_iff. left.
      assert (X : In (id', j') s1). { apply entry_order in JJ. rewrite S' in JJ. apply in_app_iff in JJ as [JJ|[JJ|JJ]]; [exact JJ|congruence|exfalso]. rewrite S' in SW.
        assert (X : written_before (kid, i0) (id', j')). { clear - SW JJ. induction s1 as [|p a IH]; cbn [app] in SW; inversion SW as [|? ? S1 S2]; subst; [rewrite Forall_forall in S2; apply S2; exact JJ|apply IH; exact S1]. }
        exact (written_irrefl _ (written_trans _ _ _ X W)). }
      apply in_map_iff. exists (Some id', Some id', j'). split; [exact K|]. apply in_flat_map. exists (id', j'). split; [exact X|left; reflexivity].
  Qed.
End Separate.

From Coq Require Import String Permutation Sorted.
From Verif Require Import PyBase PyLemmas PyTac CodeLemmas Gfx2DLemmas WaveModel WaveLemmas SeqTotal SsarLemmas SbnkModel SbnkLemmas.

(** ** the cache: distinct (data, merge ID) pairs in order of first appearance *)
Definition key : Type := (bytes * Z)%type.
Definition key_eqb (a b : key) : bool := beq (fst a) (fst b) && (snd a =? snd b).
Lemma key_eqb_eq a b : key_eqb a b = true <-> a = b.
Proof.
  destruct a as [d m], b as [d' m']. unfold key_eqb. cbn [fst snd]. rewrite andb_true_iff, beq_eq, Z.eqb_eq. split; [intros [-> ->]; reflexivity|intros [= -> ->]; split; reflexivity].
Qed.
Lemma key_eqb_refl a : key_eqb a a = true.
Proof. apply key_eqb_eq. reflexivity. Qed.
Lemma key_eqb_neq a b : key_eqb a b = false <-> a <> b.
Proof. rewrite <- key_eqb_eq. destruct (key_eqb a b); split; congruence. Qed.
Definition kmem (k : key) (l : list key) : bool := existsb (key_eqb k) l.
Lemma kmem_In k l : kmem k l = true <-> In k l.
Proof.
  unfold kmem. rewrite existsb_exists. split; [intros (x & H & E); apply key_eqb_eq in E; subst; exact H|intros H; exists k; split; [exact H|apply key_eqb_refl]].
Qed.
Lemma kmem_false k l : kmem k l = false <-> ~ In k l.
Proof. rewrite <- kmem_In. destruct (kmem k l); split; congruence. Qed.
Fixpoint dedup (seen l : list key) : list key :=
  match l with [] => [] | x :: r => if kmem x seen then dedup seen r else x :: dedup (seen ++ [x]) r end.
Lemma dedup_In x : forall l seen, In x (seen ++ dedup seen l) <-> In x (seen ++ l).
Proof.
  induction l as [|y l IH]; intros seen; cbn [dedup]; [reflexivity|]. destruct (kmem y seen) eqn:E.
  - rewrite IH. apply kmem_In in E. rewrite !in_app_iff. cbn [In]. intuition congruence.
  - specialize (IH (seen ++ [y])). rewrite <- !app_assoc in IH. cbn [app] in IH. exact IH.
Qed.
Lemma dedup_In0 x l : In x (dedup [] l) <-> In x l.
Proof. apply (dedup_In x l []). Qed.
Lemma NoDup_snoc {A} (l : list A) x : NoDup l -> ~ In x l -> NoDup (l ++ [x]).
Proof. intros H N. apply Permutation_NoDup with (x :: l); [|constructor; assumption]. apply Permutation_cons_append. Qed.
Lemma dedup_NoDup : forall l seen, NoDup seen -> NoDup (seen ++ dedup seen l).
Proof.
  induction l as [|y l IH]; intros seen H; cbn [dedup]; [rewrite app_nil_r; exact H|]. destruct (kmem y seen) eqn:E; [apply IH, H|].
  apply kmem_false in E. specialize (IH (seen ++ [y])). rewrite <- !app_assoc in IH. apply IH. apply NoDup_snoc; assumption.
Qed.
(** [dedup seen l] is a sublist of [l] *)
Inductive sublist {A} : list A -> list A -> Prop :=
| sub_nil : sublist [] []
| sub_skip x a b : sublist a b -> sublist a (x :: b)
| sub_take x a b : sublist a b -> sublist (x :: a) (x :: b).
Lemma dedup_sub : forall l seen, sublist (dedup seen l) l.
Proof. induction l as [|y l IH]; intros seen; cbn [dedup]; [constructor|]. destruct (kmem y seen); [apply sub_skip|apply sub_take]; apply IH. Qed.
Lemma sublist_In {A} (a b : list A) x : sublist a b -> In x a -> In x b.
Proof. induction 1; intros I; [exact I|right; auto|destruct I as [<-|I]; [left; reflexivity|right; auto]]. Qed.
Lemma sublist_sorted {A} (R : A -> A -> Prop) a b : sublist a b -> StronglySorted R b -> StronglySorted R a.
Proof.
  induction 1 as [|x a b S IH|x a b S IH]; intros H; [exact H|apply IH; inversion H; assumption|]. inversion H as [|? ? H1 H2]. constructor; [apply IH; exact H1|].
  apply Forall_forall. intros y Hy. rewrite Forall_forall in H2. apply H2. eapply sublist_In; eassumption.
Qed.
Lemma dedup_app : forall a b seen, dedup seen (a ++ b) = dedup seen a ++ dedup (seen ++ dedup seen a) b.
Proof.
  induction a as [|x a IH]; intros b seen; cbn [app dedup]; [rewrite app_nil_r; reflexivity|]. destruct (kmem x seen); [apply IH|].
  cbn [app]. f_equal. rewrite IH. f_equal. rewrite <- app_assoc. reflexivity.
Qed.
Lemma dedup_ext : forall l s s', (forall x, In x l -> kmem x s = kmem x s') -> dedup s l = dedup s' l.
Proof.
  induction l as [|y l IH]; intros s s' H; cbn [dedup]; [reflexivity|]. rewrite (H y) by (left; reflexivity).
  destruct (kmem y s'); [apply IH; intros; apply H; right; assumption|]. f_equal. apply IH. intros x Hx. unfold kmem in *. rewrite !existsb_app. f_equal. apply H. right. exact Hx.
Qed.
Lemma dedup_disjoint l s : (forall x, In x l -> ~ In x s) -> dedup s l = dedup [] l.
Proof. intros H. apply dedup_ext. intros x Hx. apply H in Hx. apply kmem_false in Hx. rewrite Hx. reflexivity. Qed.

(** strictly sorted lists with the same elements are equal *)
Lemma strict_eq {A} (f : A -> Z) : forall a b, StronglySorted (fun x y => f x < f y) a -> StronglySorted (fun x y => f x < f y) b ->
  (forall x, In x a <-> In x b) -> a = b.
Proof.
  induction a as [|x a IH]; intros b Sa Sb E.
  - destruct b as [|y b]; [reflexivity|]. destruct (proj2 (E y)). left. reflexivity.
  - destruct b as [|y b]; [destruct (proj1 (E x)); left; reflexivity|]. inversion Sa as [|? ? Sa1 Sa2]. inversion Sb as [|? ? Sb1 Sb2]. subst.
    rewrite Forall_forall in Sa2, Sb2.
    assert (x = y) as ->.
    { destruct (proj1 (E x) (or_introl eq_refl)) as [->|Hx]; [reflexivity|]. destruct (proj2 (E y) (or_introl eq_refl)) as [->|Hy]; [reflexivity|].
      apply Sa2 in Hy. apply Sb2 in Hx. lia. }
    f_equal. apply IH; [assumption|assumption|]. intros z. specialize (E z). cbn [In] in E. split; intros Hz.
    + destruct (proj1 E (or_intror Hz)) as [->|H]; [|exact H]. apply Sa2 in Hz. lia.
    + destruct (proj2 E (or_intror Hz)) as [->|H]; [|exact H]. apply Sb2 in Hz. lia.
Qed.

(** ** positions *)
Fixpoint posn (k : key) (es : list key) (base : Z) : option Z :=
  match es with [] => None | e :: r => if key_eqb e k then Some base else posn k r (base + zlen (fst e)) end.
Definition lens (es : list key) : Z := zlen (concat (map fst es)).
Lemma lens_cons e es : lens (e :: es) = zlen (fst e) + lens es.
Proof. unfold lens. cbn [map concat]. apply zlen_app. Qed.
Lemma lens_app a b : lens (a ++ b) = lens a + lens b.
Proof. unfold lens. rewrite map_app, concat_app, zlen_app. reflexivity. Qed.
Lemma lens_nonneg a : 0 <= lens a.
Proof. apply zlen_nonneg. Qed.
Lemma posn_app k : forall a b base, posn k (a ++ b) base = match posn k a base with Some o => Some o | None => posn k b (base + lens a) end.
Proof.
  induction a as [|e a IH]; intros b base; cbn [app posn].
  - change (lens []) with 0. rewrite Z.add_0_r. reflexivity.
  - destruct (key_eqb e k); [reflexivity|]. rewrite IH, lens_cons. rewrite <- Z.add_assoc. reflexivity.
Qed.
Lemma posn_None k : forall es base, posn k es base = None <-> ~ In k es.
Proof.
  induction es as [|e es IH]; intros base; cbn [posn In]; [tauto|]. destruct (key_eqb e k) eqn:E.
  - apply key_eqb_eq in E. split; [discriminate|tauto].
  - apply key_eqb_neq in E. rewrite IH. tauto.
Qed.
(** position of [k], or 0 *)
Definition pos (es : list key) (k : key) : Z := match posn k es 0 with Some o => o | None => 0 end.
Lemma posn_split k es : In k es -> exists a b, es = a ++ k :: b /\ ~ In k a /\ posn k es 0 = Some (lens a).
Proof.
  intros H. destruct (posn k es 0) as [o|] eqn:E; [|apply posn_None in E; contradiction].
  assert (G : forall es base o, posn k es base = Some o -> exists a b, es = a ++ k :: b /\ ~ In k a /\ o = base + lens a).
  { clear. induction es as [|e es IH]; intros base o H; cbn [posn] in H; [discriminate|]. destruct (key_eqb e k) eqn:E.
    - apply key_eqb_eq in E. injection H as <-. exists [], es. subst. split; [reflexivity|]. split; [intros []|]. change (lens []) with 0. lia.
    - apply key_eqb_neq in E. apply IH in H as (a & b & -> & N & ->). exists (e :: a), b. split; [reflexivity|]. rewrite lens_cons. split; [cbn [In]; tauto|lia]. }
  destruct (G _ _ _ E) as (a & b & E1 & E2 & ->). exists a, b. rewrite Z.add_0_l. auto.
Qed.
Lemma posn_app_in k a b : In k a -> pos (a ++ b) k = pos a k.
Proof.
  intros H. unfold pos. rewrite posn_app. destruct (posn k a 0) eqn:E; [reflexivity|]. apply posn_None in E. contradiction.
Qed.

(** ** one pass of addInstrument *)
Definition ikey (i : inst) : key := (body_bytes (iBody i), iMerge i).
Definition repr (st : bytes * cache) (es : list key) : Prop :=
  fst st = concat (map fst es) /\ forall d m, cache_find (snd st) d m = posn (d, m) es 0.
Lemma add_repr st es i : repr st es -> body_fits (iBody i) -> exists st', addInstrument st i = Ok (st', pos (es ++ dedup es [ikey i]) (ikey i)) /\
  repr st' (es ++ dedup es [ikey i]).
Proof.
  intros [R1 R2] F. unfold addInstrument. rewrite body_save_ok by exact F. cbn [bind dedup]. rewrite R2. change (body_bytes (iBody i), iMerge i) with (ikey i).
  destruct (posn (ikey i) es 0) as [o|] eqn:E.
  - assert (K : kmem (ikey i) es = true). { apply kmem_In. destruct (kmem (ikey i) es) eqn:K; [apply kmem_In, K|]. apply kmem_false in K. apply (posn_None _ _ 0) in K. congruence. }
    rewrite K, app_nil_r. exists st. split; [unfold pos; rewrite E; reflexivity|split; assumption].
  - assert (K : kmem (ikey i) es = false) by (apply kmem_false; apply posn_None in E; exact E). rewrite K. exists (fst st ++ body_bytes (iBody i), (body_bytes (iBody i), iMerge i, zlen (fst st)) :: snd st). split.
    + f_equal. f_equal. unfold pos. rewrite posn_app, E. cbn [posn]. rewrite key_eqb_refl. rewrite Z.add_0_l. unfold lens. rewrite R1. reflexivity.
    + split; cbn [fst snd]; [rewrite R1, map_app, concat_app; cbn [map concat]; rewrite app_nil_r; reflexivity|].
      intros d m. unfold cache_find. cbn [find fst snd]. rewrite posn_app. cbn [posn]. fold (cache_find (snd st) d m).
      destruct (beq (body_bytes (iBody i)) d && (iMerge i =? m))%bool eqn:Q.
      * assert (EK : ikey i = (d, m)) by (apply key_eqb_eq; exact Q). rewrite <- EK, E, key_eqb_refl, Z.add_0_l. unfold lens. rewrite R1. reflexivity.
      * assert (NK : key_eqb (ikey i) (d, m) = false) by exact Q. rewrite NK. fold (cache_find (snd st) d m). rewrite R2. destruct (posn (d, m) es 0); reflexivity.
Qed.
Lemma save_run b : bInacc b = [] -> forall l st es offs, repr st es -> Forall (fun p => body_fits (iBody (snd p))) l ->
  exists st', foldM (save_one b) (st, offs) l = Ok (st', rev (map (fun p => (fst p, pos (es ++ dedup es (map (fun p => ikey (snd p)) l)) (ikey (snd p)))) l) ++ offs) /\
  repr st' (es ++ dedup es (map (fun p => ikey (snd p)) l)).
Proof.
  intros HB. induction l as [|[id i] l IH]; intros st es offs R F; cbn [foldM map].
  - exists st. cbn [dedup rev]. rewrite app_nil_r. split; [reflexivity|exact R].
  - inversion F as [|? ? F1 F2]. subst. cbn [snd] in F1. destruct (add_repr st es i R F1) as (st1 & A1 & R1).
    unfold save_one at 1. cbn [fst snd]. rewrite A1. cbn [bind]. unfold inacc_at. rewrite HB. cbn [assoc find add_all foldM bind]. unfold assoc, add_all. cbn [find foldM bind].
    destruct (IH st1 _ ((id, pos (es ++ dedup es [ikey i]) (ikey i)) :: offs) R1 F2) as (st2 & A2 & R2). 
    assert (EQ : (es ++ dedup es [ikey i]) ++ dedup (es ++ dedup es [ikey i]) (map (fun p : Z * inst => ikey (snd p)) l) = es ++ dedup es (ikey i :: map (fun p : Z * inst => ikey (snd p)) l)).
    { rewrite <- app_assoc, <- dedup_app. reflexivity. }
    rewrite EQ in A2, R2. exists st2. split; [|exact R2]. rewrite A2. f_equal. f_equal. cbn [rev]. rewrite <- app_assoc. cbn [app fst snd]. f_equal. f_equal. f_equal.
    rewrite <- EQ. symmetry. apply posn_app_in. apply dedup_In. apply in_or_app. right. left. reflexivity.
Qed.

(** ** sorting and enumerating *)
Lemma insert_perm {A} (k : A -> Z) x l : Permutation (insert_by k x l) (x :: l).
Proof. induction l as [|y l IH]; cbn [insert_by]; [reflexivity|]. destruct (k x <=? k y); [reflexivity|]. rewrite IH. apply perm_swap. Qed.
Lemma sort_perm {A} (k : A -> Z) l : Permutation (sort_by k l) l.
Proof. induction l as [|x l IH]; cbn [sort_by fold_right]; [reflexivity|]. fold (sort_by k l). rewrite insert_perm. constructor. exact IH. Qed.
Lemma insert_sorted {A} (k : A -> Z) x l : StronglySorted (fun a b => k a <= k b) l -> StronglySorted (fun a b => k a <= k b) (insert_by k x l).
Proof.
  induction 1 as [|y l S IH F]; cbn [insert_by]; [repeat constructor|]. destruct (Z.leb_spec (k x) (k y)).
  - constructor; [constructor; assumption|]. constructor; [assumption|]. eapply Forall_impl; [|exact F]. cbn. intros; lia.
  - constructor; [exact IH|]. apply Forall_forall. intros z Hz. apply (Permutation_in _ (insert_perm k x l)) in Hz as [<-|Hz]; [lia|]. rewrite Forall_forall in F. apply F, Hz.
Qed.
Lemma sort_sorted {A} (k : A -> Z) l : StronglySorted (fun a b => k a <= k b) (sort_by k l).
Proof. induction l as [|x l IH]; cbn [sort_by fold_right]; [constructor|]. apply insert_sorted, IH. Qed.
Lemma in_enumerate {A} (l : list A) : forall s i x, In (i, x) (enumerate_from s l) <-> s <= i /\ nth_error l (Z.to_nat (i - s)) = Some x.
Proof.
  induction l as [|y l IH]; intros s i x; cbn [enumerate_from In].
  - split; [tauto|]. intros [_ H]. destruct (Z.to_nat (i - s)); discriminate.
  - rewrite IH. split.
    + intros [[= <- <-]|[H E]]; [split; [lia|]; rewrite Z.sub_diag; reflexivity|]. split; [lia|]. replace (Z.to_nat (i - s)) with (S (Z.to_nat (i - (s + 1)))) by lia. exact E.
    + intros [H E]. destruct (Z.eq_dec i s) as [->|N]; [left; rewrite Z.sub_diag in E; change (Z.to_nat 0) with O in E; cbn [nth_error] in E; injection E as ->; reflexivity|]. right. split; [lia|].
      replace (Z.to_nat (i - s)) with (S (Z.to_nat (i - (s + 1)))) in E by lia. exact E.
Qed.
Lemma enumerate_map {A B} (f : A -> B) l : forall s, enumerate_from s (map f l) = map (fun p => (fst p, f (snd p))) (enumerate_from s l).
Proof. induction l as [|x l IH]; intros s; cbn [map enumerate_from fst snd]; [reflexivity|]. f_equal. apply IH. Qed.
Lemma fst_enumerate {A} (l : list A) : forall s, map fst (enumerate_from s l) = range_z s (length l).
Proof. induction l as [|x l IH]; intros s; cbn [enumerate_from map length range_z fst]; [reflexivity|]. f_equal. apply IH. Qed.
Lemma NoDup_range s n : NoDup (range_z s n).
Proof. revert s; induction n as [|n IH]; intros s; cbn [range_z]; constructor; [|apply IH]. intros H. apply in_range_z in H. lia. Qed.
Definition somes (test : Z -> bool) (l : list (Z * option inst)) : list (Z * inst) :=
  flat_map (fun p : Z * option inst => match snd p with Some i => if test (itype i) then [(fst p, i)] else [] | None => [] end) l.
Lemma in_somes test l id i : In (id, i) (somes test l) <-> In (id, Some i) l /\ test (itype i) = true.
Proof.
  unfold somes. rewrite in_flat_map. split.
  - intros ([j o] & H & E). cbn [snd fst] in E. destruct o as [i'|]; [|destruct E]. destruct (test (itype i')) eqn:T; [|destruct E]. destruct E as [[= -> ->]|[]]. split; assumption.
  - intros [H T]. exists (id, Some i). split; [exact H|]. cbn [snd fst]. rewrite T. left. reflexivity.
Qed.
Lemma in_group test insts id i : In (id, i) (group test insts) <-> 0 <= id /\ nth_error insts (Z.to_nat id) = Some (Some i) /\ test (itype i) = true.
Proof.
  unfold group. fold (somes test (enumerate_from 0 insts)). split; intros H.
  - apply (Permutation_in _ (sort_perm _ _)) in H. apply in_somes in H as [H T]. apply in_enumerate in H as [H E]. rewrite Z.sub_0_r in E. auto.
  - destruct H as (H & E & T). apply (Permutation_in _ (Permutation_sym (sort_perm _ _))). apply in_somes. split; [|exact T]. apply in_enumerate. rewrite Z.sub_0_r. auto.
Qed.
Lemma somes_sub test l : NoDup (map fst l) -> NoDup (map fst (somes test l)).
Proof.
  induction l as [|[j o] l IH]; intros H; [constructor|]. inversion H as [|? ? N H']. subst. cbn [somes flat_map snd fst]. fold (somes test l). rewrite map_app.
  assert (NI : ~ In j (map fst (somes test l))).
  { intros C. apply in_map_iff in C as ([j' i'] & E & C). cbn [fst] in E. subst j'. apply in_somes in C as [C _]. apply N. apply in_map_iff. exists (j, Some i'). split; [reflexivity|exact C]. }
  destruct o as [i|]; [|exact (IH H')]. destruct (test (itype i)); [|exact (IH H')]. cbn [map app fst]. constructor; [exact NI|exact (IH H')].
Qed.
Definition insts_ok (insts : list (option inst)) : Prop := forall i, In (Some i) insts -> body_fits (iBody i).
Lemma group_cls insts t i id : insts_ok insts -> In (id, i) (group t insts) -> body_fits (iBody i).
Proof. intros H I. apply in_group in I as (_ & E & _). apply H. eapply nth_error_In, E. Qed.
Definition cls (k : key) : Z := zlen (fst k) mod 12.
Lemma cls_single i : body_fits (iBody i) -> itype i <? 16 = true -> cls (ikey i) = 10.
Proof.
  intros F T. unfold cls, ikey. cbn [fst]. rewrite zlen_body by exact F. unfold itype in T. destruct (iBody i) as [n|f ns|rs]; cbn [body_type] in T; try discriminate. reflexivity.
Qed.
Lemma cls_range i : body_fits (iBody i) -> itype i =? 16 = true -> cls (ikey i) = 2.
Proof.
  intros F T. unfold cls, ikey. cbn [fst]. rewrite zlen_body by exact F. unfold itype in T. destruct (iBody i) as [n|f ns|rs]; cbn [body_type] in T; try discriminate.
  - destruct F. lia.
  - rewrite Z.add_comm, Z.mul_comm, Z.add_comm, Z.mod_add by lia. reflexivity.
Qed.
Lemma cls_regional i : body_fits (iBody i) -> itype i =? 17 = true -> cls (ikey i) = 8.
Proof.
  intros F T. unfold cls, ikey. cbn [fst]. rewrite zlen_body by exact F. unfold itype in T. destruct (iBody i) as [n|f ns|rs]; cbn [body_type] in T; try discriminate.
  - destruct F. lia.
  - rewrite Z.mul_comm, Z.mod_add by lia. reflexivity.
Qed.
Lemma itype_cases i : body_fits (iBody i) -> (itype i <? 16) = true \/ (itype i =? 16) = true \/ (itype i =? 17) = true.
Proof. unfold itype. destruct (iBody i) as [n|f ns|rs]; cbn [body_type]; intros F; [destruct F; left; lia|right; left; reflexivity|right; right; reflexivity]. Qed.
Lemma in_order b id i : insts_ok (bInsts b) -> In (id, i) (save_order b) <-> 0 <= id /\ nth_error (bInsts b) (Z.to_nat id) = Some (Some i).
Proof.
  intros O. unfold save_order. rewrite !in_app_iff, !in_group. split; [intuition|]. intros [H E].
  assert (F : body_fits (iBody i)) by (apply O; eapply nth_error_In, E). destruct (itype_cases i F) as [T|[T|T]]; auto.
Qed.
Lemma order_ids b : insts_ok (bInsts b) -> NoDup (map fst (save_order b)).
Proof.
  intros O. unfold save_order. rewrite !map_app.
  assert (G : forall t, NoDup (map fst (group t (bInsts b)))).
  { intros t. unfold group. eapply Permutation_NoDup; [apply Permutation_map, Permutation_sym, sort_perm|]. apply somes_sub. rewrite fst_enumerate. apply NoDup_range. }
  assert (X : forall t t' id, (forall i, t (itype i) = true -> t' (itype i) = true -> False) -> In id (map fst (group t (bInsts b))) -> In id (map fst (group t' (bInsts b))) -> False).
  { intros t t' id H I1 I2. apply in_map_iff in I1 as ([a i] & <- & I1). apply in_map_iff in I2 as ([a' i'] & E & I2). cbn [fst] in E. subst a'. apply in_group in I1 as (_ & E1 & T1). apply in_group in I2 as (_ & E2 & T2).
    assert (i = i') by congruence. subst. exact (H _ T1 T2). }
  assert (AP : forall a c : list Z, NoDup a -> NoDup c -> (forall x, In x a -> In x c -> False) -> NoDup (a ++ c)).
  { induction a as [|x a IH]; intros c Ha Hc Hx; [exact Hc|]. inversion Ha; subst. cbn [app]. constructor.
    - rewrite in_app_iff. intros [C|C]; [contradiction|]. eapply Hx; [left; reflexivity|exact C].
    - apply IH; [assumption|assumption|]. intros y H3 H4. eapply Hx; [right; exact H3|exact H4]. }
  apply AP; [apply G| |].
  - apply AP; [apply G|apply G|]. intros x. apply X. intros i. lia.
  - intros x I1 I2. apply in_app_iff in I2 as [I2|I2]; revert I1 I2; apply X; intros i; lia.
Qed.
Lemma zassoc_In l k v : NoDup (map fst l) -> In (k, v) l -> zassoc k l = Some v.
Proof.
  unfold zassoc. induction l as [|[a c] l IH]; intros N H; [destruct H|]. inversion N; subst. cbn [find fst]. destruct (Z.eqb_spec a k) as [->|D].
  - destruct H as [[= ->]|H]; [reflexivity|]. exfalso. apply H2. apply in_map_iff. exists (k, v). split; [reflexivity|exact H].
  - destruct H as [[= -> ->]|H]; [congruence|]. apply IH; assumption.
Qed.
Lemma zassoc_none l k : ~ In k (map fst l) -> zassoc k l = None.
Proof.
  unfold zassoc. induction l as [|[a c] l IH]; intros N; [reflexivity|]. cbn [find fst]. cbn [map fst In] in N. destruct (Z.eqb_spec a k) as [->|D]; [tauto|]. apply IH. tauto.
Qed.

(** ** the saved file *)
Definition order_keys (b : sbnk) : list key := map (fun p => ikey (snd p)) (save_order b).
Definition bank_es (b : sbnk) : list key := dedup [] (order_keys b).
Definition bank_data (b : sbnk) : bytes := concat (map fst (bank_es b)).
Definition bank_row (b : sbnk) (o : option inst) : Z * Z :=
  match o with Some i => (itype i, pos (bank_es b) (ikey i) + (0x3C + 4 * zlen (bInsts b))) | None => (0, 0) end.
Definition finish (tos : list (Z * Z)) (d : bytes) (u : Z) (w : list (option Z)) : res (bytes * Z * list (option Z)) :=
  rows <- mapM (fun p : Z * Z => r <- pack_us [(1%nat, fst p); (2%nat, snd p)] ;; Ok (r ++ [0])) tos ;;
  let len := 0x3C + 4 * zlen tos + zlen d + (- (zlen d)) mod 4 in
  h <- std_pack (asc "SBNK") 0x100 len 1 ;;
  b1 <- pack_us [(4%nat, len - 0x10)] ;;
  b2 <- pack_us [(4%nat, zlen tos)] ;;
  Ok (h ++ (asc "DATA" ++ b1 ++ zeros 32 ++ b2) ++ concat rows ++ pad_to 4 0 d, u, w).
Lemma mapM_ext {A B C} (f : A -> res C) (g : B -> res C) (h : A -> B) l : (forall x, In x l -> f x = g (h x)) -> mapM f l = mapM g (map h l).
Proof.
  induction l as [|x l IH]; intros H; cbn [mapM map]; [reflexivity|]. rewrite H by (left; reflexivity). rewrite IH by (intros; apply H; right; assumption). reflexivity.
Qed.
Lemma save_data_ok b : bInacc b = [] -> insts_ok (bInsts b) ->
  save_data b = Ok (bank_data b, rev (map (fun p => (fst p, pos (bank_es b) (ikey (snd p)))) (save_order b))).
Proof.
  intros HB O. unfold save_data, inacc_at. rewrite HB. cbn [assoc find]. unfold assoc. cbn [find add_all foldM bind]. unfold add_all. cbn [foldM bind].
  destruct (save_run b HB (save_order b) ([], []) [] []) as (st & E & R).
  - split; [reflexivity|]. intros d m. reflexivity.
  - apply Forall_forall. intros [id i] H. cbn [snd]. apply (in_order b id i O) in H as [_ H]. apply O. eapply nth_error_In, H.
  - rewrite E. cbn [bind]. cbn [app] in *. unfold high_ids. rewrite HB. cbn [flat_map sort_by fold_right filter foldM bind]. rewrite app_nil_r. destruct R as [R _]. rewrite R. reflexivity.
Qed.
Lemma sbnk_save_eq b : bInacc b = [] -> insts_ok (bInsts b) ->
  sbnk_save b = finish (map (bank_row b) (bInsts b)) (bank_data b) (bUnk b) (bWars b).
Proof.
  intros HB O. unfold sbnk_save. rewrite (save_data_ok b HB O). cbn [bind]. set (offs := rev _).
  rewrite (mapM_ext (save_row (0x3C + 4 * zlen (bInsts b)) offs) (fun p : Z * Z => r <- pack_us [(1%nat, fst p); (2%nat, snd p)] ;; Ok (r ++ [0])) (fun p => bank_row b (snd p))).
  - rewrite <- (map_map snd (bank_row b)). replace (map snd (enumerate_from 0 (bInsts b))) with (bInsts b).
    + unfold finish. rewrite zlen_map. reflexivity.
    + generalize 0. clear. induction (bInsts b) as [|x l IH]; intros s; cbn [enumerate_from map snd]; [reflexivity|]. f_equal. apply IH.
  - intros [id o] H. cbn [snd]. unfold save_row. cbn [fst snd]. apply in_enumerate in H as [P H]. rewrite Z.sub_0_r in H.
    assert (ND : NoDup (map fst offs)).
    { unfold offs. rewrite map_rev, map_map. cbn [fst]. apply NoDup_rev. exact (order_ids b O). }
    destruct o as [i|]; cbn [bank_row fst snd].
    + rewrite (zassoc_In offs id (pos (bank_es b) (ikey i)) ND); [reflexivity|]. unfold offs. apply -> in_rev. apply in_map_iff. exists (id, i). split; [reflexivity|]. apply (in_order b id i O). auto.
    + rewrite zassoc_none; [reflexivity|]. unfold offs. rewrite map_rev, map_map. cbn [fst]. intros C. apply in_rev in C. apply in_map_iff in C as ([a i] & E & C). cbn [fst] in E. subst a. apply (in_order b id i O) in C as [_ C]. congruence.
Qed.

(** ** loading *)
Definition rowb (p : Z * Z) : bytes := le 1 (fst p) ++ le 2 (snd p) ++ [0].
Definition row_ok (p : Z * Z) : Prop := 0 <= fst p < 256 /\ 0 <= snd p < 65536.
Definition bank_head (tos : list (Z * Z)) (d : bytes) : bytes :=
  std_bytes (asc "SBNK") 0x100 (0x3C + 4 * zlen tos + zlen d + (- (zlen d)) mod 4) 1 ++ asc "DATA" ++
  le 4 (0x2C + 4 * zlen tos + zlen d + (- (zlen d)) mod 4) ++ zeros 32 ++ le 4 (zlen tos) ++ concat (map rowb tos).
Definition bank_file (tos : list (Z * Z)) (d : bytes) : bytes := bank_head tos d ++ d ++ zeros ((- (zlen d)) mod 4).
Lemma zlen_rowb p : zlen (rowb p) = 4.
Proof. unfold rowb. rewrite !zlen_app, !zlen_le. reflexivity. Qed.
Lemma zlen_head tos d : zlen (bank_head tos d) = 0x3C + 4 * zlen tos.
Proof.
  unfold bank_head. rewrite !zlen_app, zlen_std, !zlen_le, (zlen_concat_map _ _ 4) by (intros; apply zlen_rowb). rewrite zlen_zeros by lia. change (zlen (asc "SBNK")) with 4. change (zlen (asc "DATA")) with 4. lia.
Qed.
Lemma finish_inv tos d u w f u' w' : finish tos d u w = Ok (f, u', w') ->
  Forall row_ok tos /\ 0x3C + 4 * zlen tos + zlen d + (- (zlen d)) mod 4 < 4294967296 /\ f = bank_file tos d /\ u' = u /\ w' = w.
Proof.
  intros H. unfold finish in H. apply bind_ok in H as (rows & Hr & H). cbv zeta in H. apply bind_ok in H as (h & Hh & H). apply std_pack_inv in Hh as (_ & Hs & _ & ->).
  apply (mapM_inv _ row_ok rowb) in Hr as [Hr ->].
  - apply bind_ok in H as (b1 & Hb1 & H). apply bind_ok in H as (b2 & Hb2 & H).
    pose proof (zlen_nonneg tos). pose proof (zlen_nonneg d). pose proof (Z.mod_pos_bound (- zlen d) 4).
    revert Hb1 Hb2. do_pack. do_pack. intros Hb1 Hb2. apply ok_inj in Hb1. apply ok_inj in Hb2. apply ok_inj in H. injection H as Hf Hu Hw.
    split; [exact Hr|]. split; [lia|]. split; [|split; congruence]. rewrite <- Hf, <- Hb1, <- Hb2. unfold bank_file, bank_head, pad_to. rewrite <- !app_assoc.
    match goal with |- context [le 4 (?x - 16)] => replace (x - 16) with (0x2C + 4 * zlen tos + zlen d + (- (zlen d)) mod 4) by lia end. reflexivity.
  - intros p r Hp. apply bind_ok in Hp as (x & Hx & Hp). inv_pack Hx. apply ok_inj in Hp. unfold row_ok, rowb. split; [lia|]. rewrite <- Hp. reflexivity.
Qed.
Lemma finish_ok tos d u w : Forall row_ok tos -> 0x3C + 4 * zlen tos + zlen d + (- (zlen d)) mod 4 < 4294967296 -> finish tos d u w = Ok (bank_file tos d, u, w).
Proof.
  intros F L. pose proof (zlen_nonneg tos). pose proof (zlen_nonneg d). pose proof (Z.mod_pos_bound (- zlen d) 4). unfold finish.
  rewrite (mapM_map _ rowb).
  - cbn [bind]. cbv zeta. rewrite std_pack_ok by lia. cbn [bind]. do_pack. cbn [bind]. do_pack. cbn [bind]. unfold bank_file, bank_head, pad_to. rewrite <- !app_assoc.
    match goal with |- context [le 4 (?x - 16)] => replace (x - 16) with (0x2C + 4 * zlen tos + zlen d + (- (zlen d)) mod 4) by lia end. reflexivity.
  - intros p Hp. rewrite Forall_forall in F. destruct (F _ Hp) as [F1 F2]. do_pack. cbn [bind]. unfold rowb. rewrite <- app_assoc. reflexivity.
Qed.

(** the first loop, given what is read at every ID *)
Lemma load_table_ok data (f : Z -> option inst) (off len : Z -> Z) ids : forall un,
  (forall id, In id ids -> exists t, unpack_u 1 data (0x3C + 4 * id) = Ok t /\ unpack_u 2 data (0x3C + 4 * id + 1) = Ok (off id) /\
     (exists z, unpack_u 1 data (0x3C + 4 * id + 3) = Ok z) /\ makeInstrumentAt data t (off id) = Ok (f id, len id)) ->
  exists m, load_table data ids un = Ok (map f ids, m, filter (fun x => forallb (fun id => negb ((off id <=? x) && (x <? off id + len id))) ids) un).
Proof.
  induction ids as [|id ids IH]; intros un H; cbn [load_table map].
  - exists []. f_equal. f_equal. symmetry. apply filter_all. reflexivity.
  - destruct (H id (or_introl eq_refl)) as (t & E1 & E2 & (z & E3) & E4). rewrite E1; cbn [bind]; rewrite E2; cbn [bind]; rewrite E3; cbn [bind]; rewrite E4; cbn [bind].
    destruct (IH (consume (off id) (len id) un)) as (m & ->); [intros; apply H; right; assumption|]. cbn [bind]. eexists. f_equal. f_equal. 
    unfold consume. clear. induction un as [|x un IH]; cbn [filter forallb]; [reflexivity|].
    destruct (negb _) eqn:E; cbn [andb filter]; [|exact IH]. destruct (forallb _ ids); [f_equal; exact IH|exact IH].
Qed.
Lemma filter_range p s n k : (forall x, s <= x < s + Z.of_nat n -> p x = false) -> (forall x, s + Z.of_nat n <= x -> p x = true) ->
  filter p (range_z s (n + k)) = range_z (s + Z.of_nat n) k.
Proof.
  intros H1 H2. rewrite range_z_app, filter_app.
  replace (filter p (range_z s n)) with (@nil Z). 2:{ symmetry. revert s H1 H2. induction n as [|n IH]; intros s H1 H2; cbn [range_z filter]; [reflexivity|]. rewrite H1 by lia. apply IH; intros; [apply H1; lia|apply H2; lia]. }
  cbn [app]. apply filter_all. intros x Hx. apply H2. apply in_range_z in Hx. lia.
Qed.
Lemma scan_pad order data fs insts m acc k : scan k order data fs insts m [] acc = Ok acc /\
  scan (S k) order data fs insts m [fs - 2; fs - 1] acc = Ok acc.
Proof.
  split; [destruct k; reflexivity|]. cbn [scan]. unfold drop_padding, inb, remove_z. cbn [existsb].
  replace (fs - 1 =? fs - 2) with false by lia. replace (fs - 3 =? fs - 2) with false by lia. replace (fs - 3 =? fs - 1) with false by lia. rewrite !Z.eqb_refl. cbn [orb andb negb].
  cbn [filter]. rewrite !Z.eqb_refl. replace (fs - 2 =? fs - 1) with false by lia. cbn [negb filter]. rewrite Z.eqb_refl. reflexivity.
Qed.
Definition relabel (b : sbnk) (o : option inst) : option inst :=
  match o with Some i => Some {| iBody := iBody i; iKey := snd (bank_row b o); iMerge := snd (bank_row b o) |} | None => None end.
Definition reloaded (b : sbnk) (u : Z) (w : option (list (option Z))) : sbnk :=
  {| bInsts := map (relabel b) (bInsts b); bInacc := []; bUnk := u; bWars := match w with Some l => strip_none l | None => [] end |}.
Lemma in_es b id i : insts_ok (bInsts b) -> 0 <= id -> nth_error (bInsts b) (Z.to_nat id) = Some (Some i) -> In (ikey i) (bank_es b).
Proof.
  intros O P H. unfold bank_es, order_keys. apply dedup_In0. apply in_map_iff. exists (id, i). split; [reflexivity|]. apply (in_order b id i O). auto.
Qed.
Lemma es_in b k : insts_ok (bInsts b) -> In k (bank_es b) -> exists id i, 0 <= id /\ nth_error (bInsts b) (Z.to_nat id) = Some (Some i) /\ k = ikey i.
Proof.
  intros O H. unfold bank_es, order_keys in H. apply (proj1 (dedup_In0 _ _)) in H. apply in_map_iff in H as ([id i] & <- & H). apply (in_order b id i O) in H as [P H]. exists id, i. auto.
Qed.
Lemma lens_even es : (forall k, In k es -> zlen (fst k) mod 2 = 0) -> lens es mod 2 = 0.
Proof.
  induction es as [|k es IH]; intros H; [reflexivity|]. rewrite lens_cons, Z.add_mod, (H k), IH by (try lia; try (left; reflexivity); intros; apply H; right; assumption). reflexivity.
Qed.
Lemma body_even b : body_fits b -> zlen (body_bytes b) mod 2 = 0 /\ 2 <= zlen (body_bytes b).
Proof.
  intros F. rewrite zlen_body by exact F. destruct b as [n|f ns|rs]; [split; [reflexivity|lia]| |].
  - pose proof (zlen_nonneg ns). split; [|lia]. replace (2 + 12 * zlen ns) with ((1 + 6 * zlen ns) * 2) by lia. apply Z.mod_mul. lia.
  - pose proof (zlen_nonneg rs). split; [|lia]. replace (8 + 12 * zlen rs) with ((4 + 6 * zlen rs) * 2) by lia. apply Z.mod_mul. lia.
Qed.
Definition insts_good (insts : list (option inst)) : Prop := forall i, In (Some i) insts -> body_fits (iBody i) /\ body_good (iBody i).
Lemma good_ok l : insts_good l -> insts_ok l.
Proof. intros H i Hi. apply H, Hi. Qed.
Lemma data_at b id i : insts_ok (bInsts b) -> 0 <= id -> nth_error (bInsts b) (Z.to_nat id) = Some (Some i) ->
  exists pre post, bank_data b = pre ++ body_bytes (iBody i) ++ post /\ zlen pre = pos (bank_es b) (ikey i).
Proof.
  intros O P H. destruct (posn_split (ikey i) (bank_es b)) as (a & c & E & _ & Q); [eapply in_es; eassumption|].
  exists (concat (map fst a)), (concat (map fst c)). split; [|unfold pos; rewrite Q; reflexivity].
  unfold bank_data. rewrite E, map_app, concat_app. reflexivity.
Qed.
Lemma covered b x : insts_ok (bInsts b) -> 0 <= x < zlen (bank_data b) ->
  exists id i, 0 <= id /\ nth_error (bInsts b) (Z.to_nat id) = Some (Some i) /\ pos (bank_es b) (ikey i) <= x < pos (bank_es b) (ikey i) + zlen (body_bytes (iBody i)).
Proof.
  intros O H. assert (G : forall es' pre, bank_es b = pre ++ es' -> lens pre <= x < lens pre + lens es' -> exists a k c, bank_es b = a ++ k :: c /\ lens a <= x < lens a + zlen (fst k)).
  { induction es' as [|k es' IH]; intros pre E R.
    - change (lens []) with 0 in R. lia.
    - rewrite lens_cons in R. destruct (Z.lt_ge_cases x (lens pre + zlen (fst k))).
      + exists pre, k, es'. split; [exact E|lia].
      + apply (IH (pre ++ [k])); [rewrite <- app_assoc; exact E|]. rewrite lens_app, lens_cons. change (lens []) with 0. lia. }
  destruct (G (bank_es b) []) as (a & k & c & E & R); [reflexivity|change (lens []) with 0; unfold lens; unfold bank_data in H; lia|].
  assert (I : In k (bank_es b)) by (rewrite E; apply in_or_app; right; left; reflexivity).
  destruct (es_in b k O I) as (id & i & P & N & ->). exists id, i. split; [exact P|]. split; [exact N|].
  assert (ND : NoDup (bank_es b)) by exact (dedup_NoDup (order_keys b) [] (NoDup_nil _)).
  destruct (posn_split (ikey i) (bank_es b) I) as (a' & c' & E' & NI & Q). unfold pos. rewrite Q. cbn [ikey fst] in R.
  assert (a = a').
  { clear - E E' ND NI. revert E E' NI. generalize (ikey i). intros k E E' NI. rewrite E in E', ND. clear E. revert a' E' NI. induction a as [|y a IH]; intros a' E' NI; destruct a' as [|y' a']; cbn [app] in *.
    - reflexivity.
    - injection E' as -> _. exfalso. apply NI. left. reflexivity.
    - injection E' as -> _. inversion ND. exfalso. apply H1. apply in_or_app. right. left. reflexivity.
    - injection E' as -> E'. f_equal. apply IH; [inversion ND; assumption|exact E'|]. intros C. apply NI. right. exact C. }
  subst a'. exact R.
Qed.
Lemma sbnk_reload_tail order b f u w w' tl : bInacc b = [] -> insts_good (bInsts b) -> sbnk_save b = Ok (f, u, w) ->
  sbnk_load order (f ++ tl) u w' = Ok (reloaded b u w').
Proof.
  intros HB G S. pose proof (good_ok _ G) as O. rewrite (sbnk_save_eq b HB O) in S. apply finish_inv in S as (FR & L & -> & -> & ->).
  set (tos := map (bank_row b) (bInsts b)) in *. set (D := bank_data b) in *. set (n := zlen tos) in *.
  assert (N : n = zlen (bInsts b)) by (unfold n, tos; apply zlen_map).
  pose proof (zlen_nonneg tos) as P1. pose proof (zlen_nonneg D) as P2. pose proof (Z.mod_pos_bound (- zlen D) 4 ltac:(lia)) as P3. fold n in P1.
  assert (EV : zlen D mod 2 = 0).
  { unfold D, bank_data. apply (lens_even (bank_es b)). intros k Hk. destruct (es_in b k O Hk) as (id & i & _ & E & ->). apply body_even. apply O. eapply nth_error_In, E. }
  set (pad := (- zlen D) mod 4) in *.
  assert (PD : pad = 0 \/ pad = 2). { unfold pad. clear - EV. pose proof (Z.div_mod (zlen D) 2). pose proof (Z.div_mod (- zlen D) 4). pose proof (Z.mod_pos_bound (- zlen D) 4). lia. }
  unfold sbnk_load, bank_file. fold pad. rewrite <- !app_assoc.
  replace (prefixb (asc "SBNK") _) with true by (unfold bank_head, std_bytes; rewrite <- !app_assoc, prefixb_app; reflexivity). cbn [guard bind].
  set (len := 60 + 4 * n + zlen D + pad) in *.
  assert (LH : zlen (bank_head tos D) = 0x3C + 4 * n) by apply zlen_head.
  assert (U0 : std_unpack (bank_head tos D ++ D ++ zeros pad ++ tl) = Ok {| hMagic := asc "SBNK"; hBom := 0xFEFF; hVersion := 0x100; hSize := len; hHeaderSize := 0x10; hBlocks := 1 |}).
  { unfold bank_head. rewrite <- !app_assoc. apply std_unpack_hit; try reflexivity; try lia. }
  rewrite U0. cbn [bind hMagic hVersion hSize]. rewrite beq_refl. cbn [Z.eqb Pos.eqb guard bind].
  assert (R1 : rd (bank_head tos D ++ D ++ zeros pad ++ tl) 16 4 = Ok (asc "DATA")).
  { unfold bank_head. rewrite <- !app_assoc. rewrite rd_skip by (rewrite zlen_std; reflexivity || (change (zlen (asc "SBNK")) with 4; lia)). rewrite zlen_std. apply rd_hit; reflexivity. }
  assert (R2 : exists v, unpack_u 4 (bank_head tos D ++ D ++ zeros pad ++ tl) 0x14 = Ok v).
  { apply unpack_u_some; [lia|]. rewrite zlen_app, LH. pose proof (zlen_nonneg (D ++ zeros pad ++ tl)). lia. }
  assert (R3 : unpack_u 4 (bank_head tos D ++ D ++ zeros pad ++ tl) 0x38 = Ok n).
  { unfold bank_head. rewrite <- !app_assoc. rewrite unpack_u_skip by (rewrite zlen_std; change (zlen (asc "SBNK")) with 4; lia). rewrite zlen_std. change (zlen (asc "SBNK")) with 4.
    rewrite unpack_u_skip by (change (zlen (asc "DATA")) with 4; lia). change (zlen (asc "DATA")) with 4. rewrite unpack_u_skip by (rewrite zlen_le; lia). rewrite zlen_le.
    rewrite unpack_u_skip by (rewrite zlen_zeros; lia). rewrite zlen_zeros by lia. apply unpack_u_hit; [reflexivity|]. p256. fold n. lia. }
  destruct R2 as [v R2]. rewrite R1, R2, R3. cbn [bind]. rewrite beq_refl. cbn [guard bind]. cbv zeta.
  set (file := bank_head tos D ++ D ++ zeros pad ++ tl) in *.
  set (at_ := fun id : Z => nth (Z.to_nat id) (bInsts b) None).
  assert (LB : Z.to_nat n = length (bInsts b)) by (rewrite N; apply length_zlen).
  destruct (load_table_ok file (fun id => relabel b (at_ id)) (fun id => snd (bank_row b (at_ id)))
      (fun id => match at_ id with Some i => zlen (body_bytes (iBody i)) | None => 0 end) (range_z 0 (Z.to_nat n)) (range_z (0x3C + n * 4) (Z.to_nat (len - (0x3C + n * 4))))) as (m & ->).
  { intros id Hid. apply in_range_z in Hid. rewrite LB in Hid.
    assert (HN : nth_error (bInsts b) (Z.to_nat id) = Some (at_ id)) by (apply nth_error_nth'; lia).
    destruct (nth_error_split _ _ HN) as (l1 & l2 & EB & LL). 
    assert (ET : tos = map (bank_row b) l1 ++ bank_row b (at_ id) :: map (bank_row b) l2) by (unfold tos; rewrite EB, map_app; reflexivity).
    destruct (concat_at rowb 4 (map (bank_row b) l1) (bank_row b (at_ id)) (map (bank_row b) l2)) as (C1 & C2 & C3); [intros; apply zlen_rowb|].
    assert (RO : row_ok (bank_row b (at_ id))) by (rewrite Forall_forall in FR; apply FR; rewrite ET; apply in_or_app; right; left; reflexivity).
    assert (EF : exists PR PO, file = PR ++ rowb (bank_row b (at_ id)) ++ PO /\ zlen PR = 0x3C + 4 * id).
    { exists (std_bytes (asc "SBNK") 0x100 (60 + 4 * zlen tos + zlen D + (- zlen D) mod 4) 1 ++ asc "DATA" ++ le 4 (0x2C + 4 * zlen tos + zlen D + (- zlen D) mod 4) ++ zeros 32 ++ le 4 (zlen tos) ++ concat (map rowb (map (bank_row b) l1))), (concat (map rowb (map (bank_row b) l2)) ++ D ++ zeros pad ++ tl).
      split.
      - unfold file, bank_head. rewrite ET at 4. rewrite C1, <- !app_assoc. reflexivity.
      - rewrite !zlen_app, zlen_std, !zlen_le, C2, zlen_map, zlen_zeros by lia. change (zlen (asc "SBNK")) with 4. change (zlen (asc "DATA")) with 4. unfold zlen. lia. }
    destruct EF as (PR & PO & EF & LP). destruct RO as [RO1 RO2].
    exists (fst (bank_row b (at_ id))). split; [|split; [|split]].
    - rewrite EF. unfold rowb. rewrite <- !app_assoc. rewrite (unpack_u_skip _ PR) by lia. apply unpack_u_hit; [lia|p256; lia].
    - rewrite EF. unfold rowb. rewrite <- !app_assoc. rewrite (unpack_u_skip _ PR) by lia. rewrite unpack_u_skip by (rewrite zlen_le; lia). rewrite zlen_le; apply unpack_u_hit; [lia|p256; lia].
    - apply unpack_u_some; [lia|]. rewrite EF, !zlen_app, zlen_rowb. pose proof (zlen_nonneg PO). lia.
    - destruct (at_ id) as [i|] eqn:EA; cbn [relabel bank_row fst snd]; [|reflexivity].
      destruct (data_at b id i O ltac:(lia) HN) as (pre & post & ED & LPre). fold D in ED.
      assert (EFF : file = (bank_head tos D ++ pre) ++ body_bytes (iBody i) ++ (post ++ zeros pad ++ tl)).
      { unfold file. rewrite ED at 2. rewrite <- !app_assoc. reflexivity. }
      replace (pos (bank_es b) (ikey i) + (60 + 4 * zlen (bInsts b))) with (zlen (bank_head tos D ++ pre)) by (rewrite zlen_app, LH; lia).
      destruct (G i) as [F1 F2]; [eapply nth_error_In, HN|]. unfold itype. rewrite EFF at 1. rewrite make_hit by assumption. reflexivity. }
  cbn [bind].
  assert (UN : filter (fun x => forallb (fun id => negb ((snd (bank_row b (at_ id)) <=? x) && (x <? snd (bank_row b (at_ id)) + match at_ id with Some i => zlen (body_bytes (iBody i)) | None => 0 end))) (range_z 0 (Z.to_nat n)))
     (range_z (0x3C + n * 4) (Z.to_nat (len - (0x3C + n * 4)))) = range_z (0x3C + n * 4 + zlen D) (Z.to_nat pad)).
  { replace (Z.to_nat (len - (0x3C + n * 4))) with (Z.to_nat (zlen D) + Z.to_nat pad)%nat by (unfold len; lia). rewrite filter_range.
    - f_equal. lia.
    - intros x Hx. destruct (covered b (x - (0x3C + 4 * n)) O) as (id & i & Pid & Eid & R); [fold D; lia|].
      apply not_true_is_false. intros C. rewrite forallb_forall in C. specialize (C id). 
      assert (Hid : (Z.to_nat id < length (bInsts b))%nat) by (apply nth_error_Some; congruence).
      rewrite in_range_z, LB in C. specialize (C ltac:(lia)). unfold at_ in C. rewrite (nth_error_nth _ _ None Eid) in C. cbn [bank_row snd] in C. rewrite <- N in C.
      revert C. destruct (Z.leb_spec (pos (bank_es b) (ikey i) + (60 + 4 * n)) x), (Z.ltb_spec x (pos (bank_es b) (ikey i) + (60 + 4 * n) + zlen (body_bytes (iBody i)))); cbn; try discriminate; lia.
    - intros x Hx. apply forallb_forall. intros id Hid. apply in_range_z in Hid. rewrite LB in Hid.
      assert (HN : nth_error (bInsts b) (Z.to_nat id) = Some (at_ id)) by (apply nth_error_nth'; lia).
      destruct (at_ id) as [i|] eqn:EA; cbn [bank_row snd].
      + destruct (data_at b id i O ltac:(lia) HN) as (pre & post & ED & LPre). fold D in ED. assert (LL : zlen D = zlen pre + zlen (body_bytes (iBody i)) + zlen post) by (rewrite ED, !zlen_app; lia).
        pose proof (zlen_nonneg post). rewrite <- N. replace (x <? _) with false by lia. rewrite andb_false_r. reflexivity.
      + replace (x <? 0 + 0) with false by lia. rewrite andb_false_r. reflexivity. }
  rewrite UN.
  assert (SC : scan (Datatypes.S (length (range_z (0x3C + n * 4 + zlen D) (Z.to_nat pad)))) order file len (map (fun id => relabel b (at_ id)) (range_z 0 (Z.to_nat n))) m (range_z (0x3C + n * 4 + zlen D) (Z.to_nat pad)) [] = Ok []).
  { destruct PD as [->| ->]; [apply (scan_pad order file len _ m [] 1)|]. change (Z.to_nat 2) with 2%nat. cbn [range_z length].
    replace (0x3C + n * 4 + zlen D) with (len - 2) by (unfold len; lia). replace (len - 2 + 1) with (len - 1) by lia. apply scan_pad. }
  rewrite SC. cbn [bind]. unfold reloaded. f_equal. f_equal.
  rewrite LB. clear - at_. unfold at_. generalize (bInsts b) as l. intros l. rewrite <- (map_map (fun id => nth (Z.to_nat id) l None) (relabel b)). f_equal.
  induction l as [|x l IH] using rev_ind; [reflexivity|]. rewrite app_length. cbn [length]. rewrite Nat.add_1_r, range_z_snoc, map_app. f_equal.
  - rewrite <- IH at 2. apply map_ext_in. intros id Hid. apply in_range_z in Hid. apply app_nth1. lia.
  - cbn [map]. f_equal. rewrite app_nth2 by lia. replace (Z.to_nat (0 + Z.of_nat (length l)) - length l)%nat with O by lia. reflexivity.
Qed.

Lemma sbnk_reload order b f u w w' : bInacc b = [] -> insts_good (bInsts b) -> sbnk_save b = Ok (f, u, w) ->
  sbnk_load order f u w' = Ok (reloaded b u w').
Proof. intros HB G S. rewrite <- (app_nil_r f). eapply sbnk_reload_tail; eassumption. Qed.

(** ** saving what was loaded *)
Lemma pos_lt es : (forall k, In k es -> 0 < zlen (fst k)) -> NoDup es -> StronglySorted (fun x y => pos es x < pos es y) es.
Proof.
  intros P ND. assert (G : forall b a, es = a ++ b -> StronglySorted (fun x y => pos es x < pos es y) b).
  { induction b as [|k b IH]; intros a E; [constructor|]. constructor; [apply (IH (a ++ [k])); rewrite <- app_assoc; exact E|].
    apply Forall_forall. intros y Hy. 
    assert (N : NoDup (a ++ k :: b)) by (rewrite <- E; exact ND).
    assert (K : ~ In k a). { intros C. apply NoDup_remove_2 in N. apply N. apply in_or_app. left. exact C. }
    assert (KY : ~ In y (a ++ [k])).
    { intros C. apply in_split in Hy as (b1 & b2 & ->). replace (a ++ k :: b1 ++ y :: b2) with ((a ++ [k] ++ b1) ++ y :: b2) in N by (rewrite <- !app_assoc; reflexivity).
      apply NoDup_remove_2 in N. apply N. rewrite app_assoc. apply in_or_app. left. apply in_or_app. left. exact C. }
    unfold pos. rewrite E. rewrite posn_app. rewrite (proj2 (posn_None k a 0) K). cbn [posn]. rewrite key_eqb_refl.
    replace (a ++ k :: b) with ((a ++ [k]) ++ b) by (rewrite <- app_assoc; reflexivity). rewrite posn_app. rewrite (proj2 (posn_None y (a ++ [k]) 0) KY).
    assert (Q : forall l base, In y l -> exists o, posn y l base = Some o /\ base <= o).
    { clear. induction l as [|e l IH]; intros base H; [destruct H|]. cbn [posn]. destruct (key_eqb e y) eqn:X; [exists base; split; [reflexivity|lia]|]. apply key_eqb_neq in X. destruct H as [->|H]; [congruence|].
      destruct (IH (base + zlen (fst e)) H) as (o & -> & L). exists o. split; [reflexivity|]. pose proof (zlen_nonneg (fst e)). lia. }
    destruct (Q b (0 + lens (a ++ [k])) Hy) as (o & -> & L). rewrite lens_app, lens_cons in L. change (lens []) with 0 in L.
    assert (0 < zlen (fst k)) by (apply P; rewrite E; apply in_or_app; right; left; reflexivity). lia. }
  exact (G es [] eq_refl).
Qed.
Lemma strict_inj {A} (f : A -> Z) l x y : StronglySorted (fun a b => f a < f b) l -> In x l -> In y l -> f x = f y -> x = y.
Proof.
  induction 1 as [|z l S IH F]; intros Hx Hy E; [destruct Hx|]. rewrite Forall_forall in F.
  destruct Hx as [->|Hx], Hy as [->|Hy]; [reflexivity|apply F in Hy; lia|apply F in Hx; lia|auto].
Qed.
Lemma sorted_app {A} (R : A -> A -> Prop) a b : StronglySorted R a -> StronglySorted R b -> (forall x y, In x a -> In y b -> R x y) -> StronglySorted R (a ++ b).
Proof.
  induction 1 as [|x a S IH F]; intros Sb H; cbn [app]; [exact Sb|]. constructor.
  - apply IH; [exact Sb|]. intros; apply H; [right; assumption|assumption].
  - apply Forall_forall. intros y Hy. apply in_app_iff in Hy as [Hy|Hy]; [rewrite Forall_forall in F; apply F, Hy|]. apply H; [left; reflexivity|exact Hy].
Qed.
Lemma sorted_map {A B} (g : A -> B) (R : B -> B -> Prop) l : StronglySorted (fun x y => R (g x) (g y)) l -> StronglySorted R (map g l).
Proof.
  induction 1 as [|x l S IH F]; cbn [map]; constructor; [exact IH|]. apply Forall_forall. intros y Hy. apply in_map_iff in Hy as (z & <- & Hz). rewrite Forall_forall in F. apply F, Hz.
Qed.
Lemma dedup_strict (f : key -> Z) l : StronglySorted (fun x y => f x <= f y) l -> (forall x y, In x l -> In y l -> f x = f y -> x = y) ->
  StronglySorted (fun x y => f x < f y) (dedup [] l).
Proof.
  intros S I. pose proof (sublist_sorted _ _ _ (dedup_sub l []) S) as S'. pose proof (dedup_NoDup l [] (NoDup_nil _)) as N. cbn [app] in N.
  assert (J : forall x, In x (dedup [] l) -> In x l) by (intros x; apply dedup_In0).
  revert S' N J. generalize (dedup [] l) as d. induction d as [|x d IH]; intros S' N J; constructor.
  - inversion S'. inversion N. apply IH; [assumption|assumption|]. intros; apply J; right; assumption.
  - inversion S' as [|? ? _ F]. inversion N as [|? ? NI _]. subst. apply Forall_forall. intros y Hy. rewrite Forall_forall in F. pose proof (F _ Hy).
    assert (f x <> f y). { intros E. apply NI. replace x with y; [exact Hy|]. symmetry. apply I; [apply J; left; reflexivity|apply J; right; exact Hy|exact E]. } lia.
Qed.

Lemma sorted_mono {A} (R R' : A -> A -> Prop) l : (forall x y, R x y -> R' x y) -> StronglySorted R l -> StronglySorted R' l.
Proof. intros M. induction 1 as [|x l S IH F]; constructor; [exact IH|]. eapply Forall_impl; [|exact F]. intros; apply M; assumption. Qed.

Section Resave.
  Variable b : sbnk.
  Hypothesis HB : bInacc b = [].
  Hypothesis O : insts_ok (bInsts b).
  Variables (u : Z) (w : option (list (option Z))).
  Let b2 := reloaded b u w.
  Let base := 0x3C + 4 * zlen (bInsts b).
  Let g (k : key) : key := (fst k, pos (bank_es b) k + base).
  Lemma es_pos : forall k, In k (bank_es b) -> 0 < zlen (fst k).
  Proof. intros k H. destruct (es_in b k O H) as (id & i & _ & E & ->). cbn [ikey fst]. assert (F : body_fits (iBody i)) by (apply O; eapply nth_error_In, E). apply body_even in F. lia. Qed.
  Lemma es_nodup : NoDup (bank_es b).
  Proof. exact (dedup_NoDup (order_keys b) [] (NoDup_nil _)). Qed.
  Lemma es_strict : StronglySorted (fun x y => pos (bank_es b) x < pos (bank_es b) y) (bank_es b).
  Proof. apply pos_lt; [exact es_pos|exact es_nodup]. Qed.
  Lemma nth2 id i2 : nth_error (bInsts b2) (Z.to_nat id) = Some (Some i2) <->
    exists i, nth_error (bInsts b) (Z.to_nat id) = Some (Some i) /\ Some i2 = relabel b (Some i).
  Proof.
    unfold b2. cbn [reloaded bInsts]. rewrite nth_error_map. destruct (nth_error (bInsts b) (Z.to_nat id)) as [[i|]|]; cbn [option_map relabel]; split.
    - intros [= <-]. exists i. split; reflexivity.
    - intros (i' & [= <-] & [= ->]). reflexivity.
    - discriminate.
    - intros (i' & H & _). discriminate.
    - discriminate.
    - intros (i' & H & _). discriminate.
  Qed.
  Lemma O2 : insts_ok (bInsts b2).
  Proof.
    intros i2 H. apply In_nth_error in H as [n H]. rewrite <- (Nat2Z.id n) in H. apply nth2 in H as (i & H & E). injection E as ->. cbn [iBody]. apply O. eapply nth_error_In, H.
  Qed.
  Lemma key2 i i2 : Some i2 = relabel b (Some i) -> ikey i2 = g (ikey i) /\ itype i2 = itype i /\ iKey i2 = snd (ikey i2).
  Proof. cbn [relabel bank_row snd]. intros [= ->]. repeat split. Qed.
  Lemma g_inj x y : In x (bank_es b) -> In y (bank_es b) -> snd (g x) = snd (g y) -> x = y.
  Proof. intros Hx Hy E. unfold g in E. cbn [snd] in E. apply (strict_inj (pos (bank_es b)) (bank_es b)); [exact es_strict|exact Hx|exact Hy|lia]. Qed.
  (** a smaller class of instruments comes first *)
  Definition rank (k : key) : Z := if cls k =? 10 then 0 else if cls k =? 2 then 1 else 2.
  Lemma rank_of i : body_fits (iBody i) -> rank (ikey i) = if itype i <? 16 then 0 else if itype i =? 16 then 1 else 2.
  Proof.
    intros F. unfold rank. destruct (itype i <? 16) eqn:T1; [rewrite cls_single by assumption; reflexivity|]. destruct (itype i =? 16) eqn:T2; [rewrite cls_range by assumption; reflexivity|].
    destruct (itype_cases i F) as [T|[T|T]]; try congruence. rewrite cls_regional by assumption. reflexivity.
  Qed.
  Lemma order_rank : StronglySorted (fun x y => rank x <= rank y) (order_keys b).
  Proof.
    unfold order_keys, save_order. rewrite !map_app.
    assert (R : forall t c, (forall i, body_fits (iBody i) -> t (itype i) = true -> rank (ikey i) = c) -> forall x, In x (map (fun p => ikey (snd p)) (group t (bInsts b))) -> rank x = c).
    { intros t c H x Hx. apply in_map_iff in Hx as ([id i] & <- & Hx). cbn [snd]. pose proof (group_cls _ _ _ _ O Hx). apply in_group in Hx as (_ & _ & T). apply H; assumption. }
    assert (R1 := R (fun t => t <? 16) 0). assert (R2 := R (fun t => t =? 16) 1). assert (R3 := R (fun t => t =? 17) 2). clear R.
    assert (C : forall c l, (forall x, In x l -> rank x = c) -> StronglySorted (fun x y => rank x <= rank y) l).
    { induction l as [|x l IH]; intros H; constructor; [apply IH; intros; apply H; right; assumption|]. apply Forall_forall. intros y Hy. rewrite (H x), (H y) by (try (left; reflexivity); right; exact Hy). lia. }
    assert (Q1 : forall x, In x (map (fun p => ikey (snd p)) (group (fun t => t <? 16) (bInsts b))) -> rank x = 0) by (apply R1; intros i F T; rewrite rank_of by exact F; rewrite T; reflexivity).
    assert (Q2 : forall x, In x (map (fun p => ikey (snd p)) (group (fun t => t =? 16) (bInsts b))) -> rank x = 1) by (apply R2; intros i F T; rewrite rank_of by exact F; replace (itype i <? 16) with false by lia; rewrite T; reflexivity).
    assert (Q3 : forall x, In x (map (fun p => ikey (snd p)) (group (fun t => t =? 17) (bInsts b))) -> rank x = 2) by (apply R3; intros i F T; rewrite rank_of by exact F; replace (itype i <? 16) with false by lia; replace (itype i =? 16) with false by lia; reflexivity).
    apply sorted_app; [apply (C 0), Q1| |].
    - apply sorted_app; [apply (C 1), Q2|apply (C 2), Q3|]. intros x y Hx Hy. rewrite (Q2 _ Hx), (Q3 _ Hy). lia.
    - intros x y Hx Hy. rewrite (Q1 _ Hx). apply in_app_iff in Hy as [Hy|Hy]; [rewrite (Q2 _ Hy)|rewrite (Q3 _ Hy)]; lia.
  Qed.
  Lemma rank_pos x y : In x (bank_es b) -> In y (bank_es b) -> rank x < rank y -> pos (bank_es b) x < pos (bank_es b) y.
  Proof.
    intros Hx Hy R. pose proof (sublist_sorted _ _ _ (dedup_sub (order_keys b) []) order_rank) as S1. fold (bank_es b) in S1. pose proof es_strict as S2. revert Hx Hy S1 S2.
    generalize (pos (bank_es b)) as f. generalize (bank_es b) as l. intros l f. induction l as [|z l IH]; intros Hx Hy S1 S2; [destruct Hx|].
    inversion S1 as [|? ? S1a S1b]. inversion S2 as [|? ? S2a S2b]. subst. rewrite Forall_forall in S1b, S2b.
    destruct Hx as [->|Hx], Hy as [->|Hy]; [lia|apply S2b, Hy|apply S1b in Hx; lia|apply IH; assumption].
  Qed.
  Lemma in_group2 t id i2 : In (id, i2) (group t (bInsts b2)) -> exists i, Some i2 = relabel b (Some i) /\ In (ikey i) (bank_es b) /\ body_fits (iBody i) /\ t (itype i) = true.
  Proof.
    intros H. apply in_group in H as (P & E & T). apply nth2 in E as (i & E & R). exists i. split; [exact R|]. split; [eapply in_es; eassumption|]. split; [apply O; eapply nth_error_In, E|].
    destruct (key2 _ _ R) as (_ & TT & _). rewrite TT in T. exact T.
  Qed.
  Lemma order2_sorted : StronglySorted (fun x y => snd x <= snd y) (order_keys b2).
  Proof.
    unfold order_keys, save_order. rewrite !map_app.
    assert (G : forall t, StronglySorted (fun x y : key => snd x <= snd y) (map (fun p => ikey (snd p)) (group t (bInsts b2)))).
    { intros t. apply sorted_map. unfold group. cbn [ikey snd].
      pose proof (sort_sorted (fun p : Z * inst => iKey (snd p)) (flat_map (fun p : Z * option inst => match snd p with Some i => if t (itype i) then [(fst p, i)] else [] | None => [] end) (enumerate_from 0 (bInsts b2)))) as S.
      change (sort_by _ _) with (group t (bInsts b2)) in S.  change (sort_by _ _) with (group t (bInsts b2)).
      assert (X : forall p, In p (group t (bInsts b2)) -> iKey (snd p) = iMerge (snd p)).
      { intros [id i2] H. apply in_group2 in H as (i & R & _). apply key2 in R as (_ & _ & R). exact R. }
      revert S X. generalize (group t (bInsts b2)) as l. induction l as [|x l IH]; intros S X; constructor.
      - inversion S. apply IH; [assumption|]. intros; apply X; right; assumption.
      - inversion S as [|? ? _ F]. apply Forall_forall. intros y Hy. rewrite Forall_forall in F. rewrite <- (X x), <- (X y) by (try (left; reflexivity); right; exact Hy). apply F, Hy. }
    assert (K : forall t t' x y, (forall i j, body_fits (iBody i) -> body_fits (iBody j) -> t (itype i) = true -> t' (itype j) = true -> rank (ikey i) < rank (ikey j)) ->
      In x (map (fun p => ikey (snd p)) (group t (bInsts b2))) -> In y (map (fun p => ikey (snd p)) (group t' (bInsts b2))) -> snd x <= snd y).
    { intros t t' x y H Hx Hy. apply in_map_iff in Hx as ([id i2] & <- & Hx). apply in_map_iff in Hy as ([id' j2] & <- & Hy). cbn [snd].
      apply in_group2 in Hx as (i & R1 & I1 & F1 & T1). apply in_group2 in Hy as (j & R2 & I2 & F2 & T2). destruct (key2 _ _ R1) as (-> & _). destruct (key2 _ _ R2) as (-> & _).
      cbn [g snd]. pose proof (rank_pos _ _ I1 I2 (H _ _ F1 F2 T1 T2)). lia. }
    apply sorted_app; [apply G| |].
    - apply sorted_app; [apply G|apply G|]. intros x y. apply K. intros i j F1 F2 T1 T2. rewrite !rank_of by assumption. replace (itype i <? 16) with false by lia. rewrite T1. replace (itype j <? 16) with false by lia. replace (itype j =? 16) with false by lia. lia.
    - intros x y Hx Hy. apply in_app_iff in Hy as [Hy|Hy]; revert Hx Hy; apply K; intros i j F1 F2 T1 T2; rewrite !rank_of by assumption; rewrite T1; replace (itype j <? 16) with false by lia; destruct (itype j =? 16); lia.
  Qed.
  Lemma in_keys2 x : In x (order_keys b2) <-> exists k, In k (bank_es b) /\ x = g k.
  Proof.
    unfold order_keys. rewrite in_map_iff. split.
    - intros ([id i2] & <- & H). cbn [snd]. apply (in_order b2 id i2 O2) in H as [P H]. apply nth2 in H as (i & H & R). exists (ikey i). split; [eapply in_es; eassumption|]. apply (key2 _ _ R).
    - intros (k & Hk & ->). destruct (es_in b k O Hk) as (id & i & P & E & ->). exists (id, {| iBody := iBody i; iKey := snd (bank_row b (Some i)); iMerge := snd (bank_row b (Some i)) |}). split; [reflexivity|].
      apply (in_order b2 id _ O2). split; [exact P|]. apply nth2. exists i. split; [exact E|reflexivity].
  Qed.
  Lemma es2 : bank_es b2 = map g (bank_es b).
  Proof.
    apply (strict_eq snd).
    - apply dedup_strict; [exact order2_sorted|]. intros x y Hx Hy E. apply in_keys2 in Hx as (kx & Hx & ->). apply in_keys2 in Hy as (ky & Hy & ->). f_equal. apply g_inj; assumption.
    - apply sorted_map. cbn [g snd]. apply (sorted_mono (fun x y => pos (bank_es b) x < pos (bank_es b) y)); [intros; lia|exact es_strict].
    - intros x. unfold bank_es at 1. rewrite dedup_In0, in_keys2, in_map_iff. split; intros (k & H1 & H2); exists k; split; congruence.
  Qed.
  Lemma data2 : bank_data b2 = bank_data b.
  Proof. unfold bank_data. rewrite es2, map_map. reflexivity. Qed.
  Lemma pos2 k : In k (bank_es b) -> pos (bank_es b2) (g k) = pos (bank_es b) k.
  Proof.
    intros H. rewrite es2. unfold pos at 1. replace (posn (g k) (map g (bank_es b)) 0) with (posn k (bank_es b) 0); [reflexivity|].
    assert (I : forall l, (forall x, In x l -> In x (bank_es b)) -> forall z, posn k l z = posn (g k) (map g l) z).
    { induction l as [|x l IH]; intros J z; cbn [posn map]; [reflexivity|]. rewrite IH by (intros; apply J; right; assumption). cbn [g fst].
      destruct (key_eqb x k) eqn:E.
      - apply key_eqb_eq in E. subst. rewrite key_eqb_refl. reflexivity.
      - apply key_eqb_neq in E. replace (key_eqb _ _) with false; [reflexivity|]. symmetry. apply key_eqb_neq. intros C. apply E. apply g_inj; [apply J; left; reflexivity|exact H|]. rewrite C at 1. reflexivity. }
    symmetry. symmetry. apply I. auto.
  Qed.
  Lemma rows2 : map (bank_row b2) (bInsts b2) = map (bank_row b) (bInsts b).
  Proof.
    unfold b2 at 2. cbn [reloaded bInsts]. rewrite map_map. apply map_ext_in. intros [i|] Hi; [|reflexivity].
    apply In_nth_error in Hi as [n Hi]. rewrite <- (Nat2Z.id n) in Hi. pose proof (in_es b (Z.of_nat n) i O ltac:(lia) Hi) as IE.
    assert (R : relabel b (Some i) = Some {| iBody := iBody i; iKey := snd (bank_row b (Some i)); iMerge := snd (bank_row b (Some i)) |}) by reflexivity.
    destruct (key2 i _ (eq_sym R)) as (K1 & K2 & _). rewrite R. unfold bank_row at 1. rewrite K1, pos2, K2 by exact IE. cbn [bank_row]. f_equal. f_equal. unfold b2. cbn [reloaded bInsts]. rewrite zlen_map. reflexivity.
  Qed.
  Lemma resave f u' w' : sbnk_save b = Ok (f, u', w') -> sbnk_save b2 = Ok (f, u, match w with Some l => strip_none l | None => [] end).
  Proof.
    intros H. rewrite (sbnk_save_eq b HB O) in H. apply finish_inv in H as (F & L & -> & _). rewrite (sbnk_save_eq b2 eq_refl O2). rewrite rows2, data2. apply finish_ok; assumption.
  Qed.
End Resave.

(** ** loading ends, with one of four exceptions at worst *)
Definition bank_err (e : exc) : Prop := e = ValueError \/ e = AssertionError \/ e = StructError \/ e = IndexError.
Ltac bstep := first [ exact I | apply raises_guard; unfold bank_err; tauto | apply raises_unpack_u; unfold bank_err; tauto
  | apply raises_rd; unfold bank_err; tauto | apply raises_bind; [|intros ? _] ].
Lemma note_raises d t : raises bank_err (note_fromData d t) /\ raises bank_err (note_fromDataWithType d).
Proof. unfold note_fromData, note_fromDataWithType, note_read. split; repeat bstep. Qed.
Lemma regions_raises data start : forall ends k, raises bank_err (regions_loop data start k ends).
Proof.
  induction ends as [|e ends IH]; intros k; cbn [regions_loop]; [exact I|]. destruct (_ && _); [exact I|].
  apply raises_bind; [apply (proj2 (note_raises _ 0))|intros ? _]. apply raises_bind; [apply IH|intros ? _; exact I].
Qed.
Lemma make_raises data t o : raises bank_err (makeInstrumentAt data t o).
Proof.
  unfold makeInstrumentAt. destruct (t =? 0); [exact I|]. apply raises_bind; [|intros [? ?] _; exact I].
  destruct (t <? 16); [|destruct (t =? 16); [|destruct (t =? 17); [|left; reflexivity]]].
  - unfold single_fromData. apply raises_bind; [apply note_raises|intros ? _; exact I].
  - unfold range_fromData. do 2 (apply raises_bind; [apply raises_unpack_u; unfold bank_err; tauto|intros ? _]).
    apply raises_bind; [|intros ? _; exact I]. apply raises_mapM. intros xx _. apply (proj2 (note_raises _ 0)).
  - unfold regional_fromData. apply raises_bind; [apply raises_rd; unfold bank_err; tauto|intros ? _]. apply raises_bind; [apply regions_raises|intros ? _; exact I].
Qed.
Lemma make_pos data t o i n : makeInstrumentAt data t o = Ok (Some i, n) -> 0 < n.
Proof.
  unfold makeInstrumentAt. destruct (t =? 0); [discriminate|]. intros H. apply bind_ok in H as ([b m] & H & E). injection E as _ <-.
  revert H. destruct (t <? 16); [|destruct (t =? 16); [|destruct (t =? 17); [|discriminate]]]; intros H.
  - unfold single_fromData in H. apply bind_ok in H as (nn & _ & H). injection H as _ <-. lia.
  - unfold range_fromData in H. apply bind_ok in H as (x1 & _ & H). apply bind_ok in H as (x2 & _ & H). apply bind_ok in H as (ns & _ & H). injection H as _ <-. pose proof (zlen_nonneg ns). lia.
  - unfold regional_fromData in H. apply bind_ok in H as (x1 & _ & H). apply bind_ok in H as (rs & _ & H). injection H as _ <-. pose proof (zlen_nonneg rs). lia.
Qed.
Lemma get_raises {A} (l : list A) i : raises bank_err (get l i).
Proof. unfold get. destruct (_ <? 0); [|]; try (destruct (_ <? 0)); try destruct (nth_error _ _); cbn [raises]; unfold bank_err; tauto. Qed.
Lemma guess_raises order data start p avail : raises bank_err (guessInstrumentType order data start p avail).
Proof.
  assert (GR : forall p, raises bank_err (guess_range order data start avail p)).
  { intros q. unfold guess_range. apply raises_bind.
    - destruct (inb 16 q); [|exact I]. destruct (slice data start (start + 2)) as [|x [|y [|z l]]]; try exact I; left; reflexivity.
    - intros q' _. destruct (few q'); exact I. }
  unfold guessInstrumentType. cbv zeta. match goal with |- raises _ (if few ?q then _ else _) => destruct (few q); [exact I|] end.
  match goal with |- raises _ (if few ?q then _ else _) => destruct (few q); [exact I|]; generalize q end. intros q. unfold guess_single.
  destruct (inb 1 q); [|destruct (few q); [exact I|apply GR]]. do 3 (apply raises_bind; [apply get_raises|intros ? _]). cbv zeta. destruct (_ =? 60); [exact I|]. destruct (few _); [exact I|apply GR].
Qed.
Lemma filter_le {A} (f : A -> bool) l : (length (filter f l) <= length l)%nat.
Proof. induction l as [|x l IH]; cbn [filter]; [reflexivity|]. destruct (f x); cbn [length]; lia. Qed.
Lemma scan_raises order data fs insts m : forall fuel un acc, (length un < fuel)%nat -> raises bank_err (scan fuel order data fs insts m un acc).
Proof.
  induction fuel as [|k IH]; intros un acc L; [lia|]. cbn [scan]. destruct un as [|u0 un0]; [exact I|]. revert L. generalize (u0 :: un0) as un. intros un L.
  assert (D : (length (drop_padding fs un) <= length un)%nat).
  { unfold drop_padding. destruct (_ && _); [|lia]. unfold remove_z. etransitivity; [apply filter_le|apply filter_le]. }
  destruct (drop_padding fs un) as [|this rest]; [exact I|]. cbn [length] in D. apply raises_bind; [apply guess_raises|]. intros t _.
  assert (R : forall x (f : Z -> bool), f x = false -> forall l, (length (filter f (x :: l)) <= length l)%nat) by (intros x f E l; cbn [filter]; rewrite E; apply filter_le).
  assert (F : raises bank_err (scan k order data fs insts m (remove_z (this + 1) (remove_z this (this :: rest))) acc)).
  { apply IH. unfold remove_z at 1. pose proof (filter_le (fun y => negb (y =? this + 1)) (remove_z this (this :: rest))). unfold remove_z in *. pose proof (R this (fun y => negb (y =? this)) ltac:(cbv beta; rewrite Z.eqb_refl; reflexivity) rest). lia. }
  assert (G : forall r, (forall i n, r = Ok (Some i, n) -> 0 < n) -> raises bank_err (match r with
      | Ok (Some i, n) => scan k order data fs insts m (consume this n (this :: rest)) (push (match prev_of this m with Some p => Some (fst p) | None => None end) i acc)
      | _ => scan k order data fs insts m (remove_z (this + 1) (remove_z this (this :: rest))) acc end)).
  { intros [[[i|] n]|e] P; [|exact F|exact F]. apply IH. pose proof (P i n eq_refl). unfold consume. pose proof (R this (fun x => negb ((this <=? x) && (x <? this + n))) ltac:(cbv beta; replace (this <=? this) with true by lia; replace (this <? this + n) with true by lia; reflexivity) rest). lia. }
  apply G. intros i n. destruct t as [t|]; [apply make_pos|discriminate].
Qed.
Lemma table_raises data : forall ids un, raises bank_err (load_table data ids un).
Proof.
  induction ids as [|id ids IH]; intros un; cbn [load_table]; [exact I|].
  do 3 (apply raises_bind; [apply raises_unpack_u; unfold bank_err; tauto|intros ? _]). apply raises_bind; [apply make_raises|]. intros [i n] _.
  apply raises_bind; [apply IH|]. intros [[? ?] ?] _. exact I.
Qed.
Lemma sbnk_load_raises order f u w : raises bank_err (sbnk_load order f u w).
Proof.
  unfold sbnk_load, std_unpack. repeat bstep.
  - apply table_raises.
  - match goal with |- raises _ (let '(_, _) := ?x in _) => destruct x as [[? ?] ?] end. apply raises_bind; [apply scan_raises; lia|intros ? _; exact I].
Qed.

(** instruments share their data exactly when bytes and merge IDs agree *)
Lemma shared_iff b i j : insts_ok (bInsts b) -> In (Some i) (bInsts b) -> In (Some j) (bInsts b) ->
  (snd (bank_row b (Some i)) = snd (bank_row b (Some j)) <-> body_bytes (iBody i) = body_bytes (iBody j) /\ iMerge i = iMerge j).
Proof.
  intros O Hi Hj. apply In_nth_error in Hi as [n Hi]. rewrite <- (Nat2Z.id n) in Hi. apply In_nth_error in Hj as [m Hj]. rewrite <- (Nat2Z.id m) in Hj.
  pose proof (in_es b (Z.of_nat n) i O ltac:(lia) Hi) as Ii. pose proof (in_es b (Z.of_nat m) j O ltac:(lia) Hj) as Ij. cbn [bank_row snd]. split.
  - intros E. assert (K : ikey i = ikey j) by (apply (strict_inj (pos (bank_es b)) (bank_es b)); [apply es_strict, O|exact Ii|exact Ij|lia]).
    unfold ikey in K. injection K as K1 K2. split; assumption.
  - intros [E1 E2]. unfold ikey. rewrite E1, E2. reflexivity.
Qed.

(** * Saving a loaded ROM again: proofs *)
From Coq Require Import Sorting.Sorted.
From Verif Require Import PyBase PyLemmas PyTac AtLemmas CommonModel FntModel FntSpec CodeModel RomModel RomSpec RomEditSpec RomBody RomHeader RomLayout RomLoad.

(** ** Two files that differ only in the word at 0x1000 *)
Definition sim (w d d' : bytes) : Prop := exists a m c, d = a ++ m ++ c /\ d' = a ++ w ++ c /\ zlen a = 0x1000 /\ zlen m = zlen w.
Lemma sim_len w d d' : sim w d d' -> zlen d' = zlen d.
Proof. intros (a & m & c & -> & -> & _ & E). rewrite !zlen_app. lia. Qed.
Lemma sim_app w d d' x : sim w d d' -> sim w (d ++ x) (d' ++ x).
Proof. intros (a & m & c & -> & -> & A & E). exists a, m, (c ++ x). rewrite <- !app_assoc. auto. Qed.
Lemma sim_pad w d d' n b : sim w d d' -> sim w (pad_to n b d) (pad_to n b d').
Proof. intros S. unfold pad_to. rewrite (sim_len _ _ _ S). apply sim_app. exact S. Qed.
Lemma sim_F w d d' : sim w d d' -> sim w (alignF d) (alignF d').
Proof. apply sim_pad. Qed.
Lemma put_mid a m c w o : zlen a = o -> zlen m = zlen w -> put (a ++ m ++ c) o w = Ok (a ++ w ++ c).
Proof.
  intros <- E. unfold put, struct_off. pose proof (zlen_nonneg a). pose proof (zlen_nonneg c). rewrite !zlen_app, E.
  destruct (Z.ltb_spec (zlen a) 0); [lia|]. destruct (Z.ltb_spec (zlen a + (zlen w + zlen c)) (zlen a + zlen w)); [lia|]. cbn [bind]. f_equal.
  rewrite firstn_app. unfold zlen at 1 2. rewrite Nat2Z.id, Nat.sub_diag, firstn_all. cbn [firstn]. rewrite app_nil_r. do 2 f_equal.
  rewrite app_assoc. rewrite <- E, <- zlen_app. unfold zlen. rewrite Nat2Z.id. rewrite skipn_app, skipn_all, Nat.sub_diag. reflexivity.
Qed.
Lemma sim_put w d d' o b e : 0x1000 + zlen w <= o -> put d o b = Ok e -> sim w d d' -> exists e', put d' o b = Ok e' /\ sim w e e'.
Proof.
  intros L H (a & m & c & -> & -> & A & E). pose proof (zlen_nonneg w). apply put_split in H as (a1 & m1 & c1 & H1 & -> & A1 & E1); [|lia].
  rewrite app_assoc in H1. apply app_eq_app in H1 as (z & [(H1 & H2)|(H1 & H2)]).
  - assert (z = []) as -> by (apply (f_equal zlen) in H1; rewrite !zlen_app in H1; pose proof (zlen_nonneg z); destruct z as [|y z]; [reflexivity|rewrite zlen_cons in H1; pose proof (zlen_nonneg z); lia]).
    rewrite app_nil_r in H1. cbn [app] in H2. subst c. exists (a ++ w ++ b ++ c1). split.
    + rewrite !(app_assoc a w). apply put_mid; [|exact E1]. rewrite zlen_app, <- E, <- zlen_app, H1. exact A1.
    + exists a, m, (b ++ c1). rewrite <- H1, <- app_assoc. auto.
  - subst a1 c. exists (a ++ w ++ z ++ b ++ c1). split.
    + replace (a ++ w ++ z ++ m1 ++ c1) with ((a ++ w ++ z) ++ m1 ++ c1) by (rewrite <- !app_assoc; reflexivity).
      replace (a ++ w ++ z ++ b ++ c1) with ((a ++ w ++ z) ++ b ++ c1) by (rewrite <- !app_assoc; reflexivity).
      apply put_mid; [|exact E1]. rewrite !zlen_app in A1 |- *. lia.
    + exists a, m, (z ++ b ++ c1). rewrite <- !app_assoc. auto.
Qed.
Lemma sim_part w part d d' e o : pack_part part d = (e, o) -> sim w d d' -> exists e', pack_part part d' = (e', o) /\ sim w e e'.
Proof.
  intros H S. unfold pack_part in *. destruct part as [|x r]; [exists d'; injection H as <- <-; auto|]. injection H as <- <-.
  exists (alignF (d' ++ x :: r)). rewrite (sim_len _ _ _ S). split; [reflexivity|]. apply sim_F, sim_app, S.
Qed.
(** a fold whose steps respect [sim] *)
Lemma sim_fold {X} w (step : bytes * offs -> X -> res (bytes * offs)) :
  (forall d d' o x e p, step (d, o) x = Ok (e, p) -> sim w d d' -> exists e', step (d', o) x = Ok (e', p) /\ sim w e e') ->
  forall l d d' o e p, foldM step (d, o) l = Ok (e, p) -> sim w d d' -> exists e', foldM step (d', o) l = Ok (e', p) /\ sim w e e'.
Proof.
  intros St. induction l as [|x l IH]; intros d d' o e p H S; cbn [foldM] in *.
  - assert (d = e /\ o = p) as (-> & ->) by (split; congruence). exists d'. auto.
  - apply bind_ok in H as ([d1 o1] & H1 & H2). destruct (St _ _ _ _ _ _ H1 S) as (d1' & -> & S1). cbn [bind]. exact (IH _ _ _ _ _ H2 S1).
Qed.
Lemma sim_overlays w fs t d d' o e p : pack_overlays fs t (d, o) = Ok (e, p) -> sim w d d' -> exists e', pack_overlays fs t (d', o) = Ok (e', p) /\ sim w e e'.
Proof.
  unfold pack_overlays. apply sim_fold. clear. intros d d' o x e p H S. unfold pack_overlay in *. cbn [fst snd] in *.
  apply bind_ok in H as (id & -> & H). apply bind_ok in H as (f & E & H). cbn [bind]. rewrite E. cbn [bind].
  assert (e = alignF (d ++ f) /\ p = (id, zlen d) :: o) as (-> & ->) by (split; congruence). exists (alignF (d' ++ f)). rewrite (sim_len _ _ _ S).
  split; [reflexivity|]. apply sim_F, sim_app, S.
Qed.
Lemma sim_file w fs d d' o n e p : pack_file fs (d, o) n = Ok (e, p) -> sim w d d' -> exists e', pack_file fs (d', o) n = Ok (e', p) /\ sim w e e'.
Proof.
  intros H S. unfold pack_file in *. cbn [fst snd] in *. apply bind_ok in H as (f & -> & H). cbn [bind]. pose proof (sim_F _ _ _ S) as SF.
  assert (e = alignF d ++ f /\ p = (n, zlen (alignF d)) :: o) as (-> & ->) by (split; congruence). exists (alignF d' ++ f).
  rewrite (sim_len _ _ _ SF). split; [reflexivity|]. apply sim_app, SF.
Qed.
Lemma sim_fat w o fat l : 0x1000 + zlen w <= fat -> Forall (fun x => 0 <= fst x) l -> forall d d' e, foldM (put_fat o fat) d l = Ok e -> sim w d d' ->
  exists e', foldM (put_fat o fat) d' l = Ok e' /\ sim w e e'.
Proof.
  intros F N. induction N as [|[i f] l N _ IH]; intros d d' e H S; cbn [foldM] in *; [exists d'; assert (d = e) as -> by congruence; auto|]. cbn [fst] in N.
  apply bind_ok in H as (d1 & H1 & H2). cbn [put_fat] in *. destruct (off_of o i) as [s|]; [|discriminate]. apply bind_ok in H1 as (b & -> & H1). cbn [bind].
  assert (L : 0x1000 + zlen w <= fat + 8 * i) by lia. destruct (sim_put w d d' _ _ _ L H1 S) as (d1' & -> & S1). cbn [bind]. exact (IH _ _ _ H2 S1).
Qed.

(** ** The order of the files *)
Lemma packed_true o k : packed o k = true <-> off_of o k <> None.
Proof. unfold packed. destruct (off_of o k); split; congruence. Qed.
Lemma packed_false o k : packed o k = false <-> off_of o k = None.
Proof. unfold packed. destruct (off_of o k); split; congruence. Qed.

Section Order.
Context (fs : list bytes).

(** the two loops pack a list of numbers one after the other *)
Lemma loop_list (step : bytes * offs -> Z -> res (bytes * offs)) :
  (forall st n, packed (snd st) n = true -> step st n = Ok st) ->
  (forall st n, packed (snd st) n = false -> step st n = Ok st \/ step st n = pack_file fs st n /\ n < zlen fs) ->
  forall ns d o st, foldM step (d, o) ns = Ok st -> Forall (fun n => 0 <= n) ns ->
  exists L, foldM (pack_file fs) (d, o) L = Ok st /\ NoDup L /\ Forall (fun n => 0 <= n < zlen fs /\ off_of o n = None) L.
Proof.
  intros S1 S2. induction ns as [|n ns IH]; intros d o st H N; cbn [foldM] in H.
  - exists []. split; [exact H|]. split; constructor.
  - inversion N as [|? ? N0 N1]; subst. apply bind_ok in H as ([d1 o1] & H1 & H2). destruct (packed o n) eqn:P.
    + rewrite S1 in H1 by exact P. assert (d1 = d /\ o1 = o) as (-> & ->) by (split; congruence). exact (IH _ _ _ H2 N1).
    + destruct (S2 (d, o) n P) as [E|(E & L)]; rewrite E in H1.
      * assert (d1 = d /\ o1 = o) as (-> & ->) by (split; congruence). exact (IH _ _ _ H2 N1).
      * destruct (IH _ _ _ H2 N1) as (L' & H3 & ND & F). exists (n :: L'). cbn [foldM]. rewrite H1. cbn [bind]. split; [exact H3|].
        assert (O1 : forall k, off_of o1 k = if n =? k then Some (zlen (alignF d)) else off_of o k).
        { intros k. unfold pack_file in H1. cbn [fst snd] in H1. apply bind_ok in H1 as (f & _ & H1). assert (o1 = (n, zlen (alignF d)) :: o) as -> by congruence. reflexivity. }
        split.
        -- constructor; [|exact ND]. intros I. rewrite Forall_forall in F. destruct (F n I) as (_ & F'). rewrite O1, Z.eqb_refl in F'. discriminate.
        -- constructor; [split; [lia|apply packed_false; exact P]|]. eapply Forall_impl; [|exact F]. intros k (K1 & K2). split; [exact K1|].
           rewrite O1 in K2. destruct (_ =? _); [discriminate|exact K2].
Qed.
Lemma foldM_app_ {A S} (f : S -> A -> res S) l1 l2 s : foldM f s (l1 ++ l2) = (s' <- foldM f s l1 ;; foldM f s' l2).
Proof. revert s. induction l1 as [|a l1 IH]; intros s; cbn [app foldM]; [reflexivity|]. destruct (f s a); cbn [bind]; [apply IH|reflexivity]. Qed.
Lemma pack_files_offs L : forall d o d' o', foldM (pack_file fs) (d, o) L = Ok (d', o') ->
  (forall i, off_of o i <> None -> off_of o' i <> None) /\ (forall i, In i L -> off_of o' i <> None) /\ (forall i, ~ In i L -> off_of o' i = off_of o i) /\ zlen d <= zlen d'.
Proof.
  induction L as [|n L IH]; intros d o d' o' H; cbn [foldM] in H.
  - assert (d = d' /\ o = o') as (-> & ->) by (split; congruence). split; [auto|]. split; [easy|]. split; [reflexivity|lia].
  - apply bind_ok in H as ([d1 o1] & H1 & H2). unfold pack_file in H1. cbn [fst snd] in H1. apply bind_ok in H1 as (f & _ & H1).
    assert (d1 = alignF d ++ f /\ o1 = (n, zlen (alignF d)) :: o) as (-> & ->) by (split; congruence). clear H1. destruct (IH _ _ _ _ H2) as (I1 & I2 & I3 & I4).
    assert (N : off_of o' n <> None) by (apply I1; cbn [off_of]; rewrite Z.eqb_refl; discriminate).
    split; [intros i Hi; apply I1; cbn [off_of]; destruct (_ =? _); [discriminate|exact Hi]|]. split; [intros i [<-|Hi]; [exact N|exact (I2 i Hi)]|]. split.
    + intros i Hi. rewrite I3 by (intros X; apply Hi; right; exact X). cbn [off_of]. destruct (Z.eqb_spec n i) as [->|]; [|reflexivity]. exfalso. apply Hi. left. reflexivity.
    + rewrite zlen_app in I4. unfold alignF in I4. rewrite zlen_pad_to in I4 by lia. pose proof (zlen_nonneg f). pose proof (Z.mod_pos_bound (- zlen d) 0x200). lia.
Qed.
Lemma zlen_alignF d : zlen d <= zlen (alignF d).
Proof. unfold alignF. rewrite zlen_pad_to by lia. pose proof (Z.mod_pos_bound (- zlen d) 0x200). lia. Qed.
(** non-empty files packed one after the other start at increasing offsets *)
Definition before (o : offs) (i j : Z) : Prop := forall si sj, off_of o i = Some si -> off_of o j = Some sj -> si < sj.
Lemma pack_files_sorted L : forall d o d' o', foldM (pack_file fs) (d, o) L = Ok (d', o') -> NoDup L -> (forall i, In i L -> get fs i <> Ok []) ->
  (forall i s, In i L -> off_of o' i = Some s -> zlen d <= s) /\ StronglySorted (before o') L.
Proof.
  induction L as [|n L IH]; intros d o d' o' H ND NE; cbn [foldM] in H.
  - split; [easy|constructor].
  - inversion ND as [|? ? N1 N2]; subst. apply bind_ok in H as ([d1 o1] & H1 & H2). unfold pack_file in H1. cbn [fst snd] in H1. apply bind_ok in H1 as (f & Ef & H1).
    assert (d1 = alignF d ++ f /\ o1 = (n, zlen (alignF d)) :: o) as (-> & ->) by (split; congruence). clear H1.
    destruct (IH _ _ _ _ H2 N2 (fun i Hi => NE i (or_intror Hi))) as (I1 & I2). destruct (pack_files_offs _ _ _ _ _ H2) as (_ & _ & I3 & _). specialize (I3 n N1).
    cbn [off_of] in I3. rewrite Z.eqb_refl in I3. pose proof (zlen_alignF d) as LA. rewrite zlen_app in I1.
    assert (LF : 0 < zlen f) by (destruct f as [|x f]; [destruct (NE n (or_introl eq_refl)); exact Ef|rewrite zlen_cons; pose proof (zlen_nonneg f); lia]).
    split.
    + intros i s [<-|Hi] E; [assert (s = zlen (alignF d)) by congruence; lia|]. specialize (I1 i s Hi E). lia.
    + constructor; [exact I2|]. apply Forall_forall. intros j Hj si sj Ei Ej. specialize (I1 j sj Hj Ej). assert (si = zlen (alignF d)) by congruence. lia.
Qed.
(** a list of packed numbers without the ones packed before *)
Lemma pack_sorted_filter order : forall d o, NoDup order -> Forall (fun n => 0 <= n < zlen fs) order ->
  foldM (pack_sorted fs) (d, o) order = foldM (pack_file fs) (d, o) (filter (fun n => negb (packed o n)) order).
Proof.
  assert (E : forall ns (o o1 : offs), (forall k, In k ns -> packed o1 k = packed o k) -> filter (fun n => negb (packed o1 n)) ns = filter (fun n => negb (packed o n)) ns).
  { intros ns o o1 K. apply filter_ext_in. intros k I. rewrite (K k I). reflexivity. }
  induction order as [|n order IH]; intros d o ND F; cbn [foldM filter]; [reflexivity|]. inversion ND as [|? ? N1 N2]; inversion F as [|? ? F1 F2]; subst.
  unfold pack_sorted at 1. cbn [snd]. replace (n <? zlen fs) with true by lia. rewrite andb_true_r. destruct (packed o n) eqn:P; cbn [negb].
  - cbn [bind]. apply IH; assumption.
  - cbn [foldM]. destruct (pack_file fs (d, o) n) as [[d1 o1]|e] eqn:PF; cbn [bind]; [|reflexivity]. rewrite IH by assumption. f_equal. apply E. intros k I.
    unfold pack_file in PF. cbn [fst snd] in PF. apply bind_ok in PF as (f & _ & PF). assert (o1 = (n, zlen (alignF d)) :: o) as -> by congruence.
    unfold packed. cbn [off_of]. destruct (Z.eqb_spec n k) as [->|]; [contradiction|reflexivity].
Qed.
Lemma pack_rest_done ns d o : (forall n, In n ns -> off_of o n <> None) -> foldM (pack_rest fs) (d, o) ns = Ok (d, o).
Proof.
  induction ns as [|n ns IH]; intros A; cbn [foldM]; [reflexivity|]. unfold pack_rest at 1. cbn [snd]. rewrite (proj2 (packed_true o n)) by (apply A; left; reflexivity). cbn [negb bind].
  apply IH. intros k K. apply A. right. exact K.
Qed.
Lemma rest_list ns : forall d o d' o', foldM (pack_rest fs) (d, o) ns = Ok (d', o') -> Forall (fun n => 0 <= n < zlen fs) ns ->
  exists L, foldM (pack_file fs) (d, o) L = Ok (d', o') /\ NoDup L /\ Forall (fun n => 0 <= n < zlen fs /\ off_of o n = None) L /\ (forall n, In n ns -> off_of o' n <> None).
Proof.
  induction ns as [|n ns IH]; intros d o d' o' E RN; cbn [foldM] in E.
  - exists []. split; [exact E|]. split; [constructor|]. split; [constructor|easy].
  - inversion RN as [|? ? R1 R2]; subst. apply bind_ok in E as ([d1 o1] & E1 & E2). unfold pack_rest in E1. cbn [snd] in E1. destruct (packed o n) eqn:P; cbn [negb] in E1.
    + assert (d1 = d /\ o1 = o) as (-> & ->) by (split; congruence). destruct (IH _ _ _ _ E2 R2) as (L & L1 & L2 & L3 & L4). exists L. split; [exact L1|]. split; [exact L2|]. split; [exact L3|].
      intros m [<-|M]; [|exact (L4 m M)]. apply (proj1 (pack_files_offs _ _ _ _ _ L1)). apply packed_true. exact P.
    + destruct (IH _ _ _ _ E2 R2) as (L & L1 & L2 & L3 & L4). exists (n :: L). cbn [foldM]. rewrite E1. cbn [bind]. split; [exact L1|].
      assert (O1 : forall k, off_of o1 k = if n =? k then Some (zlen (alignF d)) else off_of o k).
      { intros k. unfold pack_file in E1. cbn [fst snd] in E1. apply bind_ok in E1 as (f & _ & E1). assert (o1 = (n, zlen (alignF d)) :: o) as -> by congruence. reflexivity. }
      split; [|split].
      * constructor; [|exact L2]. intros I. rewrite Forall_forall in L3. destruct (L3 n I) as (_ & F'). rewrite O1, Z.eqb_refl in F'. discriminate.
      * constructor; [split; [lia|apply packed_false; exact P]|]. eapply Forall_impl; [|exact L3]. intros k (K1 & K2). split; [exact K1|].
        rewrite O1 in K2. destruct (_ =? _); [discriminate|exact K2].
      * intros m [<-|M]; [|exact (L4 m M)]. apply (proj1 (pack_files_offs _ _ _ _ _ L1)). rewrite O1, Z.eqb_refl. discriminate.
Qed.
End Order.
Lemma nodup_app {A} (a b : list A) : NoDup a -> NoDup b -> (forall x, In x a -> In x b -> False) -> NoDup (a ++ b).
Proof.
  intros Na Nb D. induction Na as [|x a X Na IH]; cbn [app]; [exact Nb|]. constructor.
  - intros I. apply in_app_iff in I as [I|I]; [exact (X I)|]. exact (D x (or_introl eq_refl) I).
  - apply IH. intros y Y. apply D. right. exact Y.
Qed.

(** lists sorted by a strict order are determined by their elements *)
Lemma sorted_unique {A} (R : A -> A -> Prop) : (forall x, ~ R x x) -> (forall x y, R x y -> R y x -> False) ->
  forall l1 l2, StronglySorted R l1 -> StronglySorted R l2 -> (forall x, In x l1 <-> In x l2) -> l1 = l2.
Proof.
  intros Ir As. induction l1 as [|a l1 IH]; intros l2 S1 S2 E.
  - destruct l2 as [|b l2]; [reflexivity|]. destruct (proj2 (E b) (or_introl eq_refl)).
  - destruct l2 as [|b l2]; [destruct (proj1 (E a) (or_introl eq_refl))|]. inversion S1 as [|? ? T1 F1]; inversion S2 as [|? ? T2 F2]; subst. rewrite Forall_forall in F1, F2.
    assert (a = b) as ->.
    { destruct (proj1 (E a) (or_introl eq_refl)) as [X|X]; [auto|]. destruct (proj2 (E b) (or_introl eq_refl)) as [Y|Y]; [auto|]. destruct (As a b (F1 _ Y) (F2 _ X)). }
    f_equal. apply IH; [assumption..|]. intros x. split; intros X.
    + destruct (proj1 (E x) (or_intror X)) as [<-|Y]; [|exact Y]. destruct (Ir _ (F1 _ X)).
    + destruct (proj2 (E x) (or_intror X)) as [<-|Y]; [|exact Y]. destruct (Ir _ (F2 _ X)).
Qed.
Lemma sorted_filter {A} (R : A -> A -> Prop) p l : StronglySorted R l -> StronglySorted R (filter p l).
Proof.
  induction 1 as [|a l S IH F]; cbn [filter]; [constructor|]. destruct (p a); [|exact IH]. constructor; [exact IH|]. rewrite Forall_forall in F |- *. intros x X. apply F. apply filter_In in X. apply X.
Qed.
Lemma sorted_nodup {A} (R : A -> A -> Prop) l : (forall x, ~ R x x) -> StronglySorted R l -> NoDup l.
Proof. intros Ir. induction 1 as [|a l S IH F]; constructor; [|exact IH]. intros X. rewrite Forall_forall in F. exact (Ir _ (F _ X)). Qed.

(** the files named by an overlay table are packed with it *)
Lemma overlays_packed fs t d o d' o' : pack_overlays fs t (d, o) = Ok (d', o') ->
  (forall i, listed t i \/ off_of o i <> None -> off_of o' i <> None) /\
  ((forall i s, off_of o i = Some s -> s <= zlen d) -> (forall i s, off_of o' i = Some s -> s <= zlen d')) /\ zlen d <= zlen d'.
Proof.
  unfold pack_overlays. intros H.
  assert (G : forall ns d o, foldM (pack_overlay fs t) (d, o) ns = Ok (d', o') ->
    (forall i, (exists n, In n ns /\ unpack_u 4 t (n + 0x18) = Ok i) \/ off_of o i <> None -> off_of o' i <> None) /\
    ((forall i s, off_of o i = Some s -> s <= zlen d) -> (forall i s, off_of o' i = Some s -> s <= zlen d')) /\ zlen d <= zlen d' /\
    Forall (fun n => exists i, unpack_u 4 t (n + 0x18) = Ok i) ns).
  { clear. induction ns as [|n ns IH]; intros d o H; cbn [foldM] in H.
    - assert (d = d' /\ o = o') as (-> & ->) by (split; congruence). split; [intros i [(n & [] & _)|X]; exact X|]. split; [auto|]. split; [lia|constructor].
    - apply bind_ok in H as ([d1 o1] & H1 & H2). unfold pack_overlay in H1. cbn [fst snd] in H1. apply bind_ok in H1 as (id & E & H1). apply bind_ok in H1 as (f & _ & H1).
      assert (d1 = alignF (d ++ f) /\ o1 = (id, zlen d) :: o) as (-> & ->) by (split; congruence). clear H1. destruct (IH _ _ H2) as (I1 & I2 & I3 & I4).
      pose proof (zlen_alignF (d ++ f)) as LA. rewrite zlen_app in LA. pose proof (zlen_nonneg f).
      split; [|split; [|split; [lia|constructor; [eauto|exact I4]]]].
      + intros i [(m & [<-|M] & X)|X].
        * apply I1. right. cbn [off_of]. assert (id = i) as -> by congruence. rewrite Z.eqb_refl. discriminate.
        * apply I1. left. eauto.
        * apply I1. right. cbn [off_of]. destruct (_ =? _); [discriminate|exact X].
      + intros B. apply I2. intros i s X. cbn [off_of] in X. destruct (_ =? _); [assert (s = zlen d) by congruence; lia|]. specialize (B _ _ X). lia. }
  destruct (G _ _ _ H) as (G1 & G2 & G3 & G4). split; [|split; [exact G2|exact G3]]. intros i [(k & K0 & K1 & K2)|X]; [|apply G1; right; exact X].
  apply G1. left. exists (32 * k).
  assert (I : In (32 * k) (map (fun n => 32 * n) (range_z 0 (Z.to_nat ((zlen t + 31) / 32))))).
  { apply in_map_iff. exists k. split; [reflexivity|]. apply in_range_z. split; [lia|]. rewrite Z2Nat.id by (apply Z.div_pos; lia).
    rewrite Z.add_0_l. assert (k < (zlen t + 31) / 32); [|lia]. apply Z.lt_le_trans with (k + 1); [lia|]. apply Z.div_le_lower_bound; lia. }
  split; [exact I|]. rewrite Forall_forall in G4. destruct (G4 _ I) as (v & V). rewrite V. f_equal. rewrite <- K2. assert (K3 : 0 <= 32 * k + 0x18) by lia. pose proof (unpack_u_lt _ _ _ _ K3 V) as LV.
  unfold word, unpack_u, unpack_e in *. rewrite rd_slice in V by lia. cbn [bind] in V. injection V as <-. reflexivity.
Qed.

(** ** The body of the file *)
Lemma zeros_app a b : 0 <= a -> 0 <= b -> zeros (a + b) = zeros a ++ zeros b.
Proof. intros H1 H2. unfold zeros, rep. rewrite Z2Nat.inj_add by lia. apply repeat_app. Qed.
Lemma fix_idem b n m : 0 <= n -> n = Z.of_nat m -> slice (ljust (firstn m (b ++ zeros n)) n 0) 0 n = slice (ljust b n 0) 0 n.
Proof.
  intros N E. rewrite !fix_raw by exact N. assert (M : Z.to_nat n = m) by lia. rewrite M.
  assert (L : length (firstn m (b ++ zeros n)) = m).
  { rewrite firstn_length, app_length. unfold zeros, rep. rewrite repeat_length. lia. }
  rewrite firstn_app, L, Nat.sub_diag. cbn [firstn]. rewrite app_nil_r. rewrite firstn_all2 by lia. reflexivity.
Qed.
Lemma rstrip_zeros b : exists k, b = rstrip 0 b ++ repeat 0 k.
Proof.
  induction b as [|x b (k & IH)]; [exists 0%nat; reflexivity|]. cbn [rstrip]. destruct (rstrip 0 b) as [|y r] eqn:R.
  - destruct (Z.eqb_spec x 0) as [->|N]; [exists (S k); cbn [app repeat]; f_equal; exact IH|exists k; cbn [app]; f_equal; exact IH].
  - exists k. cbn [app] in *. f_equal. exact IH.
Qed.
Lemma fix_strip b n : 0 <= n -> slice (ljust (rstrip 0 (firstn (Z.to_nat n) b)) n 0) 0 n = slice (ljust b n 0) 0 n.
Proof.
  intros N. rewrite !fix_raw by exact N. destruct (rstrip_zeros (firstn (Z.to_nat n) b)) as (k & K). set (s := rstrip 0 (firstn (Z.to_nat n) b)) in *.
  assert (LS : (length s + k <= Z.to_nat n)%nat) by (apply (f_equal (@length Z)) in K; rewrite app_length, repeat_length, firstn_length in K; lia).
  rewrite !firstn_app, K. rewrite (firstn_all2 s) by lia. rewrite <- app_assoc. f_equal. unfold zeros, rep.
  assert (FR : forall i j, (i <= j)%nat -> firstn i (repeat 0 j) = repeat 0 i).
  { intros i j. revert i. induction j as [|j IH]; intros [|i] L; cbn [repeat firstn]; [reflexivity|lia|reflexivity|]. f_equal. apply IH. lia. }
  rewrite !FR by lia. rewrite <- repeat_app. f_equal. apply (f_equal (@length Z)) in K. rewrite app_length, repeat_length, firstn_length in K. lia.
Qed.
Lemma by_offset_ext s s' n order : (forall i, (i < n)%nat -> s i = s' i) -> by_offset s n order -> by_offset s' n order.
Proof.
  intros E (S & M).
  assert (R : forall i, In i order -> s (Z.to_nat i) = s' (Z.to_nat i)) by (intros i I; apply E; apply M in I as (I & _); lia).
  split.
  - clear M E. induction S as [|a l S IH F]; constructor; [apply IH; intros i I; apply R; right; exact I|].
    rewrite Forall_forall in F |- *. intros x X. rewrite <- !R by (first [left; reflexivity|right; exact X]). exact (F x X).
  - intros i. rewrite M. split; intros (I & J); (split; [exact I|]); intros j Hj; specialize (J j Hj); [rewrite <- !E by lia|rewrite !E by lia]; exact J.
Qed.

Definition start_of (l : layout) (i : nat) : Z := match off_of (oFiles l) (Z.of_nat i) with Some s => s | None => 0 end.
Definition keeps (r r' : rom) : Prop :=
  arm9 r' = arm9 r /\ arm9PostData r' = arm9PostData r /\ arm7 r' = arm7 r /\ arm9OverlayTable r' = arm9OverlayTable r /\
  arm7OverlayTable r' = arm7OverlayTable r /\ iconBanner r' = iconBanner r /\ debugRom r' = debugRom r /\ filenames r' = filenames r /\ files r' = files r.
Ltac rwb R := match type of R with ?y = _ => match goal with |- bind ?x ?k = ?z => change (bind y k = z); rewrite R end end.
Lemma body_resave r r' D l : rom_body r = Ok (D, l) -> keeps r r' -> Forall (fun n => 0 <= n) (sortedFileIds r) -> zlen (rsaSignature r) <= 0x88 ->
  (forall i, nth_error (files r) i = Some [] -> is_overlay r (Z.of_nat i)) ->
  by_offset (start_of l) (length (files r)) (sortedFileIds r') ->
  pad200 r' = saved_pad (pad200 r) (oRsa l) ->
  rsaSignature r' = firstn 0x88 (rsaSignature r ++ zeros (zlen D - oRsa l - zlen (rsaSignature r))) ->
  rom_body r' = Ok (D, l).
Proof.
  intros H (K1 & K2 & K3 & K4 & K5 & K6 & K7 & K8 & K9) SN RL NE BO EP ES.
  unfold rom_body in *. rewrite K1, K2, K3, K4, K5, K6, K7, K8, K9. cbv zeta in *.
  set (d0 := pad_to 0x4000 0 (zeros 0x200 ++ pad200 r)) in H. set (d0' := pad_to 0x4000 0 (zeros 0x200 ++ pad200 r')).
  destruct (pack_part (arm9OverlayTable r) (alignF (d0 ++ arm9 r ++ arm9PostData r))) as [d2 q2] eqn:E2.
  apply bind_ok in H as ([d3 o3] & E3 & H).
  destruct (pack_part (arm7OverlayTable r) (alignF (d3 ++ arm7 r))) as [d5 q5] eqn:E5.
  apply bind_ok in H as ([d6 o6] & E6 & H). apply bind_ok in H as (fnt & Ef & H). apply bind_ok in H as (u & Eb & H).
  set (d7 := alignF (d6 ++ fnt)) in *. set (d8 := alignF (d7 ++ zeros (8 * zlen (files r)))) in *.
  destruct (pack_part (iconBanner r) d8) as [d9 q9] eqn:E9. destruct (pack_part (debugRom r) d9) as [d10 q10] eqn:E10.
  apply bind_ok in H as ([d11 o11] & E11 & H). apply bind_ok in H as ([d12 o12] & E12 & H). apply bind_ok in H as (d13 & E13 & H).
  apply bind_ok in H as (w & Ew & H). apply bind_ok in H as (d15 & E15 & H).
  match type of H with Ok (_, ?x) = _ => assert (EL : l = x) by congruence end. assert (ED : D = pad_to 0x400 0 d15) by congruence. clear H.
  apply pack_u_inv in Ew as (WR & ->).
  assert (OR : oRsa l = zlen (pad_to 0x20 0 d13)) by (rewrite EL; reflexivity). rewrite <- OR in E15.
  (* the head *)
  assert (S0 : sim (le 4 (oRsa l)) d0 d0').
  { assert (LQ : exists k, zlen (pad200 r ++ zeros ((- (0x200 + zlen (pad200 r))) mod 0x4000)) = 0x4000 * k - 0x200 /\ 1 <= k).
    { pose proof (zlen_nonneg (pad200 r)). pose proof (Z.mod_pos_bound (- (0x200 + zlen (pad200 r))) 0x4000). rewrite zlen_app, zlen_zeros by lia.
      pose proof (Z.div_mod (- (0x200 + zlen (pad200 r))) 0x4000). exists (- ((- (0x200 + zlen (pad200 r))) / 0x4000)). split; lia. }
    destruct LQ as (k & LQ & K). set (q := pad200 r ++ zeros ((- (0x200 + zlen (pad200 r))) mod 0x4000)) in *.
    assert (Q0 : d0 = zeros 0x200 ++ q).
    { unfold d0, q, pad_to. rewrite <- app_assoc. do 2 f_equal. unfold zeros. f_equal. fold (zeros 512). rewrite zlen_app, zlen_zeros by lia. reflexivity. }
    assert (Q1 : q = firstn 0xE00 q ++ firstn 4 (skipn 0xE00 q) ++ skipn 0xE04 q).
    { assert (SS : forall a b (x : bytes), skipn (a + b) x = skipn a (skipn b x)) by (clear; intros a b; induction b as [|b IH]; intros x; [rewrite Nat.add_0_r; reflexivity|]; rewrite Nat.add_succ_r; destruct x as [|y x]; [cbn [skipn]; symmetry; apply skipn_nil|exact (IH x)]).
      rewrite (SS 4%nat 0xE00%nat q : skipn 0xE04 q = _). rewrite !firstn_skipn. reflexivity. }
    assert (L1 : zlen (firstn 0xE00 q) = 0xE00) by (rewrite zlen_firstn; lia).
    assert (L2 : zlen (firstn 4 (skipn 0xE00 q)) = 4) by (rewrite zlen_firstn, zlen_skipn; lia).
    assert (Q2 : d0' = zeros 0x200 ++ firstn 0xE00 q ++ le 4 (oRsa l) ++ skipn 0xE04 q).
    { unfold d0'. rewrite EP. unfold saved_pad. fold q. unfold pad_to.
      assert (L3 : zlen (zeros 0x200 ++ firstn 0xE00 q ++ le 4 (oRsa l) ++ skipn 0xE04 q) = 0x4000 * k).
      { rewrite !zlen_app, zlen_zeros, L1, zlen_le, zlen_skipn by lia. lia. }
      rewrite L3. replace ((- (0x4000 * k)) mod 0x4000) with 0; [apply app_nil_r|]. replace (- (0x4000 * k)) with ((- k) * 0x4000) by lia. symmetry. apply Z.mod_mul. lia. }
    exists (zeros 0x200 ++ firstn 0xE00 q), (firstn 4 (skipn 0xE00 q)), (skipn 0xE04 q). rewrite <- !app_assoc. split; [rewrite <- Q1; exact Q0|]. split; [exact Q2|].
    split; [rewrite zlen_app, zlen_zeros, L1 by lia; reflexivity|rewrite L2, zlen_le; reflexivity]. }
  assert (G0 : 0x4000 <= zlen d0).
  { unfold d0. rewrite zlen_pad_to, zlen_app, zlen_zeros by lia. pose proof (zlen_nonneg (pad200 r)). pose proof (Z.mod_pos_bound (- (0x200 + zlen (pad200 r))) 0x4000).
    pose proof (Z.div_mod (- (0x200 + zlen (pad200 r))) 0x4000). assert (- (0x200 + zlen (pad200 r)) / 0x4000 < 0) by (apply Z.div_lt_upper_bound; lia). lia. }
  pose proof (sim_F _ _ _ (sim_app _ _ _ (arm9 r ++ arm9PostData r) S0)) as S1.
  destruct (sim_part _ _ _ _ _ _ E2 S1) as (d2' & -> & S2). cbv beta iota. destruct (sim_overlays _ _ _ _ _ _ _ _ E3 S2) as (d3' & R3 & S3). rwb R3. cbn [bind].
  pose proof (sim_F _ _ _ (sim_app _ _ _ (arm7 r) S3)) as S4. destruct (sim_part _ _ _ _ _ _ E5 S4) as (d5' & -> & S5). cbv beta iota.
  destruct (sim_overlays _ _ _ _ _ _ _ _ E6 S5) as (d6' & R6 & S6). rwb R6. cbn [bind]. rwb Ef. cbn [bind]. rwb Eb. cbn [bind].
  pose proof (sim_F _ _ _ (sim_app _ _ _ fnt S6)) as S7. fold d7 in S7. set (d7' := alignF (d6' ++ fnt)) in *.
  pose proof (sim_F _ _ _ (sim_app _ _ _ (zeros (8 * zlen (files r))) S7)) as S8. fold d8 in S8. set (d8' := alignF (d7' ++ zeros (8 * zlen (files r)))) in *.
  destruct (sim_part _ _ _ _ _ _ E9 S8) as (d9' & -> & S9). cbv beta iota. destruct (sim_part _ _ _ _ _ _ E10 S9) as (d10' & -> & S10). cbv beta iota.
  (* lengths *)
  assert (PL : forall part d e o, pack_part part d = (e, o) -> zlen d <= zlen e).
  { intros part d e o P. unfold pack_part in P. destruct part as [|x p]; injection P as <- _; [lia|]. pose proof (zlen_alignF (d ++ x :: p)) as LA. rewrite zlen_app in LA. pose proof (zlen_nonneg (x :: p)). lia. }
  destruct (overlays_packed _ _ _ _ _ _ E3) as (P3 & B3 & L3). destruct (overlays_packed _ _ _ _ _ _ E6) as (P6 & B6 & L6).
  pose proof (PL _ _ _ _ E2) as L2. pose proof (PL _ _ _ _ E5) as L5. pose proof (PL _ _ _ _ E9) as L9. pose proof (PL _ _ _ _ E10) as L10.
  pose proof (zlen_alignF (d0 ++ arm9 r ++ arm9PostData r)) as L1. rewrite zlen_app in L1. pose proof (zlen_nonneg (arm9 r ++ arm9PostData r)).
  pose proof (zlen_alignF (d3 ++ arm7 r)) as L4. rewrite zlen_app in L4. pose proof (zlen_nonneg (arm7 r)).
  pose proof (zlen_alignF (d6 ++ fnt)) as L7. fold d7 in L7. rewrite zlen_app in L7. pose proof (zlen_nonneg fnt).
  pose proof (zlen_alignF (d7 ++ zeros (8 * zlen (files r)))) as L8. fold d8 in L8. rewrite zlen_app, zlen_zeros in L8 by (pose proof (zlen_nonneg (files r)); lia).
  (* the files *)
  destruct (loop_list (files r) (pack_sorted (files r))) with (ns := sortedFileIds r) (d := d10) (o := o6) (st := (d11, o11)) as (La & Fa & Na & Ia); [| |exact E11|exact SN|].
  { intros st n P. unfold pack_sorted. rewrite P. reflexivity. }
  { intros st n P. unfold pack_sorted. rewrite P. cbn [negb andb]. destruct (Z.ltb_spec n (zlen (files r))); [right; split; [reflexivity|assumption]|left; reflexivity]. }
  assert (RN : Forall (fun n => 0 <= n < zlen (files r)) (range_z 0 (length (files r)))) by (apply Forall_forall; intros n I; apply in_range_z in I; unfold zlen; lia).
  destruct (pack_files_offs _ _ _ _ _ _ Fa) as (Ka & Ja & _ & La10).
  destruct (rest_list _ _ _ _ _ _ E12 RN) as (Lb & Fb & Nb & Ib & AL).
  destruct (pack_files_offs _ _ _ _ _ _ Fb) as (Kb & Jb & Hb & _).
  set (L := La ++ Lb).
  assert (FL : foldM (pack_file (files r)) (d10, o6) L = Ok (d12, o12)) by (unfold L; rewrite foldM_app_, Fa; exact Fb).
  assert (IL : forall n, In n L -> 0 <= n < zlen (files r) /\ off_of o6 n = None).
  { intros n I. unfold L in I. apply in_app_iff in I as [I|I]; rewrite Forall_forall in Ia, Ib; [exact (Ia n I)|]. destruct (Ib n I) as (I1 & I2). split; [exact I1|].
    destruct (off_of o6 n) eqn:O; [|reflexivity]. exfalso. apply (Ka n); [congruence|exact I2]. }
  assert (NL : NoDup L).
  { unfold L. apply nodup_app; [exact Na|exact Nb|]. intros n I J. rewrite Forall_forall in Ib. destruct (Ib n J) as (_ & X). exact (Ja n I X). }
  assert (AL' : forall n, 0 <= n < zlen (files r) -> off_of o12 n <> None) by (intros n N; apply AL; apply in_range_z; unfold zlen in N; lia).
  assert (NEL : forall i, In i L -> get (files r) i <> Ok []).
  { intros i I G. destruct (IL i I) as (I1 & I2). destruct (nth_error (files r) (Z.to_nat i)) as [f|] eqn:F; [|apply nth_error_None in F; unfold zlen in I1; lia].
    rewrite (get_nth (files r) i f) in G by (lia || exact F). assert (f = []) as -> by congruence. apply NE in F. rewrite Z2Nat.id in F by lia. apply (P6 i); [|exact I2]. destruct F as [F|F]; [right; apply P3; left; exact F|left; exact F]. }
  destruct (pack_files_sorted _ _ _ _ _ _ FL NL NEL) as (GL & SL). destruct (pack_files_offs _ _ _ _ _ _ FL) as (_ & JL & HL & _).
  assert (OF : oFiles l = o12) by (rewrite EL; reflexivity).
  assert (OS : forall i, 0 <= i < zlen (files r) -> off_of o12 i = Some (start_of l (Z.to_nat i))).
  { intros i I. unfold start_of. rewrite OF, Z2Nat.id by lia. specialize (AL' i I). destruct (off_of o12 i); [reflexivity|congruence]. }
  destruct BO as (BS & BM).
  assert (B0 : forall i s, off_of o6 i = Some s -> s <= zlen d6).
  { apply B6. intros i s X. apply B3 in X; [lia|]. intros ? ? Y. discriminate Y. }
  assert (EO : filter (fun n => negb (packed o6 n)) (sortedFileIds r') = L).
  { refine (sorted_unique (fun i j => start_of l (Z.to_nat i) < start_of l (Z.to_nat j)) _ _ _ _ _ _ _).
    - intros x. apply Z.lt_irrefl.
    - intros x y X Y. lia.
    - apply sorted_filter. exact BS.
    - clear - SL OS IL. assert (IL' : forall n, In n L -> 0 <= n < zlen (files r)) by (intros n N; apply IL; exact N). clear IL. clearbody L.
      induction SL as [|a L S IH F]; constructor; [apply IH; intros n N; apply IL'; right; exact N|].
      rewrite Forall_forall in F |- *. intros x X. apply (F x X); apply OS; apply IL'; [left; reflexivity|right; exact X].
    - intros i. rewrite filter_In, BM. split.
      + intros ((I & _) & N). destruct (in_dec Z.eq_dec i L) as [Y|Y]; [exact Y|]. exfalso. apply negb_true_iff, packed_false in N. apply (AL' i); [unfold zlen; lia|]. rewrite HL by exact Y. exact N.
      + intros I. destruct (IL i I) as (I1 & I2). split; [|rewrite (proj2 (packed_false o6 i) I2); reflexivity]. split; [unfold zlen in I1; lia|]. intros j J X.
        assert (J' : 0 <= j < zlen (files r)) by (unfold zlen; lia). pose proof (OS i I1) as Oi. pose proof (OS j J') as Oj. rewrite X in Oj. pose proof (GL i _ I Oi) as Gi.
        destruct (in_dec Z.eq_dec j L) as [Y|Y].
        * clear -SL I Y J Oi Oj. clearbody L. induction SL as [|a L S IH F]; [destruct I|]. rewrite Forall_forall in F. destruct I as [<-|I], Y as [<-|Y].
          -- lia.
          -- pose proof (F j Y _ _ Oi Oj). lia.
          -- pose proof (F i I _ _ Oj Oi). lia.
          -- exact (IH I Y).
        * rewrite HL in Oj by exact Y. apply B0 in Oj. lia. }
  rewrite pack_sorted_filter; [|refine (sorted_nodup _ _ _ BS); intros x; apply Z.lt_irrefl|apply Forall_forall; intros i I; apply BM in I as (I & _); unfold zlen; lia].
  rewrite EO. destruct (sim_fold _ _ (sim_file _ (files r)) _ _ _ _ _ _ FL S10) as (d12' & R12 & S12). rwb R12. cbn [bind].
  pose proof (pack_rest_done (files r) _ d12' o12 AL) as RR. rwb RR. cbn [bind]. rewrite (sim_len _ _ _ S7).
  assert (S13 : exists d13', foldM (put_fat o12 (zlen d7)) d12' (combine (range_z 0 (length (files r))) (files r)) = Ok d13' /\ sim (le 4 (oRsa l)) d13 d13').
  { refine (sim_fat _ _ _ _ _ _ _ _ _ E13 S12); [rewrite zlen_le; lia|]. apply Forall_forall. intros [i f] I. apply in_combine_l, in_range_z in I. cbn [fst]. lia. }
  destruct S13 as (d13' & R13 & S13). rwb R13. cbn [bind]. pose proof (sim_pad _ _ _ 0x20 0 S13) as S14. rewrite (sim_len _ _ _ S14), <- OR.
  rewrite (pack_u_ok 4 (oRsa l)) by (rewrite OR; exact WR). cbn [bind].
  destruct S14 as (a & m & c & A1 & A2 & A3 & A4). rewrite A1 in E15. rewrite A2. rewrite <- !app_assoc in E15 |- *. rewrite put_mid in E15 by assumption.
  assert (d15 = a ++ le 4 (oRsa l) ++ c ++ rsaSignature r) as -> by congruence. rewrite put_mid by (reflexivity || assumption). cbn [bind].
  assert (LD : zlen (a ++ le 4 (oRsa l) ++ c) = oRsa l) by (transitivity (zlen (pad_to 0x20 0 d13)); [rewrite A1, !zlen_app; lia|symmetry; exact OR]).
  assert (DD : D = (a ++ le 4 (oRsa l) ++ c) ++ rsaSignature r ++ zeros ((- (oRsa l + zlen (rsaSignature r))) mod 0x400)).
  { rewrite ED. unfold pad_to. rewrite <- !app_assoc. do 4 f_equal. unfold zeros. f_equal. f_equal. f_equal. rewrite !zlen_app in LD. rewrite !zlen_app.
    lia. }
  pose proof (Z.mod_pos_bound (- (oRsa l + zlen (rsaSignature r))) 0x400 ltac:(lia)) as MB. set (k := (- (oRsa l + zlen (rsaSignature r))) mod 0x400) in *.
  assert (LK : zlen D - oRsa l - zlen (rsaSignature r) = k) by (rewrite DD, zlen_app, LD, zlen_app, zlen_zeros by lia; lia).
  rewrite LK in ES. set (j := Z.min k (0x88 - zlen (rsaSignature r))).
  assert (ES' : rsaSignature r' = rsaSignature r ++ zeros j).
  { rewrite ES. rewrite firstn_app. rewrite firstn_all2 by (unfold zlen in RL; lia). f_equal. unfold zeros, rep.
    assert (FR : forall n i, firstn i (repeat 0 n) = repeat 0 (Nat.min i n)) by (clear; induction n as [|n IH]; intros [|i]; cbn [repeat firstn Nat.min]; [reflexivity..|]; f_equal; apply IH).
    rewrite FR. f_equal. unfold j, zlen in *. lia. }
  pose proof (zlen_nonneg (rsaSignature r)) as NS.
  assert (MJ : (- (oRsa l + zlen (rsaSignature r) + j)) mod 0x400 = k - j).
  { symmetry. apply (Z.mod_unique _ _ ((- (oRsa l + zlen (rsaSignature r))) / 0x400)); [left; unfold j; lia|].
    pose proof (Z.div_mod (- (oRsa l + zlen (rsaSignature r))) 0x400 ltac:(lia)) as DM. fold k in DM. lia. }
  assert (FIN : pad_to 0x400 0 (a ++ le 4 (oRsa l) ++ c ++ rsaSignature r') = D).
  { rewrite DD, ES'. unfold pad_to. assert (LX : zlen (a ++ le 4 (oRsa l) ++ c ++ rsaSignature r ++ zeros j) = oRsa l + zlen (rsaSignature r) + j).
    { rewrite !zlen_app in LD. rewrite !zlen_app. rewrite (zlen_zeros j) by (unfold j; lia). lia. }
    rewrite LX, MJ. rewrite <- !app_assoc. do 4 f_equal. fold (zeros (k - j)). rewrite <- zeros_app by (unfold j; lia). f_equal. lia. }
  rewrite FIN. do 2 f_equal. rewrite (sim_len _ _ _ S0), (sim_len _ _ _ S3), (sim_len _ _ _ S6), OR, EL. reflexivity.
Qed.

Lemma rom_resave upd upd' r data r1 order : rom_save upd r = Ok (data, r1) -> upd' = upd \/ upd' = false ->
  Forall (fun n => 0 <= n) (sortedFileIds r) -> zlen (rsaSignature r) <= 0x88 ->
  (forall i, nth_error (files r) i = Some [] -> is_overlay r (Z.of_nat i)) ->
  by_offset (fat_start data) (length (files r)) order ->
  rom_save upd' (reloaded r1 data order) = Ok (data, reloaded r1 data order).
Proof.
  intros H U SN RL NE BO. unfold rom_save in H. apply bind_ok in H as ([D l] & EB & H). apply bind_ok in H as (h & EH & H).
  destruct (rom_body_spec _ _ _ EB) as (P & fnt & B). set (cap := if upd then _ else _) in *. pose proof (rom_header_spec _ _ _ _ EH) as HS.
  apply ok_pair in H as (<- & <-). pose proof (hs_len _ _ _ _ HS) as L. pose proof (bs_rsa _ _ _ _ _ B) as (BR & _).
  assert (GD : 0x4000 <= zlen D).
  { rewrite (bs_size _ _ _ _ _ B). pose proof (zlen_nonneg (rsaSignature r)). unfold round.
    pose proof (Z.mod_pos_bound (- (oRsa l + zlen (rsaSignature r))) 0x400). lia. }
  assert (LZ : zlen (h ++ skipn 0x200 D) = zlen D) by (rewrite zlen_app, zlen_skipn, L; lia).
  assert (K : forall s b, 0x200 <= s -> at_ D s b -> at_ (h ++ skipn 0x200 D) s b).
  { intros s b S A. assert (LS : zlen h <= s) by lia. apply (proj2 (at_app_r _ _ _ _ LS)).
    rewrite <- (firstn_skipn 0x200 D) in A. assert (LF : zlen (firstn 0x200 D) <= s) by (rewrite zlen_firstn; lia).
    apply (proj1 (at_app_r _ _ _ _ LF)) in A. replace (zlen (firstn 0x200 D)) with (zlen h) in A by (rewrite zlen_firstn; lia). exact A. }
  pose proof (header_words r l cap h (skipn 0x200 D) fnt HS (bs_lfnt _ _ _ _ _ B)) as W. set (data := h ++ skipn 0x200 D) in *.
  assert (FS : forall i, (i < length (files r))%nat -> fat_start data i = start_of l i).
  { intros i I. destruct (nth_error (files r) i) as [f|] eqn:N; [|apply nth_error_None in N; lia]. destruct (bs_files _ _ _ _ _ B i f N) as (s & O & IN & SL & A).
    unfold start_of. rewrite O. pose proof (proj1 (Forall_forall _ _) (bs_ends _ _ _ _ _ B) _ IN) as (_ & [(X & _)|G] & _); [discriminate|].
    pose proof (proj1 (Forall_forall _ _) (bs_ends _ _ _ _ _ B) _ (bs_infat _ _ _ _ _ B)) as (_ & [(X & _)|G'] & _); [discriminate|].
    apply K in A; [|lia]. unfold fat_start. rewrite (w_fat _ _ _ _ W). pose proof (zlen_nonneg f). apply (fat_words data _ _ _ A); lia. }
  assert (EB' : rom_body (reloaded (set_capacity r cap) data order) = Ok (D, l)).
  { apply (body_resave r); [exact EB|repeat split; reflexivity|exact SN|exact RL|exact NE| | |].
    - exact (by_offset_ext _ _ _ _ FS BO).
    - cbn [reloaded pad200 set_capacity]. rewrite (w_rsa _ _ _ _ W). reflexivity.
    - cbn [reloaded rsaSignature set_capacity]. rewrite (w_rsa _ _ _ _ W), LZ. reflexivity. }
  unfold rom_save. rewrite EB'. cbn [bind].
  assert (EC : (if upd' then Z.log2_up (zlen D) - 17 else deviceCapacity (reloaded (set_capacity r cap) data order)) = cap).
  { change (deviceCapacity (reloaded (set_capacity r cap) data order)) with cap. destruct upd'; [|reflexivity]. destruct U as [<-|U]; [reflexivity|discriminate]. }
  rewrite EC.
  assert (EH' : rom_header (reloaded (set_capacity r cap) data order) l cap = rom_header r l cap).
  { pose proof (fix_strip (name r) 12 ltac:(lia)) as N1. pose proof (fix_idem (secureAreaDisable r) 8 8 ltac:(lia) eq_refl) as N2.
    unfold rom_header.
    assert (M1 : mapM hwrite (header_fields (reloaded (set_capacity r cap) data order) l cap) = mapM hwrite (header_fields r l cap)).
    { unfold header_fields. cbn [mapM]. 
      change (hwrite (HFix (name (reloaded (set_capacity r cap) data order)) 12)) with (Ok (slice (ljust (rstrip 0 (firstn (Z.to_nat 12) (name r))) 12 0) 0 12)).
      change (hwrite (HFix (secureAreaDisable (reloaded (set_capacity r cap) data order)) 8)) with (Ok (slice (ljust (firstn 8 (secureAreaDisable r ++ zeros 8)) 8 0) 0 8)).
      rewrite N1, N2. reflexivity. }
    rewrite M1. reflexivity. }
  rewrite EH', EH. cbn [bind]. fold data. do 2 f_equal.
Qed.

Lemma rom_save_cap upd r data r1 : rom_save upd r = Ok (data, r1) -> exists cap, r1 = set_capacity r cap.
Proof. intros E. destruct (rom_save_spec _ _ _ _ E) as (D & l & P & fnt & h & cap & _ & _ & _ & -> & _). exists cap. reflexivity. Qed.
Lemma rom_save_frame upd r data r1 : rom_save upd r = Ok (data, r1) -> filenames r1 = filenames r /\ files r1 = files r.
Proof. intros E. apply rom_save_cap in E as (cap & ->). split; reflexivity. Qed.

(** * Instruments that no table entry points to *)
From Coq Require Import String Sorted.
From Verif Require Import PyBase PyLemmas PyTac WaveModel SbnkModel SbnkSpec SbnkLemmas SbnkBank.

(** ** what loading finds *)
Lemma make_size data t o i n : makeInstrumentAt data t o = Ok (Some i, n) -> n = body_size (iBody i) /\ iKey i = o /\ iMerge i = o /\ t <> 0.
Proof.
  unfold makeInstrumentAt. destruct (Z.eqb_spec t 0) as [T|T]; [discriminate|]. intros H. apply bind_ok in H as ([b m] & H & E). injection E as <- <-. cbn [iBody iKey iMerge]. split; [|repeat split; exact T].
  revert H. destruct (t <? 16); [|destruct (t =? 16); [|destruct (t =? 17); [|discriminate]]]; intros H.
  - unfold single_fromData in H. apply bind_ok in H as (nn & _ & H). injection H as <- <-. reflexivity.
  - unfold range_fromData in H. apply bind_ok in H as (x1 & _ & H). apply bind_ok in H as (x2 & _ & H). apply bind_ok in H as (ns & _ & H). injection H as <- <-. reflexivity.
  - unfold regional_fromData in H. apply bind_ok in H as (x1 & _ & H). apply bind_ok in H as (rs & _ & H). injection H as <- <-. reflexivity.
Qed.
Lemma make_none data t o n : makeInstrumentAt data t o = Ok (None, n) -> n = 0.
Proof. unfold makeInstrumentAt. destruct (t =? 0); [intros [= <-]; reflexivity|]. intros H. apply bind_ok in H as ([b m] & _ & H). discriminate. Qed.
Lemma in_consume o n un x : In x (consume o n un) <-> In x un /\ ~ o <= x < o + n.
Proof. unfold consume. rewrite filter_In. split; intros [A B]; (split; [exact A|]); [|]; destruct (Z.leb_spec o x), (Z.ltb_spec x (o + n)); cbn in *; try discriminate; try reflexivity; lia. Qed.
Lemma filter_sorted {A} (R : A -> A -> Prop) f l : StronglySorted R l -> StronglySorted R (filter f l).
Proof. induction 1 as [|x l S IH F]; cbn [filter]; [constructor|]. destruct (f x); [|exact IH]. constructor; [exact IH|]. rewrite Forall_forall in *. intros y Y. apply filter_In in Y as [Y _]. apply F. exact Y. Qed.

(** the first loop *)
Lemma load_table_facts data : forall n s un insts m un', load_table data (range_z s n) un = Ok (insts, m, un') -> 0 <= s ->
  length insts = n /\
  (forall id o, In (id, o) m <-> s <= id /\ exists i, nth_error insts (Z.to_nat (id - s)) = Some (Some i) /\ iKey i = o) /\
  (forall i, In (Some i) insts -> (is_bytes data -> 0 <= iKey i) /\ exists t, makeInstrumentAt data t (iKey i) = Ok (Some i, body_size (iBody i))) /\
  (forall x, In x un' <-> In x un /\ forall i, In (Some i) insts -> ~ iKey i <= x < iKey i + body_size (iBody i)) /\
  (StronglySorted Z.lt un -> StronglySorted Z.lt un') /\ StronglySorted (fun p q => fst p < fst q) m.
Proof.
  induction n as [|n IH]; intros s un insts m un' H S; cbn [range_z load_table] in H.
  - injection H as <- <- <-. split; [reflexivity|]. split; [intros id o; split; [intros []|intros (_ & i & E & _); destruct (Z.to_nat (id - s)); discriminate]|]. split; [intros i []|]. split; [intros x; split; [intros X; split; [exact X|intros i []]|intros [X _]; exact X]|]. split; [exact (fun X => X)|constructor].
  - apply bind_ok in H as (t & T & H). apply bind_ok in H as (o & O & H). apply bind_ok in H as (z & _ & H). apply bind_ok in H as ([i k] & MK & H). apply bind_ok in H as ([[is m'] u2] & L & H). injection H as <- <- <-.
    destruct (IH (s + 1) _ _ _ _ L ltac:(lia)) as (A & B & C & D & E & F).
    assert (NS : forall id, s + 1 <= id -> nth_error (i :: is) (Z.to_nat (id - s)) = nth_error is (Z.to_nat (id - (s + 1)))) by (intros id I; replace (Z.to_nat (id - s)) with (Datatypes.S (Z.to_nat (id - (s + 1)))) by lia; reflexivity).
    split; [cbn [length]; rewrite A; reflexivity|]. split; [|split; [|split; [|split]]].
    + intros id o'. rewrite in_app_iff, B. split.
      * intros [X|(X & j & N & K)].
        -- destruct i as [i|]; [|destruct X]. destruct X as [[= <- <-]|[]]. split; [lia|]. exists i. rewrite Z.sub_diag. split; [reflexivity|]. apply make_size in MK. apply MK.
        -- split; [lia|]. exists j. rewrite NS by exact X. split; assumption.
      * intros (X & j & N & K). destruct (Z.eq_dec id s) as [->|NE]; [left|right].
        -- rewrite Z.sub_diag in N. cbn [Z.to_nat nth_error] in N. injection N as ->. left. apply make_size in MK as (_ & KE & _). congruence.
        -- split; [lia|]. exists j. rewrite <- NS by lia. split; assumption.
    + intros j [->|J]; [|apply C; exact J]. apply make_size in MK as MK'. destruct MK' as (-> & K & _). rewrite K. split; [|exists t; exact MK]. intros ISB. apply (unpack_u_range _ _ _ _ ISB) in O. lia.
    + intros x. rewrite D, in_consume. split.
      * intros [[X Y] Z]. split; [exact X|]. intros j [->|J]; [|apply Z; exact J]. apply make_size in MK as (-> & -> & _). exact Y.
      * intros [X Y]. split; [split; [exact X|]|intros j J; apply Y; right; exact J]. destruct i as [i|]; [|apply make_none in MK; lia]. specialize (Y i (or_introl eq_refl)). apply make_size in MK as (-> & K & _). rewrite K in Y. exact Y.
    + intros X. apply E. unfold consume. apply filter_sorted. exact X.
    + destruct i as [i|]; [|exact F]. constructor; [exact F|]. apply Forall_forall. intros [id o'] I. apply B in I as [I _]. cbn [fst]. lia.
Qed.

(** the nearest instrument before *)
Lemma prev_spec this m : StronglySorted (fun p q : Z * Z => fst p < fst q) m ->
  match prev_of this m with
  | Some p => In p m /\ snd p < this /\ forall q, In q m -> snd q < this -> snd q <= snd p /\ (snd q = snd p -> fst p <= fst q)
  | None => forall q, In q m -> this <= snd q
  end.
Proof.
  induction m as [|q m IH] using rev_ind; intros S; [intros q []|]. unfold prev_of. rewrite fold_left_app. cbn [fold_left]. fold (prev_of this m).
  assert (S1 : StronglySorted (fun p q : Z * Z => fst p < fst q) m /\ forall p, In p m -> fst p < fst q).
  { clear IH. induction m as [|x m IH]; [split; [constructor|intros p []]|]. cbn [app] in S. inversion S as [|? ? S1 F]. subst. destruct (IH S1) as [A B]. apply Forall_app in F as [F1 F2]. apply Forall_cons_iff in F2 as [F2 _]. split; [constructor; assumption|]. intros p [->|P]; [exact F2|apply B; exact P]. }
  destruct S1 as [S1 S2]. specialize (IH S1). destruct (prev_of this m) as [p|].
  - destruct IH as (I & L & M). destruct (Z.ltb_spec (snd q) this) as [Q|Q]; cbn [andb].
    + destruct (Z.gtb_spec (snd q) (snd p)) as [G|G].
      * split; [apply in_app_iff; right; left; reflexivity|]. split; [exact Q|]. intros r R RL. apply in_app_iff in R as [R|[<-|[]]]; [|split; [lia|lia]]. destruct (M r R RL) as [M1 M2]. split; [lia|lia].
      * split; [apply in_app_iff; left; exact I|]. split; [exact L|]. intros r R RL. apply in_app_iff in R as [R|[<-|[]]]; [apply M; assumption|]. split; [lia|]. intros _. specialize (S2 p I). lia.
    + split; [apply in_app_iff; left; exact I|]. split; [exact L|]. intros r R RL. apply in_app_iff in R as [R|[<-|[]]]; [apply M; assumption|lia].
  - destruct (Z.ltb_spec (snd q) this) as [Q|Q]; cbn [andb].
    + split; [apply in_app_iff; right; left; reflexivity|]. split; [exact Q|]. intros r R RL. apply in_app_iff in R as [R|[<-|[]]]; [specialize (IH r R); lia|split; lia].
    + intros r R. apply in_app_iff in R as [R|[<-|[]]]; [apply IH; exact R|exact Q].
Qed.

(** the dictionary *)
Lemma oeqb_eq a b : oeqb a b = true <-> a = b.
Proof. destruct a as [a|], b as [b|]; cbn; rewrite ?Z.eqb_eq; split; try congruence; intros [= ->]; reflexivity. Qed.
Lemma push_in {A} k0 (v : A) acc : NoDup (map fst acc) -> forall k l, In (k, l) (push k0 v acc) ->
  (k = k0 /\ exists l0, l = l0 ++ [v] /\ (In (k0, l0) acc \/ l0 = [])) \/ (k <> k0 /\ In (k, l) acc).
Proof.
  induction acc as [|[k' vs] acc IH]; intros ND k l H; cbn [push map fst] in *.
  - destruct H as [[= <- <-]|[]]. left. split; [reflexivity|]. exists []. split; [reflexivity|right; reflexivity].
  - inversion ND as [|? ? N1 N2]. subst. destruct (oeqb k' k0) eqn:E.
    + apply oeqb_eq in E. subst k'. destruct H as [[= <- <-]|H]; [left; split; [reflexivity|]; exists vs; split; [reflexivity|left; left; reflexivity]|]. right. split; [|right; exact H]. intros ->. apply N1. apply (in_map fst) in H. exact H.
    + destruct H as [[= <- <-]|H].
      * right. split; [intros ->; rewrite (proj2 (oeqb_eq k0 k0) eq_refl) in E; discriminate|left; reflexivity].
      * destruct (IH N2 k l H) as [(-> & l0 & -> & I)|(NE & I)]; [left; split; [reflexivity|]; exists l0; split; [reflexivity|]; destruct I as [I|I]; [left; right; exact I|right; exact I]|right; split; [exact NE|right; exact I]].
Qed.
Lemma push_keys {A} k0 (v : A) acc k : In k (map fst (push k0 v acc)) <-> k = k0 \/ In k (map fst acc).
Proof.
  induction acc as [|[k' vs] acc IH]; cbn [push map fst]; [cbn; intuition congruence|]. destruct (oeqb k' k0) eqn:E; cbn [map fst In]; [apply oeqb_eq in E; subst; intuition congruence|rewrite IH; intuition congruence].
Qed.
Lemma push_nodup {A} k0 (v : A) acc : NoDup (map fst acc) -> NoDup (map fst (push k0 v acc)).
Proof.
  induction acc as [|[k' vs] acc IH]; intros ND; cbn [push map fst] in *; [repeat constructor; intros []|]. inversion ND as [|? ? N1 N2]. subst. destruct (oeqb k' k0) eqn:E; cbn [map fst]; constructor; try assumption; [|apply IH; exact N2].
  rewrite push_keys. intros [->|I]; [rewrite (proj2 (oeqb_eq k0 k0) eq_refl) in E; discriminate|contradiction].
Qed.

(** the second loop *)
Definition found (data : bytes) (insts : list (option inst)) (lo hi : Z) (k : option Z) (i : inst) : Prop :=
  lo <= iKey i < hi /\ iMerge i = iKey i /\ (exists t, makeInstrumentAt data t (iKey i) = Ok (Some i, body_size (iBody i))) /\
  (forall j, In (Some j) insts -> ~ iKey j <= iKey i < iKey j + body_size (iBody j)) /\ filed_under insts (iKey i) k.
Definition dict_ok (data : bytes) (insts : list (option inst)) (lo hi : Z) (acc : list (option Z * list inst)) : Prop :=
  NoDup (map fst acc) /\ (forall k l, In (k, l) acc -> l <> [] /\ StronglySorted before l /\ forall i, In i l -> found data insts lo hi k i) /\
  (forall k l k' l' i j, In (k, l) acc -> In (k', l') acc -> In i l -> In j l' -> i = j \/ before i j \/ before j i).
Definition ahead (acc : list (option Z * list inst)) (x : Z) : Prop := forall k l i, In (k, l) acc -> In i l -> iKey i + body_size (iBody i) <= x.
Lemma push_dict data insts lo hi acc k v : dict_ok data insts lo hi acc -> found data insts lo hi k v -> ahead acc (iKey v) ->
  dict_ok data insts lo hi (push k v acc).
Proof.
  intros (ND & E & P) F AH. split; [apply push_nodup; exact ND|]. split.
  - intros k' l I. apply push_in in I as [(-> & l0 & -> & I)|(_ & I)]; [|apply E; exact I|exact ND]. split; [destruct l0; discriminate|]. destruct I as [I| ->]; [|split; [repeat constructor|intros i [<-|[]]; exact F]].
    destruct (E _ _ I) as (_ & S & G). split; [apply sorted_app; [exact S|repeat constructor|]; intros x y X [<-|[]]; exact (AH k l0 x I X)|]. intros i J. apply in_app_iff in J as [J|[<-|[]]]; [apply G; exact J|exact F].
  - assert (M : forall k' l i, In (k', l) (push k v acc) -> In i l -> i = v \/ exists k'' l', In (k'', l') acc /\ In i l').
    { intros k' l i I J. apply push_in in I as [(-> & l0 & -> & I)|(_ & I)]; [|right; exists k', l; split; assumption|exact ND]. apply in_app_iff in J as [J|[<-|[]]]; [|left; reflexivity]. destruct I as [I| ->]; [right; exists k, l0; split; assumption|destruct J]. }
    intros k1 l1 k2 l2 i j I1 I2 J1 J2. destruct (M _ _ _ I1 J1) as [->|(a & la & A & B)], (M _ _ _ I2 J2) as [->|(c & lc & C & D)]; [left; reflexivity|right; right; exact (AH _ _ _ C D)|right; left; exact (AH _ _ _ A B)|exact (P _ _ _ _ _ _ A C B D)].
Qed.
Lemma drop_padding_sub fs un x : In x (drop_padding fs un) -> In x un.
Proof. unfold drop_padding. destruct (_ && _ && _); [|exact (fun H => H)]. unfold remove_z. intros H. apply filter_In in H as [H _]. apply filter_In in H as [H _]. exact H. Qed.
Lemma drop_padding_sorted fs un : StronglySorted Z.lt un -> StronglySorted Z.lt (drop_padding fs un).
Proof. intros S. unfold drop_padding. destruct (_ && _ && _); [unfold remove_z; apply filter_sorted, filter_sorted; exact S|exact S]. Qed.
Lemma scan_found order data fs insts m lo hi : (forall id o, In (id, o) m <-> 0 <= id /\ exists i, nth_error insts (Z.to_nat id) = Some (Some i) /\ iKey i = o) ->
  StronglySorted (fun p q : Z * Z => fst p < fst q) m ->
  forall fuel un acc acc', StronglySorted Z.lt un -> (forall x, In x un -> lo <= x < hi /\ (forall j, In (Some j) insts -> ~ iKey j <= x < iKey j + body_size (iBody j)) /\ ahead acc x) ->
  dict_ok data insts lo hi acc -> scan fuel order data fs insts m un acc = Ok acc' -> dict_ok data insts lo hi acc'.
Proof.
  intros M SM. induction fuel as [|k IH]; intros un acc acc' SU U D H; cbn [scan] in H; destruct un as [|x0 un0]; try discriminate; try (injection H as <-; exact D).
  set (un := x0 :: un0) in *. pose proof (drop_padding_sorted fs un SU) as SD. pose proof (drop_padding_sub fs un) as SUB. destruct (drop_padding fs un) as [|this rest]; [injection H as <-; exact D|]. cbv zeta in H.
  apply bind_ok in H as (t & _ & H).
  assert (TI : In this un) by (apply SUB; left; reflexivity). destruct (U this TI) as (B1 & B2 & B3).
  assert (REC : forall un' acc2, (forall x, In x un' -> In x (this :: rest)) -> StronglySorted Z.lt un' -> dict_ok data insts lo hi acc2 -> (forall x, In x un' -> ahead acc2 x) -> scan k order data fs insts m un' acc2 = Ok acc' -> dict_ok data insts lo hi acc').
  { intros un' acc2 S1 S2 D2 A2 H2. eapply IH; [exact S2| |exact D2|exact H2]. intros x X. destruct (U x (SUB x (S1 x X))) as (U1 & U2 & _). split; [exact U1|]. split; [exact U2|apply A2; exact X]. }
  assert (SKIP : scan k order data fs insts m (remove_z (this + 1) (remove_z this (this :: rest))) acc = Ok acc' -> dict_ok data insts lo hi acc').
  { apply REC; [|unfold remove_z; apply filter_sorted, filter_sorted; exact SD|exact D|].
    - intros x X. unfold remove_z in X. apply filter_In in X as [X _]. apply filter_In in X as [X _]. exact X.
    - intros x X. unfold remove_z in X. apply filter_In in X as [X _]. apply filter_In in X as [X _]. apply (U x (SUB x X)). }
  destruct t as [t|]; [|exact (SKIP H)]. destruct (makeInstrumentAt data t this) as [[[i|] n]|] eqn:MK; [|exact (SKIP H)|exact (SKIP H)].
  destruct (make_size _ _ _ _ _ MK) as (-> & K1 & K2 & _).
  revert H. apply REC; [intros x X; apply in_consume in X; apply X|unfold consume; apply filter_sorted; exact SD| |].
  - apply push_dict; [exact D| |rewrite K1; exact B3]. rewrite <- K1 in *. split; [exact B1|]. split; [congruence|]. split; [exists t; exact MK|]. split; [exact B2|].
    pose proof (prev_spec (iKey i) m SM) as PV. destruct (prev_of (iKey i) m) as [[id o]|]; cbn [fst filed_under snd] in *.
    + destruct PV as (I & L & MX). apply M in I as (I0 & j & N & KJ). split; [exact I0|]. exists j. split; [exact N|]. split; [lia|]. intros id' j' I0' N' L'. destruct (MX (id', iKey j')) as [A B]; [apply M; split; [exact I0'|exists j'; split; [exact N'|reflexivity]]|exact L'|]. cbn [fst snd] in A, B. split; [lia|lia].
    + intros j J. apply In_nth_error in J as [n N]. apply (PV (Z.of_nat n, iKey j)). apply M. split; [lia|]. exists j. rewrite Nat2Z.id. split; [exact N|reflexivity].
  - intros x X. apply in_consume in X as [X NX]. intros k' l j I J. apply push_in in I as [(-> & l0 & -> & I)|(_ & I)]; [| |apply D].
    + apply in_app_iff in J as [J|[<-|[]]]; [destruct I as [I| ->]; [|destruct J]; destruct (U x (SUB x X)) as (_ & _ & A); exact (A _ _ _ I J)|].
      assert (this <= x) by (destruct X as [->|X]; [lia|]; inversion SD as [|? ? _ F]; rewrite Forall_forall in F; specialize (F x X); lia). rewrite K1. lia.
    + destruct (U x (SUB x X)) as (_ & _ & A). exact (A _ _ _ I J).
Qed.
Lemma range_sorted s n : StronglySorted Z.lt (range_z s n).
Proof. revert s. induction n as [|n IH]; intros s; [constructor|]. cbn [range_z]. constructor; [apply IH|]. apply Forall_forall. intros x X. apply in_range_z in X. lia. Qed.
Lemma load_found order file u w b : is_bytes file -> sbnk_load order file u w = Ok b -> exists h, std_unpack file = Ok h /\
  dict_ok file (bInsts b) (0x3C + 4 * zlen (bInsts b)) (hSize h) (bInacc b) /\
  (forall i, In (Some i) (bInsts b) -> 0 <= iKey i /\ iMerge i = iKey i /\ exists t, makeInstrumentAt file t (iKey i) = Ok (Some i, body_size (iBody i))).
Proof.
  unfold sbnk_load. intros ISB H. apply bind_ok in H as (_ & _ & H). apply bind_ok in H as (h & HH & H). apply bind_ok in H as (_ & _ & H). apply bind_ok in H as (_ & _ & H). apply bind_ok in H as (mg & _ & H). apply bind_ok in H as (_ & _ & H). apply bind_ok in H as (count & C & H). apply bind_ok in H as (_ & _ & H). cbv zeta in H.
  apply bind_ok in H as ([[insts m] un] & L & H). apply bind_ok in H as (inacc & S & H). injection H as <-. cbn [bInsts bInacc]. apply (unpack_u_range _ _ _ _ ISB) in C.
  destruct (load_table_facts _ _ _ _ _ _ _ L ltac:(lia)) as (LN & M & RD & UN & SS & SM). exists h. split; [exact HH|].
  assert (ZL : zlen insts = count) by (unfold zlen; rewrite LN; lia). rewrite ZL. split.
  - eapply scan_found; [|exact SM|apply SS, range_sorted| | |exact S].
    + intros id o. rewrite M, Z.sub_0_r. reflexivity.
    + intros x X. apply UN in X as [X NI]. apply in_range_z in X. split; [lia|]. split; [exact NI|intros k l i []].
    + split; [constructor|]. split; [intros k l []|intros k l k' l' i j []].
  - intros i I. destruct (RD i I) as (K & t & MK). split; [exact (K ISB)|]. split; [|exists t; exact MK]. apply make_size in MK as (_ & _ & -> & _). reflexivity.
Qed.

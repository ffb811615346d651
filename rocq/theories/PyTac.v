(** * Tactics for reading fields out of concatenated byte strings *)
From Verif Require Import PyBase PyLemmas.

Ltac p256 :=
  change (256 ^ Z.of_nat 1) with 256 in *; change (256 ^ Z.of_nat 2) with 65536 in *;
  change (256 ^ Z.of_nat 3) with 16777216 in *; change (256 ^ Z.of_nat 4) with 4294967296 in *;
  change (256 ^ Z.of_nat 8) with 18446744073709551616 in *.

Ltac zlen_pos_goal :=
  repeat match goal with
  | |- context [zlen ?l] =>
      lazymatch goal with
      | _ : 0 <= zlen l |- _ => fail
      | _ => pose proof (zlen_nonneg l)
      end
  end.
(** arithmetic side conditions about lengths *)
Ltac zg := unfold zeros; autorewrite with zl; zlen_pos_goal; lia.
Ltac side := p256; zg.

(** one read resolved *)
Ltac rdone :=
  match goal with
  | |- context [unpack_e ?e ?n (enc ?e ?n ?v ++ ?c) ?o] => rewrite (unpack_e_hit e n v c o) by side
  | |- context [unpack_e ?e ?n (enc ?e ?n ?v) ?o] => rewrite (unpack_e_hit_all e n v o) by side
  | |- context [unpack_e ?e ?n (?a ++ ?b) ?o] => rewrite (unpack_e_skip e n a b o) by side
  | |- context [unpack_u ?n (le ?n ?v ++ ?c) ?o] => rewrite (unpack_u_hit n v c o) by side
  | |- context [unpack_u ?n (le ?n ?v) ?o] => rewrite (unpack_u_hit_all n v o) by side
  | |- context [unpack_u ?n (?a ++ ?b) ?o] => rewrite (unpack_u_skip n a b o) by side
  | |- context [rd (?a ++ ?b) ?o ?k] => rewrite (rd_hit a b o k) by side
  | |- context [rd ?a ?o ?k] => rewrite (rd_hit_all a o k) by side
  | |- context [rd (?a ++ ?b) ?o ?k] => rewrite (rd_skip a b o k) by side
  | |- context [slice (?a ++ ?b) ?i ?j] => rewrite (slice_hit a b i j) by side
  | |- context [slice (?a ++ ?b) ?i ?j] => rewrite (slice_skip a b i j) by side
  | |- context [slice ?a ?i ?j] => rewrite (slice_hit_all a i j) by side
  end.
Ltac rdall := repeat (rdone; cbn [bind]).
Ltac rdalls := repeat (repeat rdone; cbn [bind]).

(** take apart [bind ... = Ok _] hypotheses *)
Ltac inv_bind :=
  repeat match goal with
  | H : bind _ _ = Ok _ |- _ =>
      let x := fresh "v" in let E := fresh "E" in apply bind_ok in H as (x & E & H)
  | H : Ok _ = Ok _ |- _ => injection H; clear H; intros H
  | H : guard _ _ = Ok _ |- _ => apply guard_ok in H
  | H : pack_u _ _ = Ok _ |- _ => apply pack_u_inv in H as [? ->]
  end.

Lemma mapM_inv {A B} (f : A -> res B) (P : A -> Prop) (g : A -> B) l r :
  (forall x y, f x = Ok y -> P x /\ y = g x) -> mapM f l = Ok r -> Forall P l /\ r = map g l.
Proof.
  intros H. revert r. induction l as [|x l IH]; cbn [mapM map]; intros r E; inv_bind; subst.
  - split; [constructor|reflexivity].
  - apply H in E0 as [Hp ->]. apply IH in E1 as [Hf ->]. split; [constructor; assumption|reflexivity].
Qed.
Lemma concat_at {A B} (f : A -> list B) k l1 x l2 : (forall y, In y (l1 ++ x :: l2) -> zlen (f y) = k) ->
  concat (map f (l1 ++ x :: l2)) = concat (map f l1) ++ f x ++ concat (map f l2) /\
  zlen (concat (map f l1)) = zlen l1 * k /\ zlen (f x) = k.
Proof.
  intros H. split; [rewrite map_app, concat_app; reflexivity|]. split.
  - apply zlen_concat_map. intros y Hy. apply H, in_or_app. left; exact Hy.
  - apply H, in_or_app. right; left; reflexivity.
Qed.
Lemma length_zlen {A} (l : list A) : Z.to_nat (zlen l) = length l.
Proof. unfold zlen. lia. Qed.

(** disjoint bit fields *)
Lemma land_shiftl_0 a b n : 0 <= n -> 0 <= a < 2 ^ n -> Z.land a (Z.shiftl b n) = 0.
Proof.
  intros Hn Ha. apply Z.bits_inj. intros i. rewrite Z.land_spec, Z.bits_0.
  destruct (Z.lt_ge_cases i 0) as [|Hi]; [rewrite !Z.testbit_neg_r by lia; reflexivity|].
  destruct (Z.lt_ge_cases i n).
  - rewrite Z.shiftl_spec_low by lia. apply andb_false_r.
  - replace (Z.testbit a i) with false; [reflexivity|]. symmetry.
    destruct (Z.eq_dec a 0) as [->|]; [apply Z.bits_0|]. apply Z.bits_above_log2; [lia|].
    apply Z.lt_le_trans with n; [|assumption]. apply Z.log2_lt_pow2; [lia|apply Ha].
Qed.
Lemma lor_add a b n : 0 <= n -> 0 <= a < 2 ^ n -> Z.lor a (Z.shiftl b n) = a + 2 ^ n * b.
Proof.
  intros Hn Ha. pose proof (land_shiftl_0 a b n Hn Ha) as L. rewrite <- (Z.lxor_lor a) by exact L.
  rewrite <- Z.add_nocarry_lxor by exact L. rewrite Z.shiftl_mul_pow2 by assumption. lia.
Qed.
Lemma land_mask x n : 0 <= n -> Z.land x (2 ^ n - 1) = x mod 2 ^ n.
Proof. intros. rewrite <- Z.land_ones by assumption. f_equal. rewrite Z.ones_equiv. lia. Qed.

(** [x & (1 << k)] as a truth value *)
Lemma land_bit fl k : 0 <= k -> negb (Z.land fl (2 ^ k) =? 0) = Z.testbit fl k.
Proof.
  intros Hk. destruct (Z.testbit fl k) eqn:E.
  - destruct (Z.eqb_spec (Z.land fl (2 ^ k)) 0) as [H|]; [|reflexivity].
    assert (T : Z.testbit (Z.land fl (2 ^ k)) k = true) by (rewrite Z.land_spec, Z.pow2_bits_true, E by lia; reflexivity).
    rewrite H, Z.bits_0 in T. discriminate.
  - replace (Z.land fl (2 ^ k)) with 0; [reflexivity|]. symmetry. apply Z.bits_inj'. intros n Hn. rewrite Z.land_spec, Z.bits_0, Z.pow2_bits_eqb by lia.
    destruct (Z.eqb_spec k n) as [->|]; [rewrite E; reflexivity|apply andb_false_r].
Qed.

(** ** tables of fixed-size records *)
Lemma records_load {A} (save1 : A -> res bytes) (load1 : bytes -> res A) k xs bs pre post off :
  mapM save1 xs = Ok bs -> (forall x b, In x xs -> save1 x = Ok b -> zlen b = k /\ load1 b = Ok x) -> off = zlen pre -> 0 <= k ->
  zlen (concat bs) = zlen xs * k /\
  mapM (fun i => load1 (slice (pre ++ concat bs ++ post) (off + i * k) (off + i * k + k))) (range_z 0 (length xs)) = Ok xs.
Proof.
  intros H HS -> Hk.
  assert (L : forall ys cs, mapM save1 ys = Ok cs -> (forall y, In y ys -> In y xs) -> zlen (concat cs) = zlen ys * k).
  { induction ys as [|y ys IH]; cbn [mapM]; intros cs Hc Hin; inv_bind; subst; [reflexivity|]. cbn [concat].
    rewrite zlen_app, zlen_cons. rewrite (IH _ E0) by (intros; apply Hin; right; assumption).
    destruct (HS y v) as [-> _]; [apply Hin; left; reflexivity|assumption|]. lia. }
  split; [apply L; [assumption|auto]|].
  rewrite <- (map_id xs) at 2. apply mapM_table. intros l1 x l2 E. cbn [Z.add].
  assert (Hx : In x xs) by (rewrite E; apply in_or_app; right; left; reflexivity).
  assert (SUB : forall y, In y l1 -> In y xs) by (intros; rewrite E; apply in_or_app; left; assumption).
  rewrite E, mapM_app in H. cbn [mapM] in H. inv_bind. subst.
  pose proof (L l1 v E0 SUB) as L1. destruct (HS x v1 Hx E2) as [Lx Rx].
  rewrite concat_app. cbn [concat]. rewrite <- !app_assoc. pose proof (zlen_nonneg l1).
  rewrite slice_skip by nia. rewrite slice_skip by nia. rewrite slice_hit by lia. exact Rx.
Qed.
(** the other direction: re-saving what was loaded gives the bytes back *)
Lemma records_save {A} (save1 : A -> res bytes) (load1 : bytes -> res A) (good : bytes -> Prop) k n : 0 < k ->
  (forall b, zlen b = k -> good b -> exists x, load1 b = Ok x /\ save1 x = Ok b) ->
  forall body pre post off, zlen body = Z.of_nat n * k -> off = zlen pre ->
  (forall i, 0 <= i < Z.of_nat n -> good (slice body (i * k) (i * k + k))) ->
  exists xs bs, mapM (fun i => load1 (slice (pre ++ body ++ post) (off + i * k) (off + i * k + k))) (range_z 0 n) = Ok xs /\
    mapM save1 xs = Ok bs /\ concat bs = body /\ zlen xs = Z.of_nat n.
Proof.
  intros Hk HR. induction n as [|n IH]; intros body pre post off HL -> HG.
  - exists [], []. apply zlen_0 in HL as ->. cbn. auto.
  - set (b := firstn (Z.to_nat k) body). set (r := skipn (Z.to_nat k) body).
    assert (EB : body = b ++ r) by (symmetry; apply firstn_skipn).
    assert (Lb : zlen b = k) by (unfold b; rewrite zlen_firstn; lia).
    assert (Lr : zlen r = Z.of_nat n * k) by (unfold r; rewrite zlen_skipn; lia).
    destruct (HR b Lb) as (x & Hx & Sx).
    { specialize (HG 0 ltac:(lia)). rewrite EB, slice_hit in HG by lia. exact HG. }
    destruct (IH r (pre ++ b) post (zlen (pre ++ b)) Lr eq_refl) as (xs & bs & H1 & H2 & H3 & H4).
    { intros i Hi. specialize (HG (i + 1) ltac:(lia)). rewrite EB, slice_skip in HG by lia.
      replace ((i + 1) * k - zlen b) with (i * k) in HG by lia. replace ((i + 1) * k + k - zlen b) with (i * k + k) in HG by lia. exact HG. }
    exists (x :: xs), (b :: bs). split; [|split; [|split]].
    + cbn [range_z mapM]. replace (slice (pre ++ body ++ post) (zlen pre + 0 * k) (zlen pre + 0 * k + k)) with b.
      2:{ rewrite EB, <- app_assoc. rewrite slice_skip by lia. rewrite slice_hit by lia. reflexivity. }
      rewrite Hx. cbn [bind].
      assert (EQ : mapM (fun i => load1 (slice (pre ++ body ++ post) (zlen pre + i * k) (zlen pre + i * k + k))) (range_z (0 + 1) n) = Ok xs).
      { rewrite <- H1. replace ((pre ++ b) ++ r ++ post) with (pre ++ body ++ post) by (rewrite EB, <- !app_assoc; reflexivity).
        rewrite zlen_app, Lb. generalize (pre ++ body ++ post). intros dd. clear.
        assert (G : forall s, mapM (fun i => load1 (slice dd (zlen pre + i * k) (zlen pre + i * k + k))) (range_z (s + 1) n) =
                              mapM (fun i => load1 (slice dd (zlen pre + k + i * k) (zlen pre + k + i * k + k))) (range_z s n)).
        { induction n as [|n IH]; intros s; cbn [range_z mapM]; [reflexivity|].
          replace (zlen pre + (s + 1) * k) with (zlen pre + k + s * k) by lia. rewrite (IH (s + 1)). reflexivity. }
        apply G. }
      rewrite EQ. reflexivity.
    + cbn [mapM]. rewrite Sx. cbn [bind]. rewrite H2. reflexivity.
    + cbn [concat]. rewrite H3. symmetry. exact EB.
    + rewrite zlen_cons, H4. lia.
Qed.

(** take apart [pack_us fields = Ok b]: the ranges and the bytes *)
Lemma Forall_nil_iff_ {A} (P : A -> Prop) : Forall P [] <-> True.
Proof. split; [tauto|constructor]. Qed.
Ltac inv_pack H :=
  let F := fresh "F" in apply pack_us_inv in H as [F ->]; repeat rewrite Forall_cons_iff in F; rewrite Forall_nil_iff_ in F;
  unfold les in *; cbn [map concat fst snd] in *; rewrite ?app_nil_r in *; p256; decompose [and] F; clear F.
(** the same for goals *)
Ltac do_pack := rewrite pack_us_ok by (repeat apply Forall_cons; try apply Forall_nil; cbn [fst snd]; p256; lia);
  unfold les; cbn [map concat fst snd]; rewrite ?app_nil_r.

(** successful reads *)
Lemma unpack_u_lt n data off v : 0 <= off -> unpack_u n data off = Ok v -> off + Z.of_nat n <= zlen data.
Proof. unfold unpack_u, unpack_e. intros H0 H. apply bind_ok in H as (b & H & _). apply rd_ok_inv in H; assumption. Qed.
Lemma unpack_u_range n data off v : is_bytes data -> unpack_u n data off = Ok v -> 0 <= v < 256 ^ Z.of_nat n.
Proof.
  unfold unpack_u, unpack_e, rd. intros B H. apply bind_ok in H as (b & H & H'). apply bind_ok in H as (o & HO & H). injection H' as <-. injection H as <-.
  cbn [dec]. set (c := firstn _ _). assert (Bc : is_bytes c) by (apply Forall_firstn_, Forall_skipn_, B).
  pose proof (unle_range c Bc) as R. assert (zlen c <= Z.of_nat n) by (unfold c; rewrite zlen_firstn; lia).
  split; [lia|]. apply Z.lt_le_trans with (256 ^ zlen c); [lia|]. apply Z.pow_le_mono_r; lia.
Qed.
Lemma unpack_u_some n data off : 0 <= off -> off + Z.of_nat n <= zlen data -> exists v, unpack_u n data off = Ok v.
Proof.
  intros H0 H. unfold unpack_u, unpack_e, rd, struct_off. replace (off <? 0) with false by lia.
  replace (zlen data <? off + Z.of_nat n) with false by lia. cbn [bind]. eexists. reflexivity.
Qed.

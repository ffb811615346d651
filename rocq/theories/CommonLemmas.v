(** * Proofs about _common.py and the named lists *)
From Verif Require Import PyBase PyLemmas PyTac CommonModel.

(** ** CRC *)
Lemma land1_odd x : Z.land x 1 = if Z.odd x then 1 else 0.
Proof. change 1 with (Z.ones 1) at 1. rewrite Z.land_ones by lia. change (2 ^ 1) with 2. rewrite Zmod_odd. reflexivity. Qed.
Lemma crc_bit_alt x : crc_bit x = Z.lxor (Z.shiftr x 1) (if Z.odd x then 0xA001 else 0).
Proof. unfold crc_bit. rewrite land1_odd. destruct (Z.odd x); cbn [Z.eqb]; [reflexivity|rewrite Z.lxor_0_r; reflexivity]. Qed.
Lemma lxor_4 a b c d : Z.lxor (Z.lxor a b) (Z.lxor c d) = Z.lxor (Z.lxor a c) (Z.lxor b d).
Proof. rewrite !Z.lxor_assoc. f_equal. rewrite <- !Z.lxor_assoc. f_equal. apply Z.lxor_comm. Qed.
Lemma crc_bit_lxor x y : crc_bit (Z.lxor x y) = Z.lxor (crc_bit x) (crc_bit y).
Proof.
  rewrite !crc_bit_alt, lxor_4, Z.shiftr_lxor. f_equal. rewrite <- !Z.bit0_odd, Z.lxor_spec.
  destruct (Z.testbit x 0), (Z.testbit y 0); reflexivity.
Qed.
Lemma crc_bits_lxor n : forall x y, crc_bits n (Z.lxor x y) = Z.lxor (crc_bits n x) (crc_bits n y).
Proof. induction n; intros; cbn [crc_bits]; [reflexivity|]. rewrite crc_bit_lxor. apply IHn. Qed.
Lemma crc_bits_add n m : forall x, crc_bits (n + m) x = crc_bits m (crc_bits n x).
Proof. induction n; intros; cbn [crc_bits Nat.add]; [reflexivity|]. apply IHn. Qed.
Lemma crc_bits_shiftl n : forall y, crc_bits n (Z.shiftl y (Z.of_nat n)) = y.
Proof.
  induction n; intros y; [rewrite Z.shiftl_0_r; reflexivity|]. cbn [crc_bits].
  replace (crc_bit (Z.shiftl y (Z.of_nat (S n)))) with (Z.shiftl y (Z.of_nat n)); [apply IHn|].
  rewrite crc_bit_alt. replace (Z.odd (Z.shiftl y (Z.of_nat (S n)))) with false.
  - rewrite Z.lxor_0_r, Z.shiftr_shiftl_l by lia. f_equal. lia.
  - rewrite <- Z.bit0_odd, Z.shiftl_spec_low by lia. reflexivity.
Qed.
Lemma crc_bits_0 n : crc_bits n 0 = 0.
Proof. induction n; cbn [crc_bits]; [reflexivity|exact IHn]. Qed.

(** addition of disjoint bit fields *)
Lemma add_shift_lxor a b n : 0 <= n -> 0 <= a < 2 ^ n -> a + 2 ^ n * b = Z.lxor a (Z.shiftl b n).
Proof.
  intros Hn Ha. rewrite Z.shiftl_mul_pow2, Z.mul_comm by assumption. rewrite Z.add_nocarry_lxor; [reflexivity|].
  apply Z.bits_inj. intros k. rewrite Z.land_spec, Z.bits_0.
  destruct (Z.lt_ge_cases k 0) as [|Hk]; [rewrite !Z.testbit_neg_r by lia; reflexivity|].
  destruct (Z.lt_ge_cases k n).
  - rewrite (Z.mul_pow2_bits_low b) by lia. apply andb_false_r.
  - replace (Z.testbit a k) with false; [reflexivity|]. symmetry.
    destruct (Z.eq_dec a 0) as [->|]; [apply Z.bits_0|]. apply Z.bits_above_log2; [lia|].
    apply Z.lt_le_trans with n; [|assumption]. apply Z.log2_lt_pow2; lia.
Qed.

Lemma crc_loop_closed data : is_bytes data -> forall s,
  crc_loop data s = crc_bits (8 * length data) (Z.lxor s (unle data)).
Proof.
  induction 1 as [|b r Hb Hr IH]; intros s.
  - cbn. rewrite Z.lxor_0_r. reflexivity.
  - unfold crc_loop in *. cbn [fold_left length unle]. rewrite IH.
    replace (8 * S (length r))%nat with (8 + 8 * length r)%nat by lia. rewrite crc_bits_add. f_equal.
    rewrite <- (crc_bits_shiftl 8 (unle r)) at 1. rewrite <- crc_bits_lxor. f_equal.
    rewrite Z.lxor_assoc. f_equal. symmetry. apply (add_shift_lxor b (unle r) 8); [lia|exact Hb].
Qed.

Lemma crc_bit_range x : 0 <= x < 65536 -> 0 <= crc_bit x < 65536.
Proof.
  intros H. assert (S : ((0 <=? crc_bit x) && (crc_bit x <? 65536)) = true).
  { revert x H. apply (sweep 65536 (fun x => (0 <=? crc_bit x) && (crc_bit x <? 65536))). vm_compute. reflexivity. }
  apply andb_true_iff in S as [A B]. apply Z.leb_le in A. apply Z.ltb_lt in B. lia.
Qed.
Lemma crc_bits_range n : forall x, 0 <= x < 65536 -> 0 <= crc_bits n x < 65536.
Proof. induction n; intros x H; cbn [crc_bits]; [assumption|]. apply IHn, crc_bit_range, H. Qed.
Lemma lxor_range16 a b : 0 <= a < 65536 -> 0 <= b < 65536 -> 0 <= Z.lxor a b < 65536.
Proof.
  intros Ha Hb. split; [apply Z.lxor_nonneg; lia|].
  destruct (Z.eq_dec (Z.lxor a b) 0) as [->|N]; [lia|]. assert (0 <= Z.lxor a b) by (apply Z.lxor_nonneg; lia).
  apply (Z.log2_lt_pow2 _ 16); [lia|]. eapply Z.le_lt_trans; [apply Z.log2_lxor; lia|].
  apply Z.max_lub_lt.
  - destruct (Z.eq_dec a 0) as [->|]; [reflexivity|]. apply Z.log2_lt_pow2; [lia|apply Ha].
  - destruct (Z.eq_dec b 0) as [->|]; [reflexivity|]. apply Z.log2_lt_pow2; [lia|apply Hb].
Qed.
Lemma crc_loop_range data : is_bytes data -> forall s, 0 <= s < 65536 -> 0 <= crc_loop data s < 65536.
Proof.
  induction 1 as [|b r Hb Hr IH]; intros s Hs; [exact Hs|]. unfold crc_loop in *. cbn [fold_left].
  apply IH, crc_bits_range, lxor_range16; [assumption|]. unfold is_byte in Hb. lia.
Qed.
Lemma crc16_loop data : is_bytes data -> crc16 data = crc_loop data 0xFFFF.
Proof.
  intros H. unfold crc16. change 0xFFFF with (Z.ones 16) at 2. rewrite Z.land_ones by lia. apply Z.mod_small.
  apply crc_loop_range; [assumption|lia].
Qed.
Lemma crc16_range data : is_bytes data -> 0 <= crc16 data < 65536.
Proof. intros H. rewrite crc16_loop by assumption. apply crc_loop_range; [assumption|lia]. Qed.

Lemma crc_bit_zero e : 0 <= e < 65536 -> crc_bit e = 0 -> e = 0.
Proof.
  intros H Z. assert (S : (negb (crc_bit e =? 0) || (e =? 0)) = true).
  { clear Z. revert e H. apply (sweep 65536 (fun x => negb (crc_bit x =? 0) || (x =? 0))). vm_compute. reflexivity. }
  rewrite Z in S. cbn [Z.eqb negb orb] in S. apply Z.eqb_eq, S.
Qed.
Lemma crc_bits_zero n : forall e, 0 <= e < 65536 -> crc_bits n e = 0 -> e = 0.
Proof.
  induction n; intros e H Z; cbn [crc_bits] in *; [assumption|]. apply crc_bit_zero; [assumption|].
  apply IHn; [apply crc_bit_range, H|exact Z].
Qed.

(** two strings of the same length whose difference is a burst of at most 16 bits *)
Lemma crc16_burst a b e k : is_bytes a -> is_bytes b -> length a = length b -> 0 <= k -> 0 < e < 65536 ->
  Z.lxor (unle a) (unle b) = Z.shiftl e k -> crc16 a <> crc16 b.
Proof.
  intros Ha Hb HL Hk He D E. rewrite !crc16_loop, !crc_loop_closed, <- HL in E by assumption.
  assert (E0 : crc_bits (8 * length a) (Z.lxor (Z.lxor 0xFFFF (unle a)) (Z.lxor 0xFFFF (unle b))) = 0)
    by (rewrite crc_bits_lxor, E; apply Z.lxor_nilpotent).
  rewrite lxor_4, Z.lxor_nilpotent, Z.lxor_0_l, D in E0.
  assert (KN : k < Z.of_nat (8 * length a)).
  { pose proof (unle_range a Ha) as Ra. pose proof (unle_range b Hb) as Rb.
    assert (P : 256 ^ zlen a = 2 ^ (8 * zlen a)) by (rewrite (Z.pow_mul_r 2 8) by (pose proof (zlen_nonneg a); lia); reflexivity).
    unfold zlen in *. rewrite <- HL in Rb. rewrite P in Ra, Rb. set (N := 8 * Z.of_nat (length a)) in *.
    replace (Z.of_nat (8 * length a)) with N by (unfold N; lia).
    apply Z.lt_nge. intros HN. assert (T : Z.testbit (Z.shiftl e k) (k + Z.log2 e) = true).
    { pose proof (Z.log2_nonneg e). rewrite Z.shiftl_spec by lia. replace (k + Z.log2 e - k) with (Z.log2 e) by lia. apply Z.bit_log2. lia. }
    rewrite <- D, Z.lxor_spec in T.
    assert (HT : forall x, 0 <= x < 2 ^ N -> Z.testbit x (k + Z.log2 e) = false).
    { intros x Hx. pose proof (Z.log2_nonneg e). destruct (Z.eq_dec x 0) as [->|]; [apply Z.bits_0|].
      apply Z.bits_above_log2; [lia|]. apply Z.lt_le_trans with N; [apply Z.log2_lt_pow2; lia|lia]. }
    rewrite !HT in T by assumption. discriminate. }
  replace (8 * length a)%nat with (Z.to_nat k + (8 * length a - Z.to_nat k))%nat in E0 by lia.
  rewrite crc_bits_add in E0. replace (Z.shiftl e k) with (Z.shiftl e (Z.of_nat (Z.to_nat k))) in E0 by (f_equal; lia).
  rewrite crc_bits_shiftl in E0. apply crc_bits_zero in E0; lia.
Qed.

Lemma unle_app a b : unle (a ++ b) = unle a + 2 ^ (8 * zlen a) * unle b.
Proof.
  induction a as [|x a IH]; cbn [app unle]; [change (2 ^ (8 * zlen [])) with 1; lia|].
  rewrite IH, zlen_cons. pose proof (zlen_nonneg a).
  replace (8 * (1 + zlen a)) with (8 + 8 * zlen a) by lia. rewrite Z.pow_add_r by lia. change (2 ^ 8) with 256. lia.
Qed.
Lemma unle_app_lxor a b : is_bytes a -> unle (a ++ b) = Z.lxor (unle a) (Z.shiftl (unle b) (8 * zlen a)).
Proof.
  intros H. rewrite unle_app. pose proof (zlen_nonneg a). apply add_shift_lxor; [lia|].
  pose proof (unle_range a H) as R. rewrite (Z.pow_mul_r 2 8) by lia. exact R.
Qed.
(** a change confined to at most two neighbouring bytes *)
Lemma crc16_change a x y b : is_bytes a -> is_bytes b -> is_bytes x -> is_bytes y -> zlen x = zlen y -> zlen x <= 2 ->
  x <> y -> crc16 (a ++ x ++ b) <> crc16 (a ++ y ++ b).
Proof.
  intros Ha Hb Hx Hy HL H2 N.
  assert (HLn : length x = length y) by (unfold zlen in HL; lia).
  assert (R : forall z, is_bytes z -> zlen z <= 2 -> 0 <= unle z < 65536).
  { intros z Hz HZ. pose proof (unle_range z Hz). split; [lia|].
    apply Z.lt_le_trans with (256 ^ zlen z); [lia|]. change 65536 with (256 ^ 2). apply Z.pow_le_mono_r; lia. }
  pose proof (R x Hx H2) as Rx. pose proof (R y Hy ltac:(lia)) as Ry.
  pose proof (lxor_range16 _ _ Rx Ry) as RR.
  apply (crc16_burst _ _ (Z.lxor (unle x) (unle y)) (8 * zlen a)).
  - rewrite !is_bytes_app; auto.
  - rewrite !is_bytes_app; auto.
  - rewrite !app_length. lia.
  - pose proof (zlen_nonneg a); lia.
  - assert (Z.lxor (unle x) (unle y) <> 0); [|lia]. intros E. apply Z.lxor_eq in E. apply N.
    rewrite <- (le_unle x Hx), <- (le_unle y Hy), E, HLn. reflexivity.
  - rewrite !(unle_app_lxor a) by assumption. rewrite !unle_app_lxor by assumption. rewrite <- HL.
    rewrite lxor_4, Z.lxor_nilpotent, Z.lxor_0_l, <- Z.shiftl_lxor, lxor_4, Z.lxor_nilpotent, Z.lxor_0_r. reflexivity.
Qed.
Lemma crc_loop_app a b s : crc_loop (a ++ b) s = crc_loop b (crc_loop a s).
Proof. unfold crc_loop. apply fold_left_app. Qed.
Lemma crc16_append a a' b : is_bytes a -> is_bytes a' -> is_bytes b ->
  (crc16 (a ++ b) = crc16 (a' ++ b) <-> crc16 a = crc16 a').
Proof.
  intros Ha Ha' Hb. rewrite !crc16_loop by (rewrite ?is_bytes_app; auto). rewrite !crc_loop_app. split; [|congruence].
  pose proof (crc_loop_range a Ha 0xFFFF ltac:(lia)) as R. pose proof (crc_loop_range a' Ha' 0xFFFF ltac:(lia)) as R'.
  set (u := crc_loop a 0xFFFF) in *. set (u' := crc_loop a' 0xFFFF) in *. intros E.
  rewrite !crc_loop_closed in E by assumption.
  assert (E0 : crc_bits (8 * length b) (Z.lxor (Z.lxor u (unle b)) (Z.lxor u' (unle b))) = 0)
    by (rewrite crc_bits_lxor, E; apply Z.lxor_nilpotent).
  rewrite lxor_4, Z.lxor_nilpotent, Z.lxor_0_r in E0. apply crc_bits_zero in E0; [|apply lxor_range16; assumption].
  apply Z.lxor_eq, E0.
Qed.
Lemma crc16_residue a : is_bytes a -> crc16 (a ++ le 2 (crc16 a)) = 0.
Proof.
  intros H. pose proof (crc16_range a H) as R. rewrite crc16_loop at 1 by (apply is_bytes_app; split; [assumption|apply is_bytes_le]).
  rewrite crc_loop_app, <- crc16_loop by assumption. rewrite crc_loop_closed by apply is_bytes_le.
  rewrite unle_le_id by exact R. rewrite Z.lxor_nilpotent. apply crc_bits_0.
Qed.
Fixpoint xor_bytes (a b : bytes) : bytes :=
  match a, b with x :: a', y :: b' => Z.lxor x y :: xor_bytes a' b' | _, _ => [] end.
Lemma crc_loop_xor a : forall b s t, length a = length b ->
  crc_loop (xor_bytes a b) (Z.lxor s t) = Z.lxor (crc_loop a s) (crc_loop b t).
Proof.
  unfold crc_loop. induction a as [|x a IH]; intros [|y b] s t H; try discriminate; cbn [xor_bytes fold_left]; [reflexivity|].
  injection H as H. rewrite lxor_4, crc_bits_lxor. apply IH, H.
Qed.

(** ** null-terminated strings *)
Lemma find_from_none_before pat l : forall pos n k, 0 <= k -> k < Z.of_nat n ->
  (forall j, 0 <= j < k -> prefixb pat (skipn (Z.to_nat j) l) = false) -> prefixb pat (skipn (Z.to_nat k) l) = true ->
  find_from pat l pos n = pos + k.
Proof.
  intros pos n; revert pos l; induction n as [|n IH]; intros pos l k Hk Hn Hb Ht; [lia|]. cbn [find_from].
  destruct (Z.eq_dec k 0) as [->|N].
  - change (skipn (Z.to_nat 0) l) with l in Ht. rewrite Ht. lia.
  - destruct (prefixb pat l) eqn:P; [pose proof (Hb 0 ltac:(lia)) as Q; change (skipn (Z.to_nat 0) l) with l in Q; congruence|].
    assert (SK : forall j, 0 <= j -> skipn (Z.to_nat j) (tl l) = skipn (Z.to_nat (j + 1)) l).
    { intros j Hj. replace (Z.to_nat (j + 1)) with (S (Z.to_nat j)) by lia. destruct l; cbn [tl]; [rewrite !skipn_nil; reflexivity|reflexivity]. }
    rewrite (IH (pos + 1) (tl l) (k - 1)); try lia.
    + intros j Hj. rewrite SK by lia. apply Hb. lia.
    + rewrite SK by lia. replace (k - 1 + 1) with k by lia. exact Ht.
Qed.
Lemma loadstr1 pre s post : (forall c, In c s -> c <> 0) ->
  loadNullTerminatedStringFrom (pre ++ s ++ [0] ++ post) (zlen pre) 1 = s.
Proof.
  intros H. unfold loadNullTerminatedStringFrom, find_in. pose proof (zlen_nonneg pre). pose proof (zlen_nonneg s). pose proof (zlen_nonneg post).
  assert (L : zlen (pre ++ s ++ [0] ++ post) = zlen pre + zlen s + 1 + zlen post) by zg.
  rewrite !clamp_id by lia. rewrite skipn_app_exact by (unfold zlen; lia). change (zlen (zeros 1)) with 1.
  rewrite (find_from_none_before _ _ _ _ (zlen s)); try lia.
  - apply slice_mid; lia.
  - intros j Hj. change (zeros 1) with [0]. rewrite skipn_app. replace (Z.to_nat j - length s)%nat with 0%nat by (unfold zlen in Hj; lia).
    destruct (skipn (Z.to_nat j) s) as [|c r] eqn:E.
    + apply (f_equal (@length Z)) in E. rewrite skipn_length in E. cbn [length] in E. unfold zlen in Hj. lia.
    + cbn [app prefixb]. rewrite andb_true_r. apply Z.eqb_neq. intros <-. apply (H 0); [|reflexivity].
      rewrite <- (firstn_skipn (Z.to_nat j) s), E. apply in_or_app. right. left. reflexivity.
  - change (zeros 1) with [0]. rewrite skipn_app_exact by (unfold zlen; lia). reflexivity.
Qed.
Lemma loadstr1_missing pre s : (forall c, In c s -> c <> 0) -> 0 < zlen s ->
  loadNullTerminatedStringFrom (pre ++ s) (zlen pre) 1 = removelast s.
Proof.
  intros H Hs. unfold loadNullTerminatedStringFrom, find_in. pose proof (zlen_nonneg pre).
  assert (L : zlen (pre ++ s) = zlen pre + zlen s) by zg. rewrite !clamp_id by lia.
  rewrite skipn_app_exact by (unfold zlen; lia). change (zlen (zeros 1)) with 1.
  replace (find_from _ _ _ _) with (-1).
  - destruct (exists_last (l := s)) as (s1 & x & ->); [intros ->; change (zlen (@nil Z)) with 0 in Hs; lia|]. rewrite removelast_last.
    unfold slice. rewrite L, (clamp_id _ (zlen pre)) by lia. unfold clamp. cbn [Z.ltb Z.compare].
    rewrite skipn_app_exact by (unfold zlen; lia). rewrite zlen_app in *. change (zlen [x]) with 1 in *. pose proof (zlen_nonneg s1).
    apply firstn_app_exact. unfold zlen in *. lia.
  - symmetry. change (zeros 1) with [0]. clear - H. set (n := Z.to_nat _). generalize (zlen pre). clearbody n. revert s H.
    induction n as [|n IH]; intros s H pos; cbn [find_from]; [reflexivity|]. destruct s as [|c s]; cbn [prefixb tl].
    + apply (IH []). intros c [].
    + destruct (Z.eqb_spec 0 c) as [<-|]; [exfalso; apply (H 0); [left; reflexivity|reflexivity]|]. cbn [andb].
      apply IH. intros d Hd. apply H. right; exact Hd.
Qed.

(** ** named lists *)
Definition eqb_ok {K} (eqb : K -> K -> bool) : Prop := forall x y, eqb x y = true <-> x = y.
Lemma index_loop_ok {K V} eqb (L : list (K * V)) name : eqb_ok eqb -> forall s i,
  index_loop eqb L name s = Ok i <->
  exists l1 v l2, L = l1 ++ (name, v) :: l2 /\ ~ In name (map fst l1) /\ i = s + zlen l1.
Proof.
  intros HE. induction L as [|[n v] L IH]; intros s i; cbn [index_loop].
  - split; [discriminate|]. intros (l1 & v & l2 & E & _). destruct l1; discriminate.
  - destruct (eqb n name) eqn:E.
    + apply HE in E as ->. split.
      * intros [= <-]. exists [], v, L. split; [reflexivity|]. split; [intros []|]. change (zlen (@nil (K * V))) with 0. lia.
      * intros (l1 & v' & l2 & E & N & ->). destruct l1 as [|[n' w] l1]; cbn [app] in E.
        -- f_equal. change (zlen (@nil (K * V))) with 0. lia.
        -- exfalso. apply N. left. cbn. congruence.
    + assert (NE : n <> name) by (intros ->; assert (eqb name name = true) by (apply HE; reflexivity); congruence).
      rewrite IH. split; intros (l1 & v' & l2 & E' & N & ->).
      * exists ((n, v) :: l1), v', l2. split; [rewrite E'; reflexivity|]. split; [|rewrite zlen_cons; lia].
        intros [X|X]; [apply NE, X|apply N, X].
      * destruct l1 as [|[n' w] l1]; cbn [app] in E'; [congruence|]. injection E' as -> -> ->.
        exists l1, v', l2. split; [reflexivity|]. split; [intros X; apply N; right; exact X|rewrite zlen_cons; lia].
Qed.
Lemma index_loop_err {K V} eqb (L : list (K * V)) name : eqb_ok eqb -> forall s e,
  index_loop eqb L name s = Err e <-> (e = KeyError /\ ~ In name (map fst L)).
Proof.
  intros HE. induction L as [|[n v] L IH]; intros s e; cbn [index_loop map In fst].
  - split; [intros [= <-]; auto|intros [-> _]; reflexivity].
  - destruct (eqb n name) eqn:E.
    + apply HE in E. split; [discriminate|]. intros [_ N]. exfalso. apply N. left; exact E.
    + rewrite IH. split; intros [-> N]; (split; [reflexivity|]); intros X; apply N; [|right; exact X].
      destruct X as [X|X]; [|exact X]. assert (eqb n name = true) by (apply HE, X). congruence.
Qed.
Lemma index_in_range {K V} eqb (L : list (K * V)) name i : eqb_ok eqb -> indexInNamedList eqb L name = Ok i -> 0 <= i < zlen L.
Proof.
  intros HE H. apply index_loop_ok in H as (l1 & v & l2 & -> & _ & ->); [|assumption]. rewrite zlen_app, zlen_cons.
  pose proof (zlen_nonneg l1); pose proof (zlen_nonneg l2). lia.
Qed.
Lemma find_named {K V} eqb (L : list (K * V)) name v : eqb_ok eqb ->
  (findInNamedList eqb L name = Ok v <->
   exists l1 l2, L = l1 ++ (name, v) :: l2 /\ ~ In name (map fst l1)).
Proof.
  intros HE. unfold findInNamedList. split.
  - intros H. apply bind_ok in H as (i & Hi & H). apply bind_ok in H as (e & He & H). injection H as <-.
    apply index_loop_ok in Hi as (l1 & w & l2 & -> & N & ->); [|assumption]. rewrite get_mid in He by lia. injection He as <-.
    exists l1, l2. auto.
  - intros (l1 & l2 & -> & N). assert (Hi : indexInNamedList eqb (l1 ++ (name, v) :: l2) name = Ok (zlen l1)).
    { apply index_loop_ok; [assumption|]. exists l1, v, l2. auto. }
    rewrite Hi. cbn [bind]. rewrite get_mid by reflexivity. reflexivity.
Qed.
Lemma find_named_err {K V} eqb (L : list (K * V)) name e : eqb_ok eqb ->
  (findInNamedList eqb L name = Err e <-> e = KeyError /\ ~ In name (map fst L)).
Proof.
  intros HE. unfold findInNamedList. split.
  - intros H. apply bind_err in H as [H|(i & Hi & H)].
    + apply index_loop_err in H; assumption.
    + apply index_loop_ok in Hi as (l1 & w & l2 & -> & N & ->); [|assumption]. rewrite get_mid in H by lia. discriminate.
  - intros H. apply (index_loop_err eqb L name HE 0) in H. unfold indexInNamedList. rewrite H. reflexivity.
Qed.
Lemma set_named {K V} eqb (L : list (K * V)) name v L' : eqb_ok eqb ->
  (setInNamedList eqb L name v = Ok L' <->
   exists l1 w l2, L = l1 ++ (name, w) :: l2 /\ ~ In name (map fst l1) /\ L' = l1 ++ (name, v) :: l2).
Proof.
  intros HE. unfold setInNamedList.
  assert (SET : forall l1 w l2, setl (l1 ++ (name, w) :: l2) (zlen l1) (name, v) = Ok (l1 ++ (name, v) :: l2)).
  { intros l1 w l2. unfold setl. pose proof (zlen_nonneg l1). pose proof (zlen_nonneg l2). destruct (Z.ltb_spec (zlen l1) 0); [lia|].
    destruct (Z.ltb_spec (zlen l1) 0); [lia|]. rewrite zlen_app, zlen_cons. destruct (Z.leb_spec (zlen l1 + (1 + zlen l2)) (zlen l1)); [lia|].
    cbn [orb]. f_equal. replace (Z.to_nat (zlen l1)) with (length l1) by (unfold zlen; lia). apply upd_app. }
  split.
  - intros H. apply bind_ok in H as (i & Hi & H). apply index_loop_ok in Hi as (l1 & w & l2 & -> & N & ->); [|assumption].
    cbn [Z.add] in H. rewrite SET in H. injection H as <-. exists l1, w, l2. auto.
  - intros (l1 & w & l2 & -> & N & ->). assert (Hi : indexInNamedList eqb (l1 ++ (name, w) :: l2) name = Ok (zlen l1)).
    { apply index_loop_ok; [assumption|]. exists l1, w, l2. auto. }
    rewrite Hi. apply SET.
Qed.

(** ** alignments *)
Lemma land_fff x : Z.land x 0xFFF = x mod 4096.
Proof. change 0xFFF with (Z.ones 12). rewrite Z.land_ones by lia. reflexivity. Qed.
Lemma land_3 x : Z.land x 3 = x mod 4.
Proof. change 3 with (Z.ones 2). rewrite Z.land_ones by lia. reflexivity. Qed.
Lemma shiftr_12 x : Z.shiftr x 12 = x / 4096.
Proof. rewrite Z.shiftr_div_pow2 by lia. reflexivity. Qed.
Lemma lor_add_12 x k : 0 <= x < 4096 -> Z.lor x (Z.shiftl k 12) = x + 4096 * k.
Proof.
  intros H. rewrite <- (Z.lxor_lor x); [symmetry; apply (add_shift_lxor x k 12); [lia|exact H]|].
  apply Z.bits_inj. intros i. rewrite Z.land_spec, Z.bits_0.
  destruct (Z.lt_ge_cases i 0) as [|Hi]; [rewrite !Z.testbit_neg_r by lia; reflexivity|].
  destruct (Z.lt_ge_cases i 12).
  - rewrite Z.shiftl_spec_low by lia. apply andb_false_r.
  - replace (Z.testbit x i) with false; [reflexivity|]. symmetry.
    destruct (Z.eq_dec x 0) as [->|]; [apply Z.bits_0|]. apply Z.bits_above_log2; [lia|].
    apply Z.lt_le_trans with 12; [|assumption]. apply Z.log2_lt_pow2; [lia|apply H].
Qed.
Definition valid_alignments : list Z :=
  [0x11; 0x12; 0x14; 0x21; 0x22; 0x24; 0x41; 0x42; 0x44].
Lemma unpack_pack_alignment x y al : 0 <= x < 4096 -> 0 <= y < 4096 -> In al valid_alignments ->
  let p := packAlignmentIntoPos x y al in unpackAlignmentFromPos (fst p) (snd p) = (x, y, al).
Proof.
  intros Hx Hy Hal. cbv zeta. unfold packAlignmentIntoPos, unpackAlignmentFromPos. cbn [fst snd].
  rewrite !land_fff, !(Z.mod_small x), !(Z.mod_small y) by assumption.
  repeat match goal with |- context [Z.lor ?a 0x1000] => change (Z.lor a 0x1000) with (Z.lor a (Z.shiftl 1 12)) end.
  repeat match goal with |- context [Z.lor ?a 0x2000] => change (Z.lor a 0x2000) with (Z.lor a (Z.shiftl 2 12)) end.
  rewrite !lor_add_12 by assumption. rewrite !land_3, !shiftr_12.
  assert (Q : forall v k, 0 <= v < 4096 -> 0 <= k < 4 -> (v + 4096 * k) mod 4096 = v /\ (v + 4096 * k) / 4096 mod 4 = k) by (intros; lia).
  assert (Q0 : forall v, 0 <= v < 4096 -> v mod 4096 = v /\ v / 4096 mod 4 = 0) by (intros; lia).
  destruct (Q0 x Hx) as [X0 X0']. destruct (Q x 1 Hx) as [X1 X1']; [lia|]. destruct (Q x 2 Hx) as [X2 X2']; [lia|].
  destruct (Q0 y Hy) as [Y0 Y0']. destruct (Q y 1 Hy) as [Y1 Y1']; [lia|]. destruct (Q y 2 Hy) as [Y2 Y2']; [lia|].
  repeat (destruct Hal as [<-|Hal]; [cbn -[Z.modulo Z.mul Z.add Z.div nth Z.to_nat Z.lor];
    rewrite ?X0, ?X0', ?X1, ?X1', ?X2, ?X2', ?Y0, ?Y0', ?Y1, ?Y1', ?Y2, ?Y2'; reflexivity|]).
  destruct Hal.
Qed.
Lemma unpack_alignment_range xp yp : let '(x, y, al) := unpackAlignmentFromPos xp yp in
  0 <= x < 4096 /\ 0 <= y < 4096 /\ In al valid_alignments.
Proof.
  unfold unpackAlignmentFromPos. rewrite !land_fff, !land_3. split; [lia|]. split; [lia|].
  assert (C : forall v, v mod 4 = 0 \/ v mod 4 = 1 \/ v mod 4 = 2 \/ v mod 4 = 3) by (intros; lia).
  destruct (C (Z.shiftr xp 12)) as [->|[->|[->| ->]]]; destruct (C (Z.shiftr yp 12)) as [->|[->|[->| ->]]]; vm_compute; tauto.
Qed.
Lemma pack_unpack_alignment xp yp : 0 <= xp < 0x3000 -> 0 <= yp < 0x3000 ->
  let '(x, y, al) := unpackAlignmentFromPos xp yp in packAlignmentIntoPos x y al = (xp, yp).
Proof.
  intros Hx Hy. unfold unpackAlignmentFromPos, packAlignmentIntoPos. rewrite !land_fff, !land_3, !shiftr_12, !Z.mod_mod by lia.
  repeat match goal with |- context [Z.lor ?a 0x1000] => change (Z.lor a 0x1000) with (Z.lor a (Z.shiftl 1 12)) end.
  repeat match goal with |- context [Z.lor ?a 0x2000] => change (Z.lor a 0x2000) with (Z.lor a (Z.shiftl 2 12)) end.
  rewrite !lor_add_12 by (apply Z.mod_pos_bound; lia).
  assert (C : forall v, 0 <= v < 0x3000 -> v / 4096 mod 4 = 0 /\ v = v mod 4096 \/ v / 4096 mod 4 = 1 /\ v = v mod 4096 + 4096 * 1 \/ v / 4096 mod 4 = 2 /\ v = v mod 4096 + 4096 * 2)
    by (intros; lia).
  destruct (C xp Hx) as [[-> Ex]|[[-> Ex]|[-> Ex]]]; destruct (C yp Hy) as [[-> Ey]|[[-> Ey]|[-> Ey]]];
  cbn -[Z.modulo Z.mul Z.add]; rewrite <- Ex, <- Ey; reflexivity.
Qed.
Lemma top_left_of_rect x y w h al : In al valid_alignments -> 0 <= w -> 0 <= h ->
  let '(l, t) := getTopLeftOfAlignedRect x y w h al in
  (Z.testbit al 0 = true -> l = x) /\ (Z.testbit al 1 = true -> l + w = x) /\ (Z.testbit al 2 = true -> -1 <= (l - x) + (l + w - x) <= 0) /\
  (Z.testbit al 4 = true -> t = y) /\ (Z.testbit al 5 = true -> t + h = y) /\ (Z.testbit al 6 = true -> -1 <= (t - y) + (t + h - y) <= 0).
Proof.
  intros Hal Hw Hh.
  repeat (destruct Hal as [<-|Hal]; [cbn -[Z.modulo Z.mul Z.add Z.div Z.sub]; repeat split; intros; try discriminate; lia|]). destruct Hal.
Qed.
Lemma get_after_set {K V} (eqb : K -> K -> bool) (L : list (K * V)) name v L' : eqb_ok eqb ->
  setInNamedList eqb L name v = Ok L' ->
  findInNamedList eqb L' name = Ok v /\ zlen L' = zlen L /\ map fst L' = map fst L /\
  (forall other, other <> name -> findInNamedList eqb L' other = findInNamedList eqb L other).
Proof.
  intros HE H. apply (set_named eqb L name v L' HE) in H as (l1 & w & l2 & -> & N & ->).
  split; [apply find_named; [assumption|]; eauto|]. split; [rewrite !zlen_app, !zlen_cons; reflexivity|].
  split; [rewrite !map_app; reflexivity|]. intros other NE.
  assert (X : forall u s, index_loop eqb (l1 ++ (name, u) :: l2) other s = index_loop eqb (l1 ++ (name, v) :: l2) other s).
  { intros u. clear N. induction l1 as [|[n x] l1 IH]; intros s; cbn [app index_loop].
    - destruct (eqb name other) eqn:E; [apply HE in E; congruence|reflexivity].
    - destruct (eqb n other); [reflexivity|apply IH]. }
  unfold findInNamedList, indexInNamedList. rewrite (X w). destruct (index_loop eqb (l1 ++ (name, v) :: l2) other 0) as [i|e] eqn:E; [|reflexivity].
  cbn [bind]. pose proof E as E'. apply index_loop_ok in E' as (m1 & u & m2 & Em & Nm & ->); [|assumption]. cbn [Z.add].
  pose proof (zlen_nonneg m1).
  destruct (Z.lt_trichotomy (zlen m1) (zlen l1)) as [C|[C|C]].
  - rewrite !get_app_l by lia. reflexivity.
  - exfalso. assert (G : get (l1 ++ (name, v) :: l2) (zlen m1) = Ok (other, u)) by (rewrite Em; apply get_mid; reflexivity).
    rewrite get_mid in G by exact C. congruence.
  - rewrite !get_skip by lia. replace ((name, v) :: l2) with ([(name, v)] ++ l2) by reflexivity. replace ((name, w) :: l2) with ([(name, w)] ++ l2) by reflexivity.
    rewrite !get_skip by (rewrite zlen_cons; change (zlen (@nil (K * V))) with 0; lia). reflexivity.
Qed.
Lemma wide_string_false :
  ~ (forall s post, (forall k, 0 <= k -> 2 * k + 2 <= zlen s -> slice s (2 * k) (2 * k + 2) <> [0; 0]) -> zlen s mod 2 = 0 ->
       loadNullTerminatedStringFrom (s ++ [0; 0] ++ post) 0 2 = s).
Proof.
  intros H. specialize (H [65; 0] []). assert (X : loadNullTerminatedStringFrom ([65; 0] ++ [0; 0] ++ []) 0 2 = [65]) by (vm_compute; reflexivity).
  rewrite X in H. discriminate H; [|reflexivity]. intros k Hk Hl. change (zlen [65; 0]) with 2 in Hl. assert (k = 0) as -> by lia. vm_compute. discriminate.
Qed.

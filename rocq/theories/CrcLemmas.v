(** * CRC-16 as a polynomial remainder *)
From Verif Require Import PyBase PyLemmas CommonModel CommonLemmas.

(** the product of two polynomials over GF(2), bit i of a number being the coefficient of x^i *)
Fixpoint pmul_pos (p : positive) (b : Z) : Z :=
  match p with xH => b | xO p' => 2 * pmul_pos p' b | xI p' => Z.lxor b (2 * pmul_pos p' b) end.
Definition pmul (a b : Z) : Z := match a with Zpos p => pmul_pos p b | _ => 0 end.
Lemma pmul_step q b : 0 <= q -> pmul q b = Z.lxor (if Z.odd q then b else 0) (2 * pmul (q / 2) b).
Proof.
  intros Q. rewrite <- Z.div2_div. destruct q as [|[p|p|]|p]; try lia; cbn [Z.odd Z.div2 Pos.div2 pmul pmul_pos]; rewrite ?Z.lxor_0_l, ?Z.lxor_0_r; try reflexivity.
Qed.
Lemma crc_bit_double y : crc_bit (2 * y) = y.
Proof. rewrite crc_bit_alt. replace (Z.odd (2 * y)) with false by (rewrite Z.odd_mul; reflexivity). rewrite Z.lxor_0_r, Z.shiftr_div_pow2, Z.mul_comm by lia. change (2 ^ 1) with 2. apply Z.div_mul. lia. Qed.
Lemma crc_bits_pmul n : forall q, 0 <= q < 2 ^ Z.of_nat n -> crc_bits n (pmul q 0x14003) = 0.
Proof.
  induction n as [|n IH]; intros q Q; cbn [crc_bits].
  - change (2 ^ Z.of_nat 0) with 1 in Q. replace q with 0 by lia. reflexivity.
  - rewrite (pmul_step q) by lia. rewrite crc_bit_lxor, crc_bit_double. replace (crc_bit (if Z.odd q then 0x14003 else 0)) with 0 by (destruct (Z.odd q); reflexivity). rewrite Z.lxor_0_l. apply IH.
    rewrite Nat2Z.inj_succ, Z.pow_succ_r in Q by lia. split; [apply Z.div_pos; lia|apply Z.div_lt_upper_bound; lia].
Qed.
Lemma crc_bits_split n : forall x, exists q, 0 <= q < 2 ^ Z.of_nat n /\ x = Z.lxor (Z.shiftl (crc_bits n x) (Z.of_nat n)) (pmul q 0x14003).
Proof.
  induction n as [|n IH]; intros x; cbn [crc_bits].
  - exists 0. split; [cbn; lia|]. cbn [Z.of_nat pmul]. rewrite Z.shiftl_0_r, Z.lxor_0_r. reflexivity.
  - destruct (IH (crc_bit x)) as (q & Q & E). exists (2 * q + (if Z.odd x then 1 else 0)). rewrite Nat2Z.inj_succ, Z.pow_succ_r by lia. split; [destruct (Z.odd x); lia|].
    assert (D : (2 * q + (if Z.odd x then 1 else 0)) / 2 = q) by (rewrite Z.mul_comm, Z.add_comm, Z.div_add by lia; destruct (Z.odd x); reflexivity).
    assert (O : Z.odd (2 * q + (if Z.odd x then 1 else 0)) = Z.odd x) by (rewrite Z.odd_add, Z.odd_mul; destruct (Z.odd x); reflexivity).
    rewrite pmul_step, D, O by (destruct (Z.odd x); lia). set (y := crc_bits n (crc_bit x)) in *.
    assert (S2 : Z.shiftl y (Z.succ (Z.of_nat n)) = 2 * Z.shiftl y (Z.of_nat n)) by (rewrite !Z.shiftl_mul_pow2, Z.pow_succ_r by lia; ring). rewrite S2.
    assert (X2 : forall a b, 2 * Z.lxor a b = Z.lxor (2 * a) (2 * b)) by (intros a b; rewrite !(Z.mul_comm 2), <- !(Z.shiftl_mul_pow2 _ 1) by lia; apply Z.shiftl_lxor).
    rewrite Z.lxor_comm, Z.lxor_assoc, (Z.lxor_comm (2 * pmul q _)), <- X2, <- E. rewrite crc_bit_alt, X2. rewrite <- Z.lxor_assoc.
    assert (H2 : x = Z.lxor (2 * Z.shiftr x 1) (if Z.odd x then 1 else 0)).
    { apply Z.bits_inj'. intros i I. rewrite Z.lxor_spec. rewrite <- Z.double_spec. destruct (Z.eq_dec i 0) as [->|N0].
      - rewrite Z.double_spec, Z.testbit_even_0, Z.bit0_odd. destruct (Z.odd x); reflexivity.
      - rewrite Z.double_spec. replace i with (Z.succ (i - 1)) at 2 3 by lia. rewrite Z.testbit_even_succ, Z.shiftr_spec by lia. replace (i - 1 + 1) with i by lia. destruct (Z.odd x); [change 1 with (2 * 0 + 1); rewrite Z.testbit_odd_succ by lia|]; rewrite ?Z.testbit_0_l, xorb_false_r; reflexivity. }
    rewrite H2 at 1. rewrite (Z.lxor_comm _ (2 * Z.shiftr x 1)), Z.lxor_assoc. f_equal. destruct (Z.odd x); reflexivity.
Qed.
Lemma crc16_standard : forall data c, is_bytes data ->
  (crc16 data = c <-> exists q, 0 <= q < 2 ^ (8 * zlen data) /\ 0 <= c < 65536 /\
   Z.lxor 0xFFFF (unle data) = Z.lxor (Z.shiftl c (8 * zlen data)) (pmul q 0x14003)).
Proof.
  intros data c B. assert (R := crc16_range data B). assert (N : 8 * zlen data = Z.of_nat (8 * length data)) by (unfold zlen; lia). rewrite N.
  assert (C : crc16 data = crc_bits (8 * length data) (Z.lxor 0xFFFF (unle data))).
  { rewrite <- crc_loop_closed by exact B. unfold crc16 in *. rewrite <- (Z.mod_small (crc_loop data 0xFFFF) (2 ^ 16)) at 2; [rewrite <- Z.land_ones by lia; reflexivity|].
    apply crc_loop_range; [exact B|lia]. }
  split.
  - intros <-. destruct (crc_bits_split (8 * length data) (Z.lxor 0xFFFF (unle data))) as (q & Q & E). exists q. rewrite C. split; [exact Q|]. split; [rewrite <- C; exact R|exact E].
  - intros (q & Q & K & E). rewrite C, E, crc_bits_lxor, crc_bits_shiftl, crc_bits_pmul by exact Q. apply Z.lxor_0_r.
Qed.

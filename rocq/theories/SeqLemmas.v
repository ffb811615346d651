(** Proofs about the sequence model, part 1: variable-length integers and
    single events. *)
From Verif Require Import PyBase PyLemmas PyTac Gfx2DLemmas WaveLemmas SeqModel SeqSpec.
From Coq Require Import ZifyBool.
Ltac Zify.zify_post_hook ::= idtac.

(** ** Variable-length integers *)

Lemma land127 x : Z.land x 0x7F = x mod 128.
Proof. change 0x7F with (Z.ones 7). rewrite Z.land_ones by lia. reflexivity. Qed.

Lemma shr7 x : Z.shiftr x 7 = x / 128.
Proof. rewrite Z.shiftr_div_pow2 by lia. reflexivity. Qed.

Lemma shl7_lor v x : Z.lor (Z.shiftl v 7) (Z.land x 0x7F) = v * 128 + x mod 128.
Proof.
  rewrite land127, Z.lor_comm. rewrite (lor_add (x mod 128) v 7);
    [|lia|change (2 ^ 7) with 128; apply Z.mod_pos_bound; lia].
  change (2 ^ 7) with 128. lia.
Qed.

Lemma bit_length_0 : bit_length 0 = 0.
Proof. reflexivity. Qed.

Lemma bit_length_spec x k : 0 <= x -> 0 <= k -> bit_length x <= k <-> x < 2 ^ k.
Proof.
  intros H K. unfold bit_length. destruct (Z.eqb_spec x 0) as [->|N].
  - split; intros; [apply Z.pow_pos_nonneg; lia | lia].
  - pose proof (Z.log2_lt_pow2 x k ltac:(lia)). lia.
Qed.

Lemma bit_length_nonneg x : 0 <= bit_length x.
Proof. unfold bit_length. destruct (x =? 0); [lia|]. pose proof (Z.log2_nonneg x). lia. Qed.

Lemma bit_length_pos x : 0 < x -> 0 < bit_length x.
Proof. intros H. unfold bit_length. destruct (Z.eqb_spec x 0); [lia|].
  pose proof (Z.log2_nonneg x). lia. Qed.

Lemma bit_length_div x : 128 <= x -> bit_length (x / 128) = bit_length x - 7.
Proof.
  intros H. unfold bit_length.
  assert (0 < x / 128) by (apply Z.div_str_pos; lia).
  destruct (Z.eqb_spec x 0); [lia|]. destruct (Z.eqb_spec (x / 128) 0); [lia|].
  rewrite <- shr7, Z.log2_shiftr by lia.
  assert (7 <= Z.log2 x) by (apply Z.log2_le_pow2; lia). lia.
Qed.

Lemma vl_count_eq fuel bits len :
  0 <= bits -> bits <= Z.of_nat fuel -> vl_count fuel bits len = len + (bits + 6) / 7.
Proof.
  revert bits len. induction fuel as [|k IH]; intros bits len B F; cbn [vl_count].
  - replace bits with 0 by lia. change ((0 + 6) / 7) with 0. lia.
  - destruct (Z.ltb_spec 0 bits).
    + destruct (Z.le_gt_cases 7 bits).
      * rewrite IH by lia. replace (bits + 6) with (bits - 7 + 6 + 1 * 7) by lia.
        rewrite Z.div_add by lia. lia.
      * replace ((bits + 6) / 7) with 1.
        2:{ apply Z.div_unique with (bits - 1); lia. }
        destruct k as [|k]; cbn [vl_count]; [lia|].
        destruct (Z.ltb_spec 0 (bits - 7)); lia.
    + replace bits with 0 by lia. change ((0 + 6) / 7) with 0. lia.
Qed.

Lemma vl_length_eq x : 0 <= x -> vl_length x = Ok (Z.max 1 ((bit_length x + 6) / 7)).
Proof.
  intros H. unfold vl_length. destruct (Z.ltb_spec x 0); [lia|].
  pose proof (bit_length_nonneg x).
  rewrite vl_count_eq by lia. reflexivity.
Qed.

(** the value of 7-bit groups, lowest first *)
Fixpoint gval (l : list Z) : Z := match l with [] => 0 | g :: r => g + 128 * gval r end.

Lemma vl_groups_spec fuel x :
  0 <= x -> x < 2 ^ Z.of_nat fuel ->
  exists g r, vl_groups (S fuel) x = g :: r /\ Forall (fun v => 0 <= v < 128) (g :: r)
    /\ gval (g :: r) = x /\ zlen (g :: r) = Z.max 1 ((bit_length x + 6) / 7).
Proof.
  revert x. induction fuel as [|k IH]; intros x H L.
  - change (2 ^ Z.of_nat 0) with 1 in L. assert (x = 0) as -> by lia.
    exists 0, []. repeat split; try reflexivity. repeat constructor; lia.
  - cbn [vl_groups]. rewrite shr7, land127.
    assert (0 <= x mod 128 < 128) by (apply Z.mod_pos_bound; lia).
    destruct (Z.eqb_spec (x / 128) 0) as [E|E].
    + assert (x < 128) by (apply Z.div_small_iff in E; lia).
      exists (x mod 128), []. split; [reflexivity|]. split; [repeat constructor; lia|].
      cbn [gval]. split; [rewrite Z.mod_small; lia|].
      assert (bit_length x <= 7) by (apply bit_length_spec; lia).
      pose proof (bit_length_nonneg x).
      change (zlen [x mod 128]) with 1.
      assert ((bit_length x + 6) / 7 <= 13 / 7) by (apply Z.div_le_mono; lia).
      change (13 / 7) with 1 in *. lia.
    + assert (0 < x / 128) by (pose proof (Z.div_pos x 128 H ltac:(lia)); lia).
      assert (128 <= x) by (pose proof (Z.mul_div_le x 128 ltac:(lia)); lia).
      destruct (IH (x / 128)) as (g & r & E1 & F1 & V1 & L1).
      { lia. }
      { apply Z.div_lt_upper_bound; [lia|].
        replace (Z.of_nat (S k)) with (Z.of_nat k + 1) in L by lia.
        rewrite Z.pow_add_r in L by lia.
        pose proof (Z.pow_pos_nonneg 2 (Z.of_nat k)). lia. }
      cbn [vl_groups] in E1. rewrite E1.
      exists (x mod 128), (g :: r). split; [reflexivity|]. split; [constructor; [lia|exact F1]|].
      cbn [gval] in V1 |- *. split.
      * rewrite V1. pose proof (Z.div_mod x 128 ltac:(lia)). lia.
      * rewrite zlen_cons, L1, bit_length_div by lia.
        assert (0 < bit_length (x / 128)) by (apply bit_length_pos; lia).
        rewrite bit_length_div in * by lia.
        replace (bit_length x + 6) with (bit_length x - 7 + 6 + 1 * 7) by lia.
        rewrite Z.div_add by lia.
        assert (1 <= (bit_length x - 7 + 6) / 7) by (apply Z.div_le_lower_bound; lia). lia.
Qed.

(** the encoding of 7-bit groups, highest first *)
Fixpoint encb (l : list Z) : list Z :=
  match l with
  | [] => []
  | x :: r => match r with [] => [x] | _ => (x + 128) :: encb r end
  end.

Lemma lor128 x : 0 <= x < 128 -> Z.lor x 0x80 = x + 128.
Proof.
  intros H. change 0x80 with (Z.shiftl 1 7). rewrite lor_add by (change (2 ^ 7) with 128; lia).
  reflexivity.
Qed.

Lemma encb_snoc l g : Forall (fun v => 0 <= v < 128) l ->
  encb (l ++ [g]) = map (fun v => Z.lor v 0x80) l ++ [g].
Proof.
  induction 1 as [|x l H F IH]; [reflexivity|].
  cbn [app map encb]. rewrite IH, lor128 by lia.
  destruct l; reflexivity.
Qed.

Lemma vl_write_eq x : 0 <= x ->
  exists g r, vl_write x = Ok (encb (rev (g :: r)))
    /\ Forall (fun v => 0 <= v < 128) (g :: r) /\ gval (g :: r) = x
    /\ zlen (g :: r) = Z.max 1 ((bit_length x + 6) / 7).
Proof.
  intros H. destruct (vl_groups_spec (Z.to_nat (bit_length x)) x H) as (g & r & E & F & V & L).
  { rewrite Z2Nat.id by apply bit_length_nonneg.
    apply bit_length_spec; [lia | apply bit_length_nonneg | lia]. }
  exists g, r. split; [|tauto]. unfold vl_write. destruct (Z.ltb_spec x 0); [lia|].
  rewrite E. cbn [rev]. rewrite slice_to_m1.
  inversion_clear F as [|? ? F1 F2].
  replace (slice_from (rev r ++ [g]) (-1)) with [g].
  2:{ symmetry. apply slice_from_end; [change (zlen [g]) with 1; lia|reflexivity]. }
  rewrite app_length, Nat.add_sub, firstn_app, firstn_all, Nat.sub_diag. cbn [firstn].
  rewrite app_nil_r. rewrite <- encb_snoc by (apply Forall_rev; exact F2).
  unfold to_bytes. replace (forallb byteb _) with true; [reflexivity|].
  symmetry. apply forallb_byteb. rewrite encb_snoc by (apply Forall_rev; exact F2).
  apply Forall_app. split; [|repeat constructor; unfold is_byte; lia].
  apply Forall_map. apply Forall_rev. revert F2. apply Forall_impl. intros a A.
  rewrite lor128 by lia. unfold is_byte. lia.
Qed.

Definition b7 (x : Z) : Prop := 0 <= x < 128.

Lemma land128_lo x : b7 x -> Z.land x 0x80 = 0.
Proof.
  intros H. change 0x80 with (Z.shiftl 1 7). apply land_shiftl_0; [lia|exact H].
Qed.
Lemma land128_hi x : b7 x -> (Z.land (x + 128) 0x80 =? 0) = false.
Proof.
  intros H. rewrite <- lor128 by exact H. rewrite Z.land_lor_distr_l, land128_lo by exact H.
  reflexivity.
Qed.
Lemma mod128_lo x : b7 x -> x mod 128 = x.
Proof. intros H. apply Z.mod_small, H. Qed.
Lemma mod128_hi x : b7 x -> (x + 128) mod 128 = x.
Proof. intros H. replace (x + 128) with (x + 1 * 128) by lia. rewrite Z_mod_plus_full. apply Z.mod_small, H. Qed.

Lemma encb_cons x cs : encb (x :: cs) = (match cs with [] => x | _ => x + 128 end) :: encb cs.
Proof. destruct cs; reflexivity. Qed.

Lemma zlen_encb cs : zlen (encb cs) = zlen cs.
Proof. induction cs as [|x cs IH]; [reflexivity|]. rewrite encb_cons, !zlen_cons, IH. reflexivity. Qed.

Lemma enc_head_mod x (cs : list Z) : b7 x -> (match cs with [] => x | _ => x + 128 end) mod 128 = x.
Proof. intros H. destruct cs; [apply mod128_lo | apply mod128_hi]; exact H. Qed.

Lemma vl_loop_ok cs : forall fuel pre x post v len,
  b7 x -> Forall b7 cs -> len + zlen cs <= 4 -> (length cs < fuel)%nat ->
  vl_loop fuel (pre ++ encb (x :: cs) ++ post) (zlen pre + 1) v len
  = Ok (fold_left (fun a c => a * 128 + c) cs v).
Proof.
  induction cs as [|c cs IH]; intros fuel pre x post v len X F L K; (destruct fuel as [|k]; [cbn in K; lia|]).
  - cbn [vl_loop encb app]. replace (zlen pre + 1 - 1) with (zlen pre) by lia.
    rewrite get_mid by reflexivity. cbn [bind]. rewrite land128_lo by exact X. reflexivity.
  - inversion_clear F as [|? ? C F']. rewrite zlen_cons in L.
    cbn [vl_loop]. rewrite encb_cons. cbn [app].
    replace (zlen pre + 1 - 1) with (zlen pre) by lia.
    rewrite get_mid by reflexivity. cbn [bind]. rewrite land128_hi by exact X.
    assert (E : pre ++ (x + 128) :: encb (c :: cs) ++ post = (pre ++ [x + 128]) ++ encb (c :: cs) ++ post)
      by (rewrite <- app_assoc; reflexivity).
    rewrite E.
    assert (Z1 : zlen pre + 1 = zlen (pre ++ [x + 128])) by (rewrite zlen_app; reflexivity).
    rewrite Z1. rewrite (encb_cons c). cbn [app]. rewrite get_mid by reflexivity. cbn [bind].
    rewrite shl7_lor, enc_head_mod by exact C.
    pose proof (zlen_nonneg cs).
    destruct (Z.ltb_spec 4 (len + 1)); [lia|].
    change ((match cs with [] => c | _ :: _ => c + 128 end) :: encb cs ++ post)
      with (((match cs with [] => c | _ :: _ => c + 128 end) :: encb cs) ++ post).
    rewrite <- (encb_cons c). rewrite IH; [reflexivity|exact C|exact F'|lia|cbn in K; lia].
Qed.

Lemma vl_loop_long cs : forall fuel pre x post v len,
  b7 x -> Forall b7 cs -> 4 < len + zlen cs -> 0 <= len <= 4 -> 5 - len <= Z.of_nat fuel ->
  vl_loop fuel (pre ++ encb (x :: cs) ++ post) (zlen pre + 1) v len = Err ValueError.
Proof.
  induction cs as [|c cs IH]; intros fuel pre x post v len X F L K G; (destruct fuel as [|k]; [lia|]).
  - change (zlen (@nil Z)) with 0 in L. lia.
  - inversion_clear F as [|? ? C F']. rewrite zlen_cons in L.
    cbn [vl_loop]. rewrite encb_cons. cbn [app].
    replace (zlen pre + 1 - 1) with (zlen pre) by lia.
    rewrite get_mid by reflexivity. cbn [bind]. rewrite land128_hi by exact X.
    assert (E : pre ++ (x + 128) :: encb (c :: cs) ++ post = (pre ++ [x + 128]) ++ encb (c :: cs) ++ post)
      by (rewrite <- app_assoc; reflexivity).
    rewrite E.
    assert (Z1 : zlen pre + 1 = zlen (pre ++ [x + 128])) by (rewrite zlen_app; reflexivity).
    rewrite Z1. rewrite (encb_cons c). cbn [app]. rewrite get_mid by reflexivity. cbn [bind].
    destruct (Z.ltb_spec 4 (len + 1)); [reflexivity|].
    change ((match cs with [] => c | _ :: _ => c + 128 end) :: encb cs ++ post)
      with (((match cs with [] => c | _ :: _ => c + 128 end) :: encb cs) ++ post).
    rewrite <- (encb_cons c). rewrite IH; [reflexivity|exact C|exact F'|lia|lia|lia].
Qed.

Lemma fold_gval l v : fold_left (fun a c => a * 128 + c) (rev l) v = gval l + 128 ^ zlen l * v.
Proof.
  revert v. induction l as [|g r IH]; intros v.
  - change (128 ^ zlen (@nil Z)) with 1. cbn [rev fold_left gval]. lia.
  - cbn [rev gval]. rewrite fold_left_app, IH. cbn [fold_left]. rewrite zlen_cons.
    rewrite Z.pow_add_r by (pose proof (zlen_nonneg r); lia). lia.
Qed.

Lemma vl_len_le5 x : 0 <= x -> Z.max 1 ((bit_length x + 6) / 7) <= 5 <-> x < 2 ^ 35.
Proof.
  intros H. rewrite <- bit_length_spec by lia. pose proof (bit_length_nonneg x).
  split; intros K.
  - pose proof (Z.mul_succ_div_gt (bit_length x + 6) 7 ltac:(lia)). lia.
  - assert ((bit_length x + 6) / 7 <= 41 / 7) by (apply Z.div_le_mono; lia).
    change (41 / 7) with 5 in *. lia.
Qed.

Lemma vl_write_length x b : vl_write x = Ok b -> vl_length x = Ok (zlen b).
Proof.
  intros W. destruct (Z.ltb_spec x 0) as [N|N].
  - unfold vl_write in W. destruct (Z.ltb_spec x 0); [discriminate|lia].
  - destruct (vl_write_eq x N) as (g & r & E & F & V & L). rewrite E in W.
    assert (b = encb (rev (g :: r))) as -> by congruence.
    rewrite zlen_encb, vl_length_eq by lia.
    rewrite <- L. unfold zlen. rewrite rev_length. reflexivity.
Qed.

Lemma vl_write_ok x : 0 <= x -> exists b, vl_write x = Ok b.
Proof. intros H. destruct (vl_write_eq x H) as (g & r & E & _). eexists. exact E. Qed.

Lemma vl_read_write x b pre post :
  vl_write x = Ok b ->
  vl_read (pre ++ b ++ post) (zlen pre) = if x <? 2 ^ 35 then Ok x else Err ValueError.
Proof.
  intros W. assert (N : 0 <= x).
  { unfold vl_write in W. destruct (Z.ltb_spec x 0); [discriminate|lia]. }
  destruct (vl_write_eq x N) as (g & r & E & F & V & L). rewrite E in W.
  assert (b = encb (rev (g :: r))) as -> by congruence. clear W E.
  pose proof (vl_len_le5 x N) as K. rewrite <- L in K.
  pose proof (Forall_rev F) as F'.
  pose proof (fold_gval (g :: r) 0) as GV. rewrite V, Z.mul_0_r, Z.add_0_r in GV.
  assert (LR : zlen (rev (g :: r)) = zlen (g :: r)) by (unfold zlen; rewrite rev_length; reflexivity).
  destruct (rev (g :: r)) as [|x0 cs] eqn:R.
  { apply (f_equal (@length Z)) in R. rewrite rev_length in R. discriminate. }
  inversion_clear F' as [|? ? X0 FC].
  unfold vl_read. rewrite encb_cons. cbn [app]. rewrite get_mid by reflexivity. cbn [bind].
  rewrite land127, enc_head_mod by exact X0.
  change ((match cs with [] => x0 | _ :: _ => x0 + 128 end) :: encb cs ++ post)
      with (((match cs with [] => x0 | _ :: _ => x0 + 128 end) :: encb cs) ++ post).
  rewrite <- encb_cons. rewrite zlen_cons in LR.
  destruct (Z.ltb_spec x (2 ^ 35)) as [Lt|Ge].
  - apply K in Lt. rewrite vl_loop_ok; [|exact X0|exact FC|lia|unfold zlen in *; lia].
    cbn [fold_left] in GV. rewrite Z.mul_0_l, Z.add_0_l in GV. rewrite GV. reflexivity.
  - rewrite vl_loop_long; [reflexivity|exact X0|exact FC| |lia|lia].
    assert (~ zlen (g :: r) <= 5) by (intros Q; apply K in Q; lia). lia.
Qed.

Lemma vl_loop_nonneg fuel : forall data off v len w,
  0 <= v -> vl_loop fuel data off v len = Ok w -> 0 <= w.
Proof.
  induction fuel as [|k IH]; intros data off v len w V H; cbn [vl_loop] in H; [discriminate|].
  destruct (get data (off - 1)) as [c|]; cbn [bind] in H; [|discriminate].
  destruct (Z.land c 128 =? 0); [congruence|].
  destruct (get data off) as [b|]; cbn [bind] in H; [|discriminate].
  destruct (4 <? len + 1); [discriminate|].
  apply IH in H; [exact H|]. rewrite shl7_lor.
  pose proof (Z.mod_pos_bound b 128). lia.
Qed.

Lemma vl_read_nonneg data off w : vl_read data off = Ok w -> 0 <= w.
Proof.
  unfold vl_read. destruct (get data off) as [c|]; cbn [bind]; [|discriminate].
  apply vl_loop_nonneg. rewrite land127. pose proof (Z.mod_pos_bound c 128). lia.
Qed.

Lemma vl_loop_fuel fuel : forall data off v len,
  0 <= len <= 4 -> 5 - len <= Z.of_nat fuel -> vl_loop fuel data off v len <> Err OutOfFuel.
Proof.
  induction fuel as [|k IH]; intros data off v len V K; [|cbn [vl_loop]].
  - lia.
  - destruct (get data (off - 1)) as [c|] eqn:G; cbn [bind].
    2:{ apply get_err in G. congruence. }
    destruct (Z.land c 128 =? 0); [congruence|].
    destruct (get data off) as [b|] eqn:G2; cbn [bind].
    2:{ apply get_err in G2. congruence. }
    destruct (Z.ltb_spec 4 (len + 1)); [congruence|]. apply IH; lia.
Qed.

(** ** Single events *)

Lemma pack_s_ok n v : - (256 ^ Z.of_nat n / 2) <= v < 256 ^ Z.of_nat n / 2 ->
  pack_s n v = Ok (le n (v mod 256 ^ Z.of_nat n)).
Proof.
  intros H. unfold pack_s. destruct (Z.leb_spec (- (256 ^ Z.of_nat n / 2)) v); [|lia].
  destruct (Z.ltb_spec v (256 ^ Z.of_nat n / 2)); [reflexivity|lia].
Qed.
Lemma pack_s_inv n v b : pack_s n v = Ok b ->
  - (256 ^ Z.of_nat n / 2) <= v < 256 ^ Z.of_nat n / 2 /\ b = le n (v mod 256 ^ Z.of_nat n).
Proof.
  unfold pack_s. destruct (Z.leb_spec (- (256 ^ Z.of_nat n / 2)) v); cbn [andb]; [|discriminate].
  destruct (Z.ltb_spec v (256 ^ Z.of_nat n / 2)); [|discriminate]. intros [= <-]. split; [lia|reflexivity].
Qed.
Lemma unpack_s_skip n a b off :
  zlen a <= off -> unpack_s n (a ++ b) off = unpack_s n b (off - zlen a).
Proof. intros. unfold unpack_s. rewrite unpack_u_skip by assumption. reflexivity. Qed.

Lemma sign_of_mod n v : (0 < n)%nat -> - (256 ^ Z.of_nat n / 2) <= v < 256 ^ Z.of_nat n / 2 ->
  sign_of n (v mod 256 ^ Z.of_nat n) = v.
Proof.
  intros N H. unfold sign_of.
  assert (P : 256 ^ Z.of_nat n = 2 * (256 ^ Z.of_nat n / 2)).
  { apply Z_div_exact_full_2; [lia|]. destruct n as [|m]; [lia|].
    replace (Z.of_nat (S m)) with (Z.of_nat m + 1) by lia. rewrite Z.pow_add_r by lia.
    replace (256 ^ Z.of_nat m * 256 ^ 1) with (256 ^ Z.of_nat m * 128 * 2) by lia.
    apply Z.mod_mul. lia. }
  set (h := 256 ^ Z.of_nat n / 2) in *. rewrite P.
  destruct (Z.lt_ge_cases v 0).
  - replace (v mod (2 * h)) with (v + 2 * h) by (apply Z.mod_unique with (-1); lia).
    destruct (Z.ltb_spec (v + 2 * h) h); lia.
  - rewrite Z.mod_small by lia. destruct (Z.ltb_spec v h); lia.
Qed.
Lemma unpack_s_hit n v c off : (0 < n)%nat -> off = 0 ->
  - (256 ^ Z.of_nat n / 2) <= v < 256 ^ Z.of_nat n / 2 ->
  unpack_s n (le n (v mod 256 ^ Z.of_nat n) ++ c) off = Ok v.
Proof.
  intros N O H. unfold unpack_s. rewrite unpack_u_hit; [|exact O|].
  - cbn [bind]. rewrite sign_of_mod by assumption. reflexivity.
  - apply Z.mod_pos_bound. apply Z.pow_pos_nonneg; lia.
Qed.

Lemma unpack_s2_hit v c off : off = 0 -> -32768 <= v < 32768 -> unpack_s 2 (le 2 (v mod 65536) ++ c) off = Ok v.
Proof. intros O H. apply (unpack_s_hit 2); [lia|exact O|exact H]. Qed.
Lemma unpack_s1_hit v c off : off = 0 -> -128 <= v < 128 -> unpack_s 1 (le 1 (v mod 256) ++ c) off = Ok v.
Proof. intros O H. apply (unpack_s_hit 1); [lia|exact O|exact H]. Qed.

Lemma get_shift {A} (pre d : list A) off : 0 <= off -> get (pre ++ d) (zlen pre + off) = get d off.
Proof. intros. rewrite get_skip by lia. f_equal. lia. Qed.
Lemma unpack_u_shift n pre d off : 0 <= off -> unpack_u n (pre ++ d) (zlen pre + off) = unpack_u n d off.
Proof. intros. rewrite unpack_u_skip by lia. f_equal. lia. Qed.
Lemma unpack_s_shift n pre d off : 0 <= off -> unpack_s n (pre ++ d) (zlen pre + off) = unpack_s n d off.
Proof. intros. rewrite unpack_s_skip by lia. f_equal. lia. Qed.
Lemma vl_loop_shift fuel pre d : forall off v len, 1 <= off ->
  vl_loop fuel (pre ++ d) (zlen pre + off) v len = vl_loop fuel d off v len.
Proof.
  induction fuel as [|k IH]; intros off v len H; cbn [vl_loop]; [reflexivity|].
  replace (zlen pre + off - 1) with (zlen pre + (off - 1)) by lia.
  rewrite !get_shift by lia. replace (zlen pre + off + 1) with (zlen pre + (off + 1)) by lia.
  destruct (get d (off - 1)); cbn [bind]; [|reflexivity]. destruct (Z.land a 128 =? 0); [reflexivity|].
  destruct (get d off); cbn [bind]; [|reflexivity]. rewrite IH by lia. reflexivity.
Qed.
Lemma vl_read_shift pre d off : 0 <= off -> vl_read (pre ++ d) (zlen pre + off) = vl_read d off.
Proof.
  intros. unfold vl_read. rewrite get_shift by lia.
  replace (zlen pre + off + 1) with (zlen pre + (off + 1)) by lia.
  destruct (get d off); cbn [bind]; [|reflexivity]. apply vl_loop_shift. lia.
Qed.
Lemma mapM_ext {A B} (f g : A -> res B) l : (forall x, In x l -> f x = g x) -> mapM f l = mapM g l.
Proof.
  induction l as [|x l IH]; intros H; cbn [mapM]; [reflexivity|].
  rewrite H by (left; reflexivity). rewrite IH by (intros; apply H; right; assumption). reflexivity.
Qed.

Lemma random_length_ge s n : random_length s = Ok n -> 6 <= n.
Proof.
  unfold random_length.
  repeat match goal with |- context [if ?c then _ else _] => destruct c end; intros [= <-]; lia.
Qed.

Lemma fromData_shift t pre d off : 0 <= off ->
  fromData t (pre ++ d) (zlen pre + off) = fromData t d off.
Proof.
  intros H. unfold fromData.
  assert (E : forall k, zlen pre + off + k = zlen pre + (off + k)) by (intros; lia).
  rewrite !E. rewrite !get_shift, !vl_read_shift, !unpack_u_shift, !unpack_s_shift by lia.
  destruct (get d (off + 1)) as [s|]; cbn [bind]; [|reflexivity].
  destruct (random_length s) as [n|] eqn:R; cbn [bind]; [|reflexivity].
  apply random_length_ge in R.
  rewrite (mapM_ext (fun i => get (pre ++ d) (zlen pre + (off + 2) + i)) (fun i => get d (off + 2 + i))).
  2:{ intros x Hx. apply in_range_z in Hx. rewrite <- Z.add_assoc. apply get_shift. lia. }
  rewrite <- !Z.add_assoc. rewrite !unpack_s_shift by lia. reflexivity.
Qed.

Lemma sub_args_random s n : sub_args s = Some n -> 0 <= s < 256 -> random_length s = Ok (6 + n).
Proof.
  intros E R.
  assert (S : match sub_args s, random_length s with Some n, Ok m => m =? 6 + n | None, _ => true | _, _ => false end = true).
  { revert s E R. intros s _ R.
    apply (sweep 256 (fun s => match sub_args s, random_length s with
                           | Some n, Ok m => m =? 6 + n | None, _ => true | _, _ => false end)); [vm_compute; reflexivity|lia]. }
  rewrite E in S. destruct (random_length s); [|discriminate]. apply Z.eqb_eq in S. congruence.
Qed.
Lemma sub_args_nonneg s n : sub_args s = Some n -> 0 <= s.
Proof. unfold sub_args. destruct (Z.ltb_spec s 0); [discriminate|lia]. Qed.

(** track sets *)
Lemma tracks_fold ts L : forall acc i, 0 <= i -> Forall (fun x => 0 <= x) L ->
  Z.testbit (fold_left (fun acc i => if existsb (Z.eqb i) ts then Z.lor acc (Z.shiftl 1 i) else acc) L acc) i
  = Z.testbit acc i || (existsb (Z.eqb i) L && existsb (Z.eqb i) ts).
Proof.
  induction L as [|x L IH]; intros acc i I F; cbn [fold_left existsb]; [rewrite orb_false_r; reflexivity|].
  inversion_clear F as [|? ? X F']. rewrite IH by assumption.
  assert (B : Z.testbit (Z.shiftl 1 x) i = (i =? x)).
  { rewrite Z.shiftl_1_l. rewrite Z.pow2_bits_eqb by lia. apply Z.eqb_sym. }
  destruct (existsb (Z.eqb x) ts) eqn:T.
  - rewrite Z.lor_spec, B. destruct (Z.eqb_spec i x) as [->|N].
    + rewrite T. destruct (Z.testbit acc x), (existsb (Z.eqb x) L); reflexivity.
    + rewrite !orb_false_r. reflexivity.
  - destruct (Z.eqb_spec i x) as [->|N]; [|reflexivity].
    rewrite T, !andb_false_r. reflexivity.
Qed.
Lemma existsb_range i n : existsb (Z.eqb i) (range_z 0 n) = (0 <=? i) && (i <? Z.of_nat n).
Proof.
  apply Bool.eq_true_iff_eq. rewrite existsb_exists. split.
  - intros (x & Hx & E). apply Z.eqb_eq in E as <-. apply in_range_z in Hx. lia.
  - intros H. exists i. split; [apply in_range_z; lia|apply Z.eqb_refl].
Qed.
Lemma tracks_testbit ts i : 0 <= i -> Z.testbit (tracks_bits ts) i = (i <? 16) && existsb (Z.eqb i) ts.
Proof.
  intros H. unfold tracks_bits. rewrite tracks_fold; [|exact H|].
  - rewrite Z.bits_0, existsb_range. cbn [orb]. replace (0 <=? i) with true by lia. reflexivity.
  - apply Forall_forall. intros x Hx. apply in_range_z in Hx. lia.
Qed.
Lemma tracks_range ts : 0 <= tracks_bits ts < 65536.
Proof.
  replace (tracks_bits ts) with (tracks_bits ts mod 2 ^ 16).
  - change 65536 with (2 ^ 16). apply Z.mod_pos_bound. lia.
  - apply Z.bits_inj'. intros i Hi. destruct (Z.ltb_spec i 16).
    + apply Z.mod_pow2_bits_low. lia.
    + rewrite Z.mod_pow2_bits_high by lia. rewrite tracks_testbit by lia.
      destruct (Z.ltb_spec i 16); [lia|reflexivity].
Qed.

Lemma ascending_lt x l : ascending (x :: l) -> Forall (Z.lt x) l.
Proof.
  revert x. induction l as [|y l IH]; intros x H; [constructor|].
  destruct H as [H1 H2]. constructor; [exact H1|].
  apply IH in H2. revert H2. apply Forall_impl. intros. lia.
Qed.
Lemma ascending_tail x l : ascending (x :: l) -> ascending l.
Proof. intros [_ H]. exact H. Qed.
Lemma ascending_cons x l : Forall (Z.lt x) l -> ascending l -> ascending (x :: l).
Proof. intros H A. split; [|exact A]. destruct l; [exact I|]. inversion_clear H. assumption. Qed.
Lemma ascending_ext a : forall b, ascending a -> ascending b -> (forall x, In x a <-> In x b) -> a = b.
Proof.
  induction a as [|x a IH]; intros b A B E.
  - destruct b as [|y b]; [reflexivity|]. exfalso. apply (E y). left. reflexivity.
  - destruct b as [|y b]; [exfalso; apply (E x); left; reflexivity|].
    pose proof (ascending_lt _ _ A) as LA. pose proof (ascending_lt _ _ B) as LB.
    rewrite Forall_forall in LA, LB.
    assert (x = y) as ->.
    { destruct (proj1 (E x) ltac:(left; reflexivity)) as [|Q]; [congruence|].
      destruct (proj2 (E y) ltac:(left; reflexivity)) as [|Q']; [congruence|].
      apply LB in Q. apply LA in Q'. lia. }
    f_equal. apply IH; [eapply ascending_tail; eassumption|eapply ascending_tail; eassumption|].
    intros z. split; intros Z0.
    + destruct (proj1 (E z) ltac:(right; exact Z0)) as [<-|]; [|assumption]. apply LA in Z0. lia.
    + destruct (proj2 (E z) ltac:(right; exact Z0)) as [<-|]; [|assumption]. apply LB in Z0. lia.
Qed.
Lemma ascending_filter_range f n : forall s, ascending (filter f (range_z s n)).
Proof.
  induction n as [|n IH]; intros s; cbn [range_z filter]; [exact I|].
  destruct (f s); [|apply IH]. apply ascending_cons; [|apply IH].
  apply Forall_forall. intros x Hx. apply filter_In in Hx as [Hx _]. apply in_range_z in Hx. lia.
Qed.

Lemma tracks_filter ts : ascending ts -> Forall (fun t => 0 <= t < 16) ts ->
  filter (fun i => negb (Z.land (tracks_bits ts) (Z.shiftl 1 i) =? 0)) (range_z 0 16) = ts.
Proof.
  intros A F. apply ascending_ext; [apply ascending_filter_range|exact A|].
  intros x. rewrite filter_In, in_range_z. rewrite Forall_forall in F. split.
  - intros [R H]. rewrite Z.shiftl_1_l, land_bit, tracks_testbit in H by lia.
    apply andb_true_iff in H as [_ H]. apply existsb_exists in H as (y & Hy & E). apply Z.eqb_eq in E as ->. exact Hy.
  - intros H. pose proof (F x H) as R. split; [lia|].
    rewrite Z.shiftl_1_l, land_bit, tracks_testbit by lia.
    apply andb_true_iff. split; [lia|]. apply existsb_exists. exists x. split; [exact H|apply Z.eqb_refl].
Qed.

Lemma int_bytes_ok n v : 0 <= v < 256 ^ Z.of_nat n -> int_bytes n v = Ok (le n v).
Proof.
  intros. unfold int_bytes. destruct (Z.leb_spec 0 v); [|lia].
  destruct (Z.ltb_spec v (256 ^ Z.of_nat n)); [reflexivity|lia].
Qed.
Lemma int_bytes_inv n v b : int_bytes n v = Ok b -> 0 <= v < 256 ^ Z.of_nat n /\ b = le n v.
Proof.
  unfold int_bytes. destruct (Z.leb_spec 0 v); cbn [andb]; [|discriminate].
  destruct (Z.ltb_spec v (256 ^ Z.of_nat n)); [|discriminate]. intros [= <-]. split; [lia|reflexivity].
Qed.
Lemma le_1 v : 0 <= v < 256 -> le 1 v = [v].
Proof. intros. cbn [le]. rewrite Z.mod_small by lia. reflexivity. Qed.

Lemma instr_value b i : 0 <= i < 128 -> Z.lor (Z.shiftl b 7) i = b * 128 + i.
Proof. intros. rewrite Z.lor_comm, lor_add by (change (2 ^ 7) with 128; lia). change (2 ^ 7) with 128. lia. Qed.
Lemma instr_value' b i : 0 <= i < 128 -> Z.lor (Z.land i 0x7F) (Z.shiftl b 7) = b * 128 + i.
Proof. intros. rewrite land127, mod128_lo by exact H. rewrite Z.lor_comm. apply instr_value. exact H. Qed.

(** the bytes of a fitting event *)
Lemma zlen_le n v : zlen (le n v) = Z.of_nat n.
Proof. exact (zlen_enc LE n v). Qed.

(** [ev_fits] with the tests of the code *)
Definition ev_fitsb (e : ev) : Prop :=
  match e with
  | FromVar s v u =>
    0 <= s < 256 /\ match u with Some u => is_arith s = true /\ i8 u /\ i8 v | None => is_arith s = false /\ i16 v end
  | Arith t v w => is_arith t = true /\ 0 <= v < 256 /\ i16 w
  | Byte1 t v => is_byte1 t = true /\ 0 <= v < 256 /\ (t = 0xC7 -> v <= 1) /\ (t = 0xCC -> v <= 2)
  | Word1 t v => is_word1 t = true /\ 0 <= v < 65536
  | Bare t => is_bare t = true
  | Note t v _ d => 0 <= t < 128 /\ 0 <= v < 128 /\ 0 <= d
  | Rest d => 0 <= d
  | Instr b i => 0 <= b /\ 0 <= i < 128
  | BeginTrack n _ => 0 <= n < 256
  | Jump _ => True
  | Call _ => True
  | Random s args lo hi => s < 256 /\ sub_args s = Some (zlen args) /\ is_bytes args /\ i16 lo /\ i16 hi
  | DefTracks ts => ascending ts /\ Forall (fun t => 0 <= t < 16) ts
  | Raw d => is_bytes d
  end.
Lemma fits_b e : ev_fits e <-> ev_fitsb e.
Proof.
  destruct e; cbn [ev_fits ev_fitsb]; try reflexivity; unfold is_arith, is_byte1, is_word1, is_bare, i16, i8; cbn [In];
    try destruct unknown; lia.
Qed.

Lemma ev_save_length e e2o b :
  ev_fits e -> is_fromvar e = false -> ev_save e e2o = Ok b -> dataLength e = Ok (zlen b).
Proof.
  intros F V S. apply fits_b in F. destruct e; cbn [ev_fitsb is_fromvar ev_save dataLength] in *; try discriminate V; inv_bind; subst;
    repeat match goal with
    | H : int_bytes _ _ = Ok _ |- _ => apply int_bytes_inv in H as [? ->]
    | H : pack_s _ _ = Ok _ |- _ => apply pack_s_inv in H as [? ->]
    | H : vl_write _ = Ok _ |- _ => apply vl_write_length in H
    end; autorewrite with zl; rewrite ?zlen_le; try (f_equal; lia).
  - rewrite E4. cbn [bind]. f_equal. lia.
  - rewrite E. reflexivity.
  - rewrite instr_value' in E by lia. rewrite instr_value by lia. rewrite E. reflexivity.
  - destruct F as (S1 & S2 & S3 & S4 & S5).
    rewrite (sub_args_random _ _ S2) by (split; [eapply sub_args_nonneg; eassumption|lia]).
    unfold to_bytes in E. destruct (forallb byteb _); [|discriminate]. injection E as <-.
    autorewrite with zl. f_equal. lia.
Qed.

Lemma note_velocity v (f : bool) : 0 <= v < 128 ->
  0 <= Z.lor v (if f then 0x80 else 0) < 256
  /\ Z.land (Z.lor v (if f then 0x80 else 0)) 0x7F = v
  /\ negb (Z.land (Z.lor v (if f then 0x80 else 0)) 0x80 =? 0) = f.
Proof.
  intros H. destruct f.
  - rewrite lor128 by exact H. rewrite land127, mod128_hi, land128_hi by exact H.
    repeat split; lia.
  - rewrite Z.lor_0_r, land127, mod128_lo, land128_lo by exact H. repeat split; lia.
Qed.

Lemma to_bytes_ok l : is_bytes l -> to_bytes l = Ok l.
Proof. intros H. unfold to_bytes. apply forallb_byteb in H. rewrite H. reflexivity. Qed.

Ltac h8 := change (256 ^ Z.of_nat 1 / 2) with 128 in *; change (256 ^ Z.of_nat 2 / 2) with 32768 in *.

Lemma ev_save_ok e e2o : ev_fits e ->
  (has_ref e = true -> exists o, e2o_get e2o (ev_ref e) = Ok o /\ 0 <= o < 2 ^ 24) ->
  exists b, ev_save e e2o = Ok b.
Proof.
  intros F R. apply fits_b in F. destruct e; cbn [ev_fitsb has_ref ev_ref ev_save] in *;
    try (destruct R as (o & RO & RR); [reflexivity|]; rewrite RO; cbn [bind]).
  - destruct (note_velocity velocity unknownFlag) as (N & _ & _); [lia|].
    destruct (vl_write_ok duration ltac:(lia)) as (db & D). rewrite D.
    rewrite !int_bytes_ok by (p256; lia).
    replace (type <? 0) with false by lia. replace (127 <? type) with false by lia.
    replace (127 <? velocity) with false by lia. eexists. reflexivity.
  - destruct (vl_write_ok duration F) as (db & D). rewrite D. eexists. reflexivity.
  - rewrite instr_value' by lia. destruct (vl_write_ok (bankID * 128 + instrumentID)) as (db & D); [lia|].
    rewrite D. eexists. reflexivity.
  - rewrite !int_bytes_ok by (p256; lia). eexists. reflexivity.
  - rewrite !int_bytes_ok by (p256; lia). eexists. reflexivity.
  - rewrite !int_bytes_ok by (p256; lia). eexists. reflexivity.
  - destruct F as (S1 & S2 & S3 & S4 & S5). apply sub_args_nonneg in S2. unfold i16 in *.
    rewrite to_bytes_ok by (constructor; [unfold is_byte; lia|exact S3]).
    rewrite !pack_s_ok by (h8; lia). eexists. reflexivity.
  - destruct F as (S1 & S2). destruct unknown as [u|]; destruct S2 as [A S2]; rewrite A; unfold i8, i16 in *; cbn [negb];
      rewrite pack_u_ok by (p256; lia); rewrite !pack_s_ok by (h8; lia); eexists; reflexivity.
  - destruct F as (A & S1 & S2). unfold is_arith, i16 in *. rewrite int_bytes_ok by (p256; lia).
    rewrite pack_u_ok by (p256; lia). rewrite !pack_s_ok by (h8; lia). eexists. reflexivity.
  - destruct F as (A & S1 & _). unfold is_byte1 in *. rewrite !int_bytes_ok by (p256; lia). eexists. reflexivity.
  - destruct F as (A & S1). unfold is_word1 in *. rewrite int_bytes_ok by (p256; lia).
    rewrite pack_u_ok by (p256; lia). eexists. reflexivity.
  - unfold is_bare in F. rewrite int_bytes_ok by (p256; lia). eexists. reflexivity.
  - rewrite pack_u_ok by (p256; apply tracks_range). eexists. reflexivity.
  - eexists. reflexivity.
Qed.

Lemma get_cons {A} (x : A) l i : 1 <= i -> get (x :: l) i = get l (i - 1).
Proof. intros H. change (x :: l) with ([x] ++ l). rewrite get_skip by exact H. reflexivity. Qed.
Lemma get_0 {A} (x : A) l : get (x :: l) 0 = Ok x.
Proof. reflexivity. Qed.
Lemma unpack_u_cons n x l i : 1 <= i -> unpack_u n (x :: l) i = unpack_u n l (i - 1).
Proof. intros H. change (x :: l) with ([x] ++ l). rewrite unpack_u_skip by exact H. reflexivity. Qed.
Lemma unpack_s_cons n x l i : 1 <= i -> unpack_s n (x :: l) i = unpack_s n l (i - 1).
Proof. intros H. change (x :: l) with ([x] ++ l). rewrite unpack_s_skip by exact H. reflexivity. Qed.

(** reading the variable-length integer after a prefix *)
Lemma vl_read_at pre b post x off : vl_write x = Ok b -> x < 2 ^ 35 -> off = zlen pre ->
  vl_read (pre ++ b ++ post) off = Ok x.
Proof. intros W L ->. rewrite (vl_read_write _ _ _ _ W). destruct (Z.ltb_spec x (2 ^ 35)); [reflexivity|lia]. Qed.

Lemma fromData_save0 e e2o b post t :
  ev_fits e -> ev_small e -> has_ref e = false -> ev_type e = Some t ->
  ev_save e e2o = Ok b ->
  get (b ++ post) 0 = Ok t /\ fromData t (b ++ post) 0 = Ok e.
Proof.
  intros F L R T S. apply fits_b in F. destruct e; cbn [ev_fitsb has_ref ev_type ev_save ev_small] in *; try discriminate R; try discriminate T;
    injection T as <-; inv_bind; subst;
    repeat match goal with
    | H : int_bytes _ _ = Ok _ |- _ => apply int_bytes_inv in H as [? ->]
    | H : pack_s _ _ = Ok _ |- _ => apply pack_s_inv in H as [? ->]
    end; p256.
  - (* Note *)
    destruct (note_velocity velocity unknownFlag) as (N1 & N2 & N3); [lia|].
    rewrite !le_1 by lia. cbn [app].
    split; [reflexivity|].
    unfold fromData. replace (type <=? 127) with true by lia.
    rewrite get_cons, get_0 by lia. cbn [bind].
    match goal with |- context [vl_read (?a :: ?c :: ?d ++ post) _] =>
      change (a :: c :: d ++ post) with ([a; c] ++ d ++ post) end.
    rewrite (vl_read_at _ _ _ _ _ E4) by (reflexivity || lia). cbn [bind]. rewrite N2, N3. reflexivity.
  - split; [reflexivity|]. unfold fromData. cbn [app]. replace (128 <=? 127) with false by lia. cbn [Z.eqb Pos.eqb].
    change (0x80 :: v ++ post) with ([0x80] ++ v ++ post).
    rewrite (vl_read_at _ _ _ _ _ E) by (reflexivity || lia). reflexivity.
  - split; [reflexivity|]. unfold fromData. replace (129 <=? 127) with false by lia. cbn [Z.eqb Pos.eqb].
    change ((0x81 :: v) ++ post) with ([0x81] ++ v ++ post).
    rewrite instr_value' in E by lia.
    rewrite (vl_read_at _ _ _ _ _ E); [|lia|reflexivity]. cbn [bind].
    rewrite shr7, land127. f_equal. f_equal.
    + symmetry. apply Z.div_unique with instrumentID; lia.
    + symmetry. apply Z.mod_unique with bankID; lia.
  - (* Random *)
    destruct F as (S1 & S2 & S3 & S4 & S5). pose proof (sub_args_nonneg _ _ S2) as S0.
    unfold to_bytes in E. destruct (forallb byteb _); [|discriminate]. injection E as <-.
    split; [reflexivity|]. unfold fromData. replace (160 <=? 127) with false by lia. cbn [Z.eqb Pos.eqb].
    cbn [app]. rewrite get_cons, get_0 by lia. cbn [bind].
    rewrite (sub_args_random _ _ S2) by lia. cbn [bind].
    replace (6 + zlen args - 6) with (zlen args) by lia.
    rewrite (mapM_ext _ (fun i => get args i)).
    2:{ intros x Hx. apply in_range_z in Hx. rewrite !get_cons by lia.
        rewrite Z2Nat.id in Hx by apply zlen_nonneg.
        rewrite <- app_assoc. rewrite get_app_l by lia. f_equal. lia. }
    assert (EM : mapM (fun i => get args i) (range_z 0 (Z.to_nat (zlen args))) = Ok args).
    { apply mapM_range. split; [rewrite length_zlen; reflexivity|]. intros i Hi. reflexivity. }
    rewrite EM. cbn [bind]. rewrite !unpack_s_cons by zg.
    rewrite <- !app_assoc. rewrite !unpack_s_skip by zg.
    rewrite unpack_s2_hit by (unfold i16 in *; lia). cbn [bind].
    rewrite (unpack_s_skip 2 args) by zg.
    rewrite (unpack_s_skip 2 (le 2 _)) by (rewrite zlen_le; lia). rewrite zlen_le.
    rewrite unpack_s2_hit by (unfold i16 in *; lia). reflexivity.
  - (* FromVar *)
    destruct F as (S1 & S2). destruct unknown as [u|]; destruct S2 as [A S2]; rewrite A in S; unfold i8, i16 in *; cbn [negb] in S;
      inv_bind; subst;
      repeat match goal with H : pack_s _ _ = Ok _ |- _ => apply pack_s_inv in H as [? ->] end;
      p256; rewrite ?(le_1 subType) by lia; (split; [reflexivity|]); unfold fromData; cbn [app];
      replace (161 <=? 127) with false by lia; cbn [Z.eqb Pos.eqb]; rewrite get_cons, get_0 by lia; cbn [bind]; rewrite A;
      rewrite !unpack_s_cons by lia; rewrite <- ?app_assoc.
    + rewrite unpack_s1_hit by (lia). cbn [bind].
      rewrite (unpack_s_skip 1 (le 1 _)) by (rewrite zlen_le; lia). rewrite zlen_le.
      rewrite unpack_s1_hit by (lia). reflexivity.
    + rewrite unpack_s2_hit by (lia). reflexivity.
  - (* Arith *)
    destruct F as (A & S1 & S2). rewrite (le_1 type), (le_1 variableID) by lia.
    split; [reflexivity|]. unfold fromData. unfold i16 in *.
    assert (0xB0 <= type <= 0xBD) by (unfold is_arith in A; lia).
    rewrite A. cbn [app].
    replace (type <=? 127) with false by lia. replace (type =? 128) with false by lia.
    replace (type =? 129) with false by lia. replace (type =? 160) with false by lia.
    replace (type =? 161) with false by lia.
    rewrite unpack_u_cons, !unpack_s_cons by lia.
    change (variableID :: le 2 (value mod 65536) ++ post) with ([variableID] ++ le 2 (value mod 65536) ++ post).
    rewrite <- (le_1 variableID) by lia. rewrite (unpack_u_hit 1) by (p256; lia). cbn [bind].
    rewrite unpack_s2_hit by (lia). reflexivity.
  - (* Byte1 *)
    destruct F as (A & S1 & S2 & S3). rewrite !le_1 by lia.
    split; [reflexivity|]. unfold fromData. rewrite A.
    assert (0xC0 <= type /\ is_arith type = false) as [? AA] by (unfold is_byte1, is_arith in *; lia).
    rewrite AA. cbn [app].
    replace (type <=? 127) with false by lia. replace (type =? 128) with false by lia.
    replace (type =? 129) with false by lia. replace (type =? 160) with false by lia.
    replace (type =? 161) with false by lia.
    rewrite get_cons, get_0 by lia. cbn [bind].
    replace ((type =? 0xC7) && (1 <? value)) with false by lia.
    replace ((type =? 0xCC) && (2 <? value)) with false by lia. reflexivity.
  - (* Word1 *)
    destruct F as (A & S1). rewrite (le_1 type) by lia.
    split; [reflexivity|]. unfold fromData. rewrite A.
    assert (0xE1 <= type /\ is_arith type = false /\ is_byte1 type = false) as (? & A1 & A2)
      by (unfold is_word1, is_byte1, is_arith in *; lia).
    rewrite A1, A2. cbn [app].
    replace (type <=? 127) with false by lia. replace (type =? 128) with false by lia.
    replace (type =? 129) with false by lia. replace (type =? 160) with false by lia.
    replace (type =? 161) with false by lia.
    rewrite unpack_u_cons by lia. rewrite (unpack_u_hit 2) by (p256; lia). reflexivity.
  - (* Bare *)
    rewrite (le_1 type) by lia. split; [reflexivity|]. unfold fromData. rewrite F.
    assert (0xA2 <= type /\ is_arith type = false /\ is_byte1 type = false /\ is_word1 type = false) as (? & A1 & A2 & A3)
      by (unfold is_word1, is_byte1, is_arith, is_bare in *; lia).
    rewrite A1, A2, A3.
    replace (type <=? 127) with false by lia. replace (type =? 128) with false by lia.
    replace (type =? 129) with false by lia. replace (type =? 160) with false by lia.
    replace (type =? 161) with false by lia. reflexivity.
  - (* DefTracks *)
    split; [reflexivity|]. unfold fromData. cbn [app].
    change (254 <=? 127) with false. change (is_arith 254) with false. change (is_byte1 254) with false.
    change (is_word1 254) with false. change (is_bare 254) with false. cbn [Z.eqb Pos.eqb].
    rewrite unpack_u_cons by lia. rewrite (unpack_u_hit 2) by (p256; lia || apply tracks_range). cbn [bind].
    rewrite tracks_filter by tauto. reflexivity.
Qed.

Lemma fromData_save e e2o b pre post t :
  ev_fits e -> ev_small e -> has_ref e = false -> ev_type e = Some t ->
  ev_save e e2o = Ok b ->
  get (pre ++ b ++ post) (zlen pre) = Ok t /\ fromData t (pre ++ b ++ post) (zlen pre) = Ok e.
Proof.
  intros F L R T S. destruct (fromData_save0 e e2o b post t F L R T S) as [G D].
  split.
  - rewrite <- G. replace (zlen pre) with (zlen pre + 0) by lia. apply get_shift. lia.
  - rewrite <- D. replace (zlen pre) with (zlen pre + 0) by lia. apply fromData_shift. lia.
Qed.

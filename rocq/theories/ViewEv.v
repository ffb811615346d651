(** What arbitrary sequence data are read as, proofs for C115. *)
From Verif Require Import PyBase PyLemmas PyTac SeqModel SeqSpec SeqLemmas SeqTotal SeqGood RomSpec ViewSpec ViewSdatSpec ViewEvSpec ViewLemmas ViewFiles ViewSdat.

Lemma get_inv d o v : 0 <= o -> get d o = Ok v -> o < zlen d /\ v = byte d o.
Proof. intros O H. destruct (Z_lt_ge_dec o (zlen d)) as [L|L]; [|rewrite get_ge in H by lia; discriminate]. rewrite get_byte in H by lia. split; [exact L|congruence]. Qed.
Lemma land128 c : 0 <= c < 256 -> (Z.land c 0x80 =? 0) = (c <? 128).
Proof. intros C. apply (sweep 256 (fun c => Bool.eqb (Z.land c 0x80 =? 0) (c <? 128))) in C; [apply Bool.eqb_prop in C; exact C|vm_compute; reflexivity]. Qed.
Lemma part_cons d p n : 0 <= p < zlen d -> 0 < n -> part d p n = byte d p :: part d (p + 1) (n - 1).
Proof. intros P N. unfold part. rewrite skipn_byte by lia. replace (Z.to_nat n) with (S (Z.to_nat (n - 1))) by lia. cbn [firstn]. do 3 f_equal. lia. Qed.
Lemma vl_loop_iff fuel : forall d off v len r, is_bytes d -> 0 < off <= zlen d -> 0 <= len <= 4 -> 5 - len <= Z.of_nat fuel ->
  (vl_loop fuel d off v len = Ok r <->
   exists n, 0 <= n /\ len + n <= 4 /\ off + n <= zlen d /\ (forall i, 0 <= i < n -> 128 <= byte d (off - 1 + i)) /\ byte d (off - 1 + n) < 128 /\
     r = fold_left (fun v b => v * 128 + b mod 128) (part d off n) v).
Proof.
  induction fuel as [|k IH]; intros d off v len r B O L F; [lia|]. cbn [vl_loop]. rewrite get_byte by lia. cbn [bind]. rewrite land128 by (apply byte_range; [exact B|lia]).
  destruct (Z.ltb_spec (byte d (off - 1)) 128) as [LT|GE].
  - split; [intros [= <-]; exists 0; rewrite !Z.add_0_r; repeat split; try lia; reflexivity|]. intros (n & N0 & _ & _ & H & _ & E). destruct (Z.eq_dec n 0) as [N|N]; [rewrite N in E; rewrite E; reflexivity|]. specialize (H 0 ltac:(lia)). rewrite Z.add_0_r in H. lia.
  - destruct (Z_lt_ge_dec off (zlen d)) as [OL|OG].
    + rewrite get_byte by lia. cbn [bind]. replace (Z.lor (Z.shiftl v 7) (Z.land (byte d off) 127)) with (v * 128 + byte d off mod 128) by (rewrite Z.lor_comm, land127, lor_add by (change (2 ^ 7) with 128; pose proof (Z.mod_pos_bound (byte d off) 128 ltac:(lia)); lia); change (2 ^ 7) with 128; lia).
      destruct (Z.ltb_spec 4 (len + 1)) as [L4|L4].
      * split; [discriminate|]. intros (n & N0 & N4 & _ & H & H2 & _). assert (n = 0) by lia. subst n. rewrite Z.add_0_r in H2. lia.
      * rewrite IH by (assumption || lia). split; intros (n & N0 & N4 & NL & H & H2 & E).
        -- exists (n + 1). split; [lia|]. split; [lia|]. split; [lia|]. split; [|split].
           ++ intros i I. destruct (Z.eq_dec i 0) as [->|I0]; [rewrite Z.add_0_r; lia|]. replace (off - 1 + i) with (off + 1 - 1 + (i - 1)) by lia. apply H. lia.
           ++ replace (off - 1 + (n + 1)) with (off + 1 - 1 + n) by lia. exact H2.
           ++ rewrite part_cons by lia. replace (n + 1 - 1) with n by lia. exact E.
        -- destruct (Z.eq_dec n 0) as [->|N]; [rewrite Z.add_0_r in H2; lia|]. exists (n - 1). split; [lia|]. split; [lia|]. split; [lia|]. split; [|split].
           ++ intros i I. replace (off + 1 - 1 + i) with (off - 1 + (i + 1)) by lia. apply H. lia.
           ++ replace (off + 1 - 1 + (n - 1)) with (off - 1 + n) by lia. exact H2.
           ++ rewrite part_cons in E by lia. exact E.
    + rewrite get_ge by lia. cbn [bind]. split; [discriminate|]. intros (n & N0 & _ & NL & H & H2 & _). assert (n = 0) by lia. subst n. rewrite Z.add_0_r in H2. lia.
Qed.
Lemma number_iff d p v : is_bytes d -> 0 <= p -> (vl_read d p = Ok v <-> number d p v).
Proof.
  intros B P. unfold vl_read, number. destruct (Z_lt_ge_dec p (zlen d)) as [L|G].
  - rewrite get_byte by lia. cbn [bind]. rewrite vl_loop_iff by (assumption || lia). rewrite land127. split.
    + intros (n & N0 & N4 & NL & H & H2 & E). exists (n + 1). split; [lia|]. split; [lia|]. split; [|split].
      * intros i I. replace (p + i) with (p + 1 - 1 + i) by lia. apply H. lia.
      * replace (p + (n + 1) - 1) with (p + 1 - 1 + n) by lia. exact H2.
      * unfold septets. rewrite part_cons by lia. replace (n + 1 - 1) with n by lia. exact E.
    + intros (n & N & NL & H & H2 & E). exists (n - 1). split; [lia|]. split; [lia|]. split; [lia|]. split; [|split].
      * intros i I. replace (p + 1 - 1 + i) with (p + i) by lia. apply H. lia.
      * replace (p + 1 - 1 + (n - 1)) with (p + n - 1) by lia. exact H2.
      * unfold septets in E. rewrite part_cons in E by lia. exact E.
  - rewrite get_ge by lia. split; [discriminate|]. intros (n & N & NL & _). lia.
Qed.
Lemma sub_args_iff s n : 0 <= s < 256 -> (random_length s = Ok n <-> sub_args s = Some (n - 6)).
Proof.
  intros S. split; [apply random_sub; exact S|]. intros H. apply (sweep 256 (fun s => match sub_args s with Some k => match random_length s with Ok n => n =? k + 6 | Err _ => false end | None => true end)) in S; [|vm_compute; reflexivity].
  rewrite H in S. destruct (random_length s) as [m|]; [|discriminate]. apply Z.eqb_eq in S. f_equal. lia.
Qed.
Lemma signed_iff n w d p v : w = 8 * Z.of_nat n -> (0 < n)%nat -> is_bytes d -> 0 <= p -> (unpack_s n d p = Ok v <-> p + Z.of_nat n <= zlen d /\ v = signed w (unle (part d p (Z.of_nat n)))).
Proof.
  intros W N B P. unfold unpack_s. split.
  - intros H. apply bind_ok in H as (u & E & H). pose proof (unpack_u_lt _ _ _ _ P E) as L. split; [exact L|]. rewrite unpack_in in E by lia. injection E as <-. injection H as <-. apply signed_ok; [exact W|exact N|].
    pose proof (unle_range _ (is_bytes_part d p (Z.of_nat n) B)) as R. rewrite zlen_part in R by lia. subst w. rewrite Z.pow_mul_r by lia. exact R.
  - intros (L & ->). rewrite unpack_in by lia. cbn [bind]. f_equal. apply signed_ok; [exact W|exact N|].
    pose proof (unle_range _ (is_bytes_part d p (Z.of_nat n) B)) as R. rewrite zlen_part in R by lia. subst w. rewrite Z.pow_mul_r by lia. exact R.
Qed.
Lemma byte_unle d q : 0 <= q < zlen d -> unle (part d q 1) = byte d q.
Proof. intros Q. rewrite part_cons by lia. change (1 - 1) with 0. unfold part. change (Z.to_nat 0) with 0%nat. cbn [firstn unle]. lia. Qed.
Lemma half_unle d o : 0 <= o -> o + 2 <= zlen d -> half d o = unle (part d o 2).
Proof. intros. apply half_part; assumption. Qed.
Lemma tracks_eq v : filter (fun i => negb (Z.land v (Z.shiftl 1 i) =? 0)) (range_z 0 16) = filter (fun i => Z.testbit v i) (map Z.of_nat (seq 0 16)).
Proof.
  change (map Z.of_nat (seq 0 16)) with (range_z 0 16). assert (F : Forall (fun i => 0 <= i) (range_z 0 16)) by (repeat constructor; lia). induction (range_z 0 16) as [|i l IH]; [reflexivity|]. inversion F; subst. cbn [filter]. rewrite IH by assumption.
  replace (negb (Z.land v (Z.shiftl 1 i) =? 0)) with (Z.testbit v i); [reflexivity|]. rewrite Z.shiftl_1_l. destruct (Z.testbit v i) eqn:T; symmetry.
  - apply negb_true_iff. apply Z.eqb_neq. intros E. apply (f_equal (fun x => Z.testbit x i)) in E. rewrite Z.land_spec, T, Z.pow2_bits_true, Z.bits_0 in E by lia. discriminate.
  - apply negb_false_iff. apply Z.eqb_eq. apply Z.bits_inj'. intros n N. rewrite Z.land_spec, Z.bits_0. destruct (Z.eq_dec n i) as [->|NE]; [rewrite T; reflexivity|rewrite Z.pow2_bits_false by lia; apply andb_false_r].
Qed.
Lemma part_bytes d p (n : nat) l : 0 <= p -> mapM (fun i => get d (p + i)) (range_z 0 n) = Ok l <-> p + Z.of_nat n <= Z.max p (zlen d) /\ l = part d p (Z.of_nat n).
Proof.
  revert p l. induction n as [|n IH]; intros p l P.
  - cbn [range_z mapM]. unfold part. change (Z.to_nat (Z.of_nat 0)) with 0%nat. cbn [firstn]. split; [intros [= <-]; split; [lia|reflexivity]|intros (_ & ->); reflexivity].
  - cbn [range_z mapM]. assert (SH : mapM (fun i => get d (p + i)) (range_z (0 + 1) n) = mapM (fun i => get d (p + 1 + i)) (range_z 0 n)).
    { clear IH P. generalize 0. induction n as [|n IH]; intros z; [reflexivity|]. cbn [range_z mapM]. rewrite IH. replace (p + (z + 1)) with (p + 1 + z) by lia. reflexivity. }
    rewrite SH. rewrite Z.add_0_r. destruct (Z_lt_ge_dec p (zlen d)) as [L|G].
    + rewrite get_byte by lia. cbn [bind]. split.
      * intros H. apply bind_ok in H as (l' & E & H). injection H as <-. apply IH in E as (E1 & ->); [|lia]. split; [lia|]. rewrite (part_cons d p) by lia. do 2 f_equal. lia.
      * intros (E1 & ->). rewrite (part_cons d p) by lia. replace (Z.of_nat (S n) - 1) with (Z.of_nat n) by lia. assert (L2 : p + 1 + Z.of_nat n <= Z.max (p + 1) (zlen d)) by lia. rewrite (proj2 (IH (p + 1) (part d (p + 1) (Z.of_nat n)) ltac:(lia)) (conj L2 eq_refl)). reflexivity.
    + rewrite get_ge by lia. cbn [bind]. split; [discriminate|]. lia.
Qed.
Lemma flag_eq b : 0 <= b < 256 -> b = Z.land b 0x7F + (if negb (Z.land b 0x80 =? 0) then 128 else 0) /\ 0 <= Z.land b 0x7F < 128.
Proof. intros B. rewrite land127, land128 by lia. destruct (Z.ltb_spec b 128); cbn [negb]; pose proof (Z.div_mod b 128 ltac:(lia)); pose proof (Z.mod_pos_bound b 128 ltac:(lia)); lia. Qed.
Lemma flag_back v (f : bool) : 0 <= v < 128 -> Z.land (v + (if f then 128 else 0)) 0x7F = v /\ negb (Z.land (v + (if f then 128 else 0)) 0x80 =? 0) = f.
Proof. intros V. rewrite land127, land128 by (destruct f; lia). destruct f; [split; [lia|]|split; [lia|]]; [rewrite (proj2 (Z.ltb_ge _ _)) by lia|rewrite (proj2 (Z.ltb_lt _ _)) by lia]; reflexivity. Qed.
Lemma is_bare_in t : is_bare t = true <-> In t [0xA2; 0xFC; 0xFD; 0xFF].
Proof. unfold is_bare. cbn [In]. rewrite !orb_true_iff, !Z.eqb_eq. intuition lia. Qed.
Lemma is_arith_iff t : is_arith t = true <-> 0xB0 <= t <= 0xBD.
Proof. unfold is_arith. rewrite andb_true_iff, !Z.leb_le. lia. Qed.
Lemma is_byte1_iff t : is_byte1 t = true <-> 0xC0 <= t <= 0xD6 \/ t = 0xE0.
Proof. unfold is_byte1. rewrite orb_true_iff, andb_true_iff, !Z.leb_le, Z.eqb_eq. lia. Qed.
Lemma is_word1_iff t : is_word1 t = true <-> t = 0xE1 \/ t = 0xE3.
Proof. unfold is_word1. rewrite orb_true_iff, !Z.eqb_eq. lia. Qed.
Ltac bno := match goal with |- context [if ?c then _ else _] => replace c with false by (symmetry; first [apply Z.leb_gt; lia|apply Z.eqb_neq; lia|apply not_true_iff_false; rewrite ?is_arith_iff, ?is_byte1_iff, ?is_word1_iff, ?is_bare_in; cbn [In]; lia]) end.
Lemma event_iff d p e : is_bytes d -> 0 <= p < zlen d -> (fromData (byte d p) d p = Ok e <-> says d p e /\ has_ref e = false).
Proof.
  intros B P. pose proof (byte_range d p B P) as T. split.
  - intros H. unfold fromData in H. unfold says.
    destruct (Z.leb_spec (byte d p) 0x7F) as [T1|T1].
    { apply bind_ok in H as (v & E1 & H). apply bind_ok in H as (l & E2 & H). apply SeqRead.ok_inj in H. rewrite <- H. apply get_inv in E1 as (L1 & ->); [|lia]. apply number_iff in E2; [|exact B|lia]. destruct (flag_eq (byte d (p + 1)) (byte_range d (p + 1) B ltac:(lia))) as (F1 & F2).
      split; [|reflexivity]. split; [lia|]. split; [reflexivity|]. split; [lia|]. split; [lia|]. split; [exact F1|]. split; [exact F2|exact E2]. }
    destruct (Z.eqb_spec (byte d p) 0x80) as [T2|T2].
    { apply bind_ok in H as (l & E2 & H). apply SeqRead.ok_inj in H. rewrite <- H. apply number_iff in E2; [|exact B|lia]. split; [|reflexivity]. split; [lia|]. split; [exact T2|exact E2]. }
    destruct (Z.eqb_spec (byte d p) 0x81) as [T3|T3].
    { apply bind_ok in H as (l & E2 & H). apply SeqRead.ok_inj in H. rewrite <- H. apply number_iff in E2; [|exact B|lia]. split; [|reflexivity]. split; [lia|]. split; [exact T3|]. rewrite land127, shr7. split; [apply Z.mod_pos_bound; lia|]. rewrite <- Z.div_mod by lia. exact E2. }
    destruct (Z.eqb_spec (byte d p) 0xA0) as [T4|T4].
    { apply bind_ok in H as (s & E1 & H). apply get_inv in E1 as (L1 & ->); [|lia]. apply bind_ok in H as (n & E2 & H). apply bind_ok in H as (args & E3 & H). apply bind_ok in H as (lo & E4 & H). apply bind_ok in H as (hi & E5 & H). apply SeqRead.ok_inj in H. rewrite <- H.
      pose proof (random_length_ge _ _ E2) as N6. apply sub_args_iff in E2; [|apply byte_range; [exact B|lia]]. apply part_bytes in E3 as (L3 & E3); [|lia]. apply (signed_iff 2 16) in E4 as (L4 & ->); [|reflexivity|lia|exact B|lia]. apply (signed_iff 2 16) in E5 as (L5 & ->); [|reflexivity|lia|exact B|lia]. change (Z.of_nat 2) with 2 in *. rewrite Z2Nat.id in * by lia.
      assert (ZA : zlen args = n - 6) by (rewrite E3; apply zlen_part; lia). split; [|reflexivity]. split; [lia|]. rewrite ZA. split; [exact T4|]. split; [reflexivity|]. split; [exact E2|]. split; [exact E3|]. split; [lia|]. rewrite !half_unle by lia. split; [reflexivity|]. do 3 f_equal. lia. }
    destruct (Z.eqb_spec (byte d p) 0xA1) as [T5|T5].
    { apply bind_ok in H as (s & E1 & H). apply get_inv in E1 as (L1 & ->); [|lia]. destruct (is_arith (byte d (p + 1))) eqn:IA.
      - apply is_arith_iff in IA. apply bind_ok in H as (u & E2 & H). apply bind_ok in H as (v & E3 & H). apply SeqRead.ok_inj in H. rewrite <- H. apply (signed_iff 1 8) in E2 as (L2 & ->); [|reflexivity|lia|exact B|lia]. apply (signed_iff 1 8) in E3 as (L3 & ->); [|reflexivity|lia|exact B|lia]. change (Z.of_nat 1) with 1 in *.
        rewrite !byte_unle by lia. split; [|reflexivity]. repeat (split; [first [lia|reflexivity|assumption]|]). reflexivity.
      - assert (NA : ~ (0xB0 <= byte d (p + 1) <= 0xBD)) by (rewrite <- is_arith_iff; congruence). apply bind_ok in H as (v & E3 & H). apply SeqRead.ok_inj in H. rewrite <- H. apply (signed_iff 2 16) in E3 as (L3 & ->); [|reflexivity|lia|exact B|lia]. change (Z.of_nat 2) with 2 in *. split; [|reflexivity]. rewrite half_unle by lia. repeat (split; [first [lia|reflexivity|assumption]|]). reflexivity. }
    destruct (is_arith (byte d p)) eqn:IA.
    { apply is_arith_iff in IA. apply bind_ok in H as (v & E2 & H). apply bind_ok in H as (w & E3 & H). apply SeqRead.ok_inj in H. rewrite <- H. apply byte_inv in E2 as (L2 & ->); [|lia]. apply (signed_iff 2 16) in E3 as (L3 & ->); [|reflexivity|lia|exact B|lia]. change (Z.of_nat 2) with 2 in *. split; [|reflexivity]. rewrite half_unle by lia. repeat (split; [first [lia|reflexivity|assumption]|]). reflexivity. }
    destruct (is_byte1 (byte d p)) eqn:IB.
    { apply is_byte1_iff in IB. apply bind_ok in H as (v & E2 & H). apply get_inv in E2 as (L2 & ->); [|lia]. apply bind_ok in H as (u1 & G1 & H). apply bind_ok in H as (u2 & G2 & H). apply SeqRead.ok_inj in H. rewrite <- H. apply guard_inv in G1, G2. split; [|reflexivity]. repeat (split; [first [lia|reflexivity|assumption]|]).
      intros TT. lia. }
    destruct (is_word1 (byte d p)) eqn:IW.
    { apply is_word1_iff in IW. apply bind_ok in H as (v & E2 & H). apply half_inv in E2 as (L2 & ->); [|lia]. apply SeqRead.ok_inj in H. rewrite <- H. split; [|reflexivity]. repeat (split; [first [lia|reflexivity|assumption]|]). reflexivity. }
    destruct (is_bare (byte d p)) eqn:IR.
    { apply is_bare_in in IR. apply SeqRead.ok_inj in H. rewrite <- H. split; [|reflexivity]. split; [lia|]. split; [reflexivity|exact IR]. }
    destruct (Z.eqb_spec (byte d p) 0xFE) as [T6|T6]; [|discriminate].
    apply bind_ok in H as (v & E2 & H). apply half_inv in E2 as (L2 & ->); [|lia]. apply SeqRead.ok_inj in H. rewrite <- H. rewrite tracks_eq. split; [|reflexivity]. repeat (split; [first [lia|reflexivity|assumption]|]). reflexivity.
  - intros ((_ & S) & R). unfold fromData. destruct e as [t v f l|l|b i|n r|r|r|s args lo hi|s v u|t v w|t v|t v|t|ts|b]; cbn [has_ref] in R; try discriminate R.
    + destruct S as (S1 & S2 & S3 & S4 & S5 & S6). rewrite S1. rewrite (proj2 (Z.leb_le _ _)) by lia. rewrite get_byte by lia. cbn [bind]. apply number_iff in S6; [|exact B|lia]. rewrite S6. cbn [bind]. rewrite S4. destruct (flag_back v f S5) as (F1 & F2). rewrite F1, F2. reflexivity.
    + destruct S as (S1 & S2). rewrite S1. cbn [Z.leb Z.compare Pos.compare Pos.compare_cont Z.eqb Pos.eqb]. apply number_iff in S2; [|exact B|lia]. rewrite S2. reflexivity.
    + destruct S as (S1 & S2 & S3). rewrite S1. cbn [Z.leb Z.compare Pos.compare Pos.compare_cont Z.eqb Pos.eqb]. apply number_iff in S3; [|exact B|lia]. rewrite S3. cbn [bind]. rewrite land127, shr7. replace ((128 * b + i) / 128) with b by lia. replace ((128 * b + i) mod 128) with i by lia. reflexivity.
    + destruct S as (S1 & S2 & S3 & S4 & S5 & S6 & S7). rewrite S1. change (0xA0 <=? 0x7F) with false. change (0xA0 =? 0x80) with false. change (0xA0 =? 0x81) with false. change (0xA0 =? 0xA0) with true. cbv iota. pose proof (zlen_nonneg args) as ZA. rewrite get_byte by lia. cbn [bind]. rewrite <- S2.
      rewrite (proj2 (sub_args_iff s (zlen args + 6) ltac:(rewrite S2; apply byte_range; [exact B|lia]))) by (rewrite S3; f_equal; lia). cbn [bind]. replace (zlen args + 6 - 6) with (zlen args) by lia.
      assert (PB : mapM (fun i => get d (p + 2 + i)) (range_z 0 (Z.to_nat (zlen args))) = Ok args) by (apply part_bytes; [lia|rewrite Z2Nat.id by lia; split; [lia|exact S4]]). rewrite PB. cbn [bind]. rewrite half_unle in S6, S7 by lia.
      assert (U1 : unpack_s 2 d (p + 2 + zlen args) = Ok lo) by (apply (signed_iff 2 16); [reflexivity|lia|exact B|lia|split; [lia|exact S6]]). assert (U2 : unpack_s 2 d (p + 2 + zlen args + 2) = Ok hi) by (apply (signed_iff 2 16); [reflexivity|lia|exact B|lia|split; [lia|rewrite S7; change (Z.of_nat 2) with 2; do 3 f_equal; lia]]). rewrite U1. cbn [bind]. rewrite U2. reflexivity.
    + destruct u as [u|].
      * destruct S as (S1 & S2 & S3 & S4 & S5 & S6). rewrite S1. change (0xA1 <=? 0x7F) with false. change (0xA1 =? 0x80) with false. change (0xA1 =? 0x81) with false. change (0xA1 =? 0xA0) with false. change (0xA1 =? 0xA1) with true. cbv iota. rewrite get_byte by lia. cbn [bind]. rewrite <- S2. rewrite (proj2 (is_arith_iff s)) by exact S3.
        assert (P1 : forall q, 0 <= q < zlen d -> unle (part d q 1) = byte d q) by (intros q Q; rewrite part_cons by lia; change (1 - 1) with 0; unfold part; change (Z.to_nat 0) with 0%nat; cbn [firstn unle]; lia).
        assert (U1 : unpack_s 1 d (p + 2) = Ok u) by (apply (signed_iff 1 8); [reflexivity|lia|exact B|lia|split; [lia|change (Z.of_nat 1) with 1; rewrite P1 by lia; exact S5]]). assert (U2 : unpack_s 1 d (p + 3) = Ok v) by (apply (signed_iff 1 8); [reflexivity|lia|exact B|lia|split; [lia|change (Z.of_nat 1) with 1; rewrite P1 by lia; exact S6]]). rewrite U1. cbn [bind]. rewrite U2. reflexivity.
      * destruct S as (S1 & S2 & S3 & S4 & S5). rewrite S1. change (0xA1 <=? 0x7F) with false. change (0xA1 =? 0x80) with false. change (0xA1 =? 0x81) with false. change (0xA1 =? 0xA0) with false. change (0xA1 =? 0xA1) with true. cbv iota. rewrite get_byte by lia. cbn [bind]. rewrite <- S2.
        replace (is_arith s) with false by (symmetry; apply not_true_iff_false; rewrite is_arith_iff; exact S3). rewrite half_unle in S5 by lia. assert (U1 : unpack_s 2 d (p + 2) = Ok v) by (apply (signed_iff 2 16); [reflexivity|lia|exact B|lia|split; [lia|exact S5]]). rewrite U1. reflexivity.
    + destruct S as (S1 & S2 & S3 & S4 & S5). rewrite S1. do 5 bno. rewrite (proj2 (is_arith_iff t)) by exact S2. rewrite unpack_byte by lia. cbn [bind]. rewrite half_unle in S5 by lia. assert (U1 : unpack_s 2 d (p + 2) = Ok w) by (apply (signed_iff 2 16); [reflexivity|lia|exact B|lia|split; [lia|exact S5]]). rewrite U1. cbn [bind]. rewrite S4. reflexivity.
    + destruct S as (S1 & S2 & S3 & S4 & S5 & S6). rewrite S1. do 6 bno. rewrite (proj2 (is_byte1_iff t)) by exact S2. rewrite get_byte by lia. cbn [bind]. rewrite <- S4. replace ((t =? 0xC7) && (1 <? v)) with false by (symmetry; apply andb_false_iff; destruct (Z.eqb_spec t 0xC7) as [E|E]; [right; apply Z.ltb_ge; auto|left; reflexivity]).
      replace ((t =? 0xCC) && (2 <? v)) with false by (symmetry; apply andb_false_iff; destruct (Z.eqb_spec t 0xCC) as [E|E]; [right; apply Z.ltb_ge; auto|left; reflexivity]). reflexivity.
    + destruct S as (S1 & S2 & S3 & S4). rewrite S1. do 7 bno. rewrite (proj2 (is_word1_iff t)) by exact S2. rewrite unpack_half by lia. cbn [bind]. rewrite S4. reflexivity.
    + destruct S as (S1 & S2). rewrite S1. pose proof (proj2 (is_bare_in t) S2) as IB. cbn [In] in S2. do 8 bno. rewrite IB. reflexivity.
    + destruct S as (S1 & S2 & S3). rewrite S1. change (0xFE <=? 0x7F) with false. change (is_arith 0xFE) with false. change (is_byte1 0xFE) with false. change (is_word1 0xFE) with false. change (is_bare 0xFE) with false. cbn [Z.eqb Pos.eqb]. rewrite unpack_half by lia. cbn [bind]. rewrite tracks_eq, S3. reflexivity.
    + destruct S.
Qed.

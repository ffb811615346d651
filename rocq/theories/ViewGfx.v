(** What arbitrary palettes, tiles and tile maps are read as, proofs for C116. *)
From Verif Require Import PyBase PyLemmas PyTac ColorModel Gfx2DModel RomSpec ViewSpec ViewGfxSpec ViewLemmas ViewFiles ViewEv.

Lemma land31 x : Z.land x 0x1F = x mod 32.
Proof. change 0x1F with (Z.ones 5). rewrite Z.land_ones by lia. reflexivity. Qed.
Lemma shr_div x k : 0 <= k -> Z.shiftr x k = x / 2 ^ k.
Proof. intros. apply Z.shiftr_div_pow2. assumption. Qed.
Lemma unpack_colour h : 0 <= h < 65536 -> unpack h = colour h.
Proof.
  intros H. unfold unpack, colour. rewrite !land31, !shr_div by lia. change (2 ^ 5) with 32. change (2 ^ 10) with 1024. change (2 ^ 15) with 32768. change 1 with (Z.ones 1) at 1. rewrite Z.land_ones by lia. change (2 ^ 1) with 2.
  rewrite (Z.mod_small (h / 32768)); [reflexivity|]. split; [apply Z.div_pos; lia|apply Z.div_lt_upper_bound; lia].
Qed.
Lemma palette_view d : is_bytes d -> loadPalette d = Ok (colours d).
Proof.
  intros B. unfold loadPalette, colours. pose proof (Z.mul_div_le (zlen d) 2 ltac:(lia)) as L. pose proof (zlen_nonneg d) as ZD.
  rewrite (mapM_range _ (fun i => half d (2 * Z.of_nat i))) by (intros i I; apply unpack_half; lia). cbn [bind]. f_equal. rewrite map_map. apply map_ext_in. intros i I. apply in_seq in I. apply unpack_colour. apply half_range; [exact B|lia|lia].
Qed.
Lemma mtile16 h : 0 <= h < 65536 -> mtile_new h M16 = entry h.
Proof.
  intros H. unfold mtile_new, mtile_set_format, mtile_set_value, mtile_default, entry. cbn [mFormat mTileNum mHFlip mVFlip mPalette]. change 0x3FF with (Z.ones 10). change 0xF with (Z.ones 4). rewrite !Z.land_ones, shr_div by lia. change (2 ^ 10) with 1024. change (2 ^ 4) with 16. change (2 ^ 12) with 4096.
  rewrite (Z.mod_small (h / 4096)) by (split; [apply Z.div_pos; lia|apply Z.div_lt_upper_bound; lia]).
  assert (G : forall k, 0 <= k -> negb (Z.land h (2 ^ k) =? 0) = (h / 2 ^ k mod 2 =? 1)).
  { intros k K. replace (h / 2 ^ k mod 2) with (Z.b2z (Z.testbit h k)) by (rewrite Z.testbit_spec' by lia; reflexivity). destruct (Z.testbit h k) eqn:T; cbn [Z.b2z Z.eqb Pos.eqb].
    - apply negb_true_iff, Z.eqb_neq. intros E. apply (f_equal (fun x => Z.testbit x k)) in E. rewrite Z.land_spec, T, Z.pow2_bits_true, Z.bits_0 in E by lia. discriminate.
    - apply negb_false_iff, Z.eqb_eq. apply Z.bits_inj'. intros n N. rewrite Z.land_spec, Z.bits_0. destruct (Z.eq_dec n k) as [->|NE]; [rewrite T; reflexivity|rewrite Z.pow2_bits_false by lia; apply andb_false_r]. }
  pose proof (G 10 ltac:(lia)) as G1. pose proof (G 11 ltac:(lia)) as G2. change (2 ^ 10) with 1024 in G1. change (2 ^ 11) with 2048 in G2. rewrite G1, G2. reflexivity.
Qed.
Lemma tilemap16_view d : is_bytes d -> loadTilemapTiles d M16 = if zlen d mod 2 =? 0 then Ok (entries_in d) else Err StructError.
Proof.
  intros B. unfold loadTilemapTiles, entries_in. pose proof (zlen_nonneg d) as ZD. destruct (Z.eqb_spec (zlen d mod 2) 0) as [E|E].
  - replace ((zlen d + 1) / 2) with (zlen d / 2) by lia. rewrite (mapM_range _ (fun i => mtile_new (half d (2 * Z.of_nat i)) M16)) by (intros i I; rewrite unpack_half by lia; reflexivity). f_equal. apply map_ext_in. intros i I. apply in_seq in I. apply mtile16. apply half_range; [exact B|lia|lia].
  - apply Gfx2DLemmas.tilemap_odd. lia.
Qed.
Lemma tilemap8_view d : is_bytes d -> loadTilemapTiles d M8 = Ok (map entry8 d).
Proof.
  intros B. unfold loadTilemapTiles. f_equal. apply map_ext_in. intros b I. unfold is_bytes in B. rewrite Forall_forall in B. specialize (B b I). unfold is_byte in B.
  apply (sweep 256 (fun b => let t := mtile_new b M8 in (mTileNum t =? b) && negb (mHFlip t) && negb (mVFlip t) && (mPalette t =? 0))) in B; [|vm_compute; reflexivity]. cbv zeta in B. rewrite !andb_true_iff, !negb_true_iff, !Z.eqb_eq in B. destruct B as (((B1 & B2) & B3) & B4). unfold entry8. rewrite <- B1 at 2. rewrite <- B2 at 1. rewrite <- B3 at 1. rewrite <- B4 at 1.
  unfold mtile_new, mtile_set_format, mtile_set_value, mtile_default. cbn [mFormat mTileNum mHFlip mVFlip mPalette] in *. congruence.
Qed.
Lemma nibbles_seq (l : bytes) : is_bytes l -> flat_map (fun b => [Z.land b 0xF; Z.shiftr b 4]) l =
  map (fun n => let b := nth (n / 2) l 0 in if (n mod 2 =? 0)%nat then b mod 16 else b / 16) (seq 0 (2 * length l)).
Proof.
  induction l as [|b l IH]; intros B; [reflexivity|]. inversion B; subst. cbn [flat_map length app]. replace (2 * S (length l))%nat with (S (S (2 * length l))) by lia. cbn [seq map]. replace (Z.land b 0xF) with (b mod 16) by (change 0xF with (Z.ones 4); rewrite Z.land_ones by lia; reflexivity). rewrite (shr_div b) by lia. cbv zeta. change (0 / 2)%nat with 0%nat. change (1 / 2)%nat with 0%nat. change (0 mod 2 =? 0)%nat with true. change (1 mod 2 =? 0)%nat with false. cbn [nth]. f_equal. f_equal.
  rewrite IH by assumption. rewrite <- seq_shift, <- (seq_shift _ 0), !map_map. apply map_ext. intros n. replace (S (S n) / 2)%nat with (S (n / 2)) by (replace (S (S n)) with (n + 1 * 2)%nat by lia; rewrite Nat.div_add by lia; lia). replace (S (S n) mod 2)%nat with (n mod 2)%nat by (replace (S (S n)) with (n + 1 * 2)%nat by lia; rewrite Nat.mod_add by lia; reflexivity). reflexivity.
Qed.
Lemma bytes_seq (l : bytes) : l = map (fun n => nth n l 0) (seq 0 (length l)).
Proof. induction l as [|b l IH]; [reflexivity|]. cbn [length seq map nth]. f_equal. rewrite <- seq_shift, map_map. exact IH. Qed.
Lemma tiles_view d f : is_bytes d -> loadImageTiles d f = Ok (tiles_in f d).
Proof.
  intros B. unfold loadImageTiles, tiles_in. cbv zeta. set (bpt := match f with FI4 => 32 | FI8 => 64 end). pose proof (zlen_nonneg d) as ZD. assert (BP : 32 <= bpt) by (unfold bpt; destruct f; lia). pose proof (Z.mul_div_le (zlen d) bpt ltac:(lia)) as L.
  apply mapM_range. intros k K. assert (KL : (Z.of_nat k + 1) * bpt <= zlen d). { assert (Z.of_nat k + 1 <= zlen d / bpt) by lia. nia. }
  rewrite slice_part by lia. replace (Z.of_nat k * bpt + bpt - Z.of_nat k * bpt) with bpt by lia. set (p := part d (Z.of_nat k * bpt) bpt). assert (ZP : zlen p = bpt) by (apply zlen_part; nia).
  assert (NP : forall n, (n < Z.to_nat bpt)%nat -> nth n p 0 = byte d (Z.of_nat k * bpt + Z.of_nat n)) by (intros n N; unfold p; rewrite <- byte_in with (n := bpt) by nia; unfold byte; rewrite Nat2Z.id; reflexivity).
  assert (PB : is_bytes p) by (apply is_bytes_part; exact B). unfold itile_new. destruct f; cbv iota in bpt; subst bpt; rewrite ZP; cbn [Z.eqb Pos.eqb negb]; do 2 f_equal.
  - rewrite (bytes_seq p). assert (LP : length p = 64%nat) by (unfold zlen in ZP; lia). rewrite LP. apply map_ext_in. intros n N. apply in_seq in N. unfold pixel. rewrite NP by lia. f_equal. lia.
  - rewrite nibbles_seq by exact PB. assert (LP : length p = 32%nat) by (unfold zlen in ZP; lia). rewrite LP. apply map_ext_in. intros n N. apply in_seq in N. unfold pixel. cbv zeta. rewrite NP by (apply Nat.div_lt_upper_bound; lia). rewrite Nat2Z.inj_div, <- Z.mul_comm. change (Z.of_nat 2) with 2.
    replace (Z.of_nat n mod 2 =? 0) with (n mod 2 =? 0)%nat; [reflexivity|]. change 2 with (Z.of_nat 2). rewrite <- (Nat2Z.inj_mod n 2). destruct (Nat.eqb_spec (n mod 2) 0) as [E|E]; symmetry; [apply Z.eqb_eq|apply Z.eqb_neq]; lia.
Qed.

(** How wave files, wave archives and streams are read, proofs for C107. *)
From Coq Require Import String.
From Verif Require Import PyBase PyLemmas PyTac CommonModel WaveModel RomSpec ViewSpec ViewLemmas ViewFiles.

Lemma prefixb_firstn (p l : bytes) : prefixb p l = true <-> firstn (List.length p) l = p.
Proof.
  revert l. induction p as [|x p IH]; intros l; [split; reflexivity|]. destruct l as [|y l]; [split; discriminate|].
  cbn [prefixb List.length firstn]. rewrite andb_true_iff, IH, Z.eqb_eq. split; [intros (-> & ->); reflexivity|]. intros H. injection H as -> H. split; [reflexivity|exact H].
Qed.
Lemma prefixb_part d (s : bytes) : List.length s = 4%nat -> prefixb s d = true <-> part d 0 4 = s.
Proof. intros L. rewrite prefixb_firstn, L. reflexivity. Qed.
Lemma std_view d : 16 <= zlen d -> std_unpack d =
  Ok {| hMagic := part d 0 4; hBom := half d 4; hVersion := half d 6; hSize := word d 8; hHeaderSize := half d 12; hBlocks := half d 14 |}.
Proof. intros L. unfold std_unpack. repeat fwd. reflexivity. Qed.
Lemma std_inv d h : std_unpack d = Ok h -> 16 <= zlen d /\
  h = {| hMagic := part d 0 4; hBom := half d 4; hVersion := half d 6; hSize := word d 8; hHeaderSize := half d 12; hBlocks := half d 14 |}.
Proof. intros H. unfold std_unpack in H. repeat stp H. injection H as <-. split; [lia|reflexivity]. Qed.
Lemma wt_view v t : wt_of v = Ok t <-> wt_val t = v.
Proof.
  unfold wt_of. destruct (Z.eqb_spec v 0) as [->|A]; [|destruct (Z.eqb_spec v 1) as [->|B]; [|destruct (Z.eqb_spec v 2) as [->|C]]]; destruct t; cbn [wt_val]; split; intros H; congruence || lia.
Qed.

Lemma info_view d o rest w : 0 <= o -> swav_info d o rest = Ok w <-> o + 12 <= zlen d /\
  wt_val (wType w) = byte d o /\ wLooped w = negb (byte d (o + 1) =? 0) /\ wRate w = half d (o + 2) /\ wTime w = half d (o + 4) /\
  wLoop w = half d (o + 6) /\ wTotal w = half d (o + 6) + word d (o + 8) /\ wData w = rest.
Proof.
  intros O. split.
  - intros H. unfold swav_info in H. repeat stp H. apply bind_ok in H as (t & T & H). apply wt_view in T. injection H as <-. cbn. split; [lia|]. tauto.
  - intros (L & T & E). apply wt_view in T. unfold swav_info. repeat fwd. rewrite T. cbn [bind]. destruct w. cbn in *. destruct E as (-> & -> & -> & -> & -> & ->). reflexivity.
Qed.

Ltac head_fwd := match goal with A : part ?d 0 4 = asc ?m, B : half ?d 6 = _ |- _ =>
  rewrite (proj2 (prefixb_part d (asc m) eq_refl) A); cbn [guard bind]; rewrite (std_view d) by lia; cbn [bind hVersion hMagic hSize]; rewrite A, B; rewrite (beq_refl (asc m)); cbn [guard bind Z.eqb Pos.eqb] end.

Lemma swav_view d w : is_bytes d -> swav_load d = Ok w <-> swav_shape d /\ wave_at d 0x18 (word d 8 - 0x18) w.
Proof.
  intros B. unfold swav_shape, sound_head, wave_at. split.
  - intros H. unfold swav_load in H. stp H. apply prefixb_part in G; [|reflexivity]. apply bind_ok in H as (h & S & H). apply std_inv in S as (L & ->). cbn [hVersion hMagic hSize] in H. repeat stp H.
    apply Z.eqb_eq in G0. apply beq_eq in G2. apply info_view in H; [|lia]. pose proof (word_range d 8 B ltac:(lia) ltac:(lia)). rewrite slice_part in H by lia.
    replace (word d 8 - 0x24) with (word d 8 - 0x18 - 12) in H by lia. split; [|exact (proj2 H)]. split; [|lia]. split; [lia|]. split; [exact G|]. split; [exact G0|exact G2].
  - intros (((L0 & M & V & D) & L) & W). pose proof (word_range d 8 B ltac:(lia) ltac:(lia)). unfold swav_load. head_fwd. repeat fwd. rewrite D, beq_refl. cbn [guard bind].
    apply info_view; [lia|]. split; [lia|]. rewrite slice_part by lia. replace (word d 8 - 0x24) with (word d 8 - 0x18 - 12) by lia. exact W.
Qed.

Lemma loadWave_view d n i w : is_bytes d -> (i < n)%nat -> 0x0C <= zlen d -> swar_loadWave d (word d 8) (Z.of_nat n) (Z.of_nat i) = Ok w <->
  0x44 + 4 * Z.of_nat i <= zlen d /\ (let o := word d (0x3C + 4 * Z.of_nat i) in
  let e := if Z.of_nat i =? Z.of_nat n - 1 then word d 8 else word d (0x40 + 4 * Z.of_nat i) in
  12 <= e - o /\ o + 12 <= zlen d /\ wave_at d o (e - o) w).
Proof.
  intros B I L0. cbv zeta. unfold wave_at. replace (0x40 + 4 * Z.of_nat i) with (0x3C + 4 * Z.of_nat i + 4) by lia.
  assert (K : 0x44 + 4 * Z.of_nat i <= zlen d -> forall o e, o = word d (0x3C + 4 * Z.of_nat i) -> e = (if Z.of_nat i =? Z.of_nat n - 1 then word d 8 else word d (0x3C + 4 * Z.of_nat i + 4)) ->
    swav_info (slice d o e) 0 (slice_from (slice d o e) 12) = Ok w <-> 12 <= e - o /\ o + 12 <= zlen d /\ wave_at d o (e - o) w).
  { intros L o e Eo Ee. assert (Ro : 0 <= o) by (subst o; apply word_range; [exact B|lia|lia]). assert (Re : 0 <= e) by (subst e; destruct (_ =? _); apply word_range; try exact B; lia). clear Eo Ee.
    rewrite info_view by lia. rewrite slice_part by lia. unfold wave_at.
    destruct (Z.le_gt_cases 12 (e - o)) as [E|E].
    2:{ split; [intros (A & _)|intros (A & _); lia]. destruct (Z.le_gt_cases 0 (e - o)); [rewrite zlen_part_min in A by lia; lia|]. unfold part in A. replace (Z.to_nat (e - o)) with 0%nat in A by lia. unfold zlen in A. cbn in A. lia. }
    rewrite zlen_part_min by lia. destruct (Z.le_gt_cases (o + 12) (zlen d)) as [F|F]; [|split; [intros (A & _)|intros (_ & A & _)]; lia].
    rewrite !half_in, !byte_in, word_in by lia. rewrite Z.add_0_r. cbn [Z.add].
    replace (slice_from (part d o (e - o)) 12) with (part d (o + 12) (e - o - 12)); [intuition lia|].
    unfold slice_from. rewrite slice_part by (rewrite ?zlen_part_min by lia; lia). rewrite zlen_part_min by lia.
    destruct (Z.le_gt_cases e (zlen d)).
    - rewrite part_part by lia. f_equal. lia.
    - unfold part. rewrite skipn_firstn_comm, firstn_firstn, skipn_skipn_. rewrite !firstn_all2; [f_equal; lia|unfold zlen in *; rewrite skipn_length; lia|unfold zlen in *; rewrite skipn_length; lia]. }
  split.
  - intros H. unfold swar_loadWave in H. repeat stp H. cbv zeta in H. split; [lia|]. apply (K ltac:(lia) _ _ eq_refl eq_refl). exact H.
  - intros (L & H). apply (K L _ _ eq_refl eq_refl) in H. unfold swar_loadWave. repeat fwd. cbv zeta. exact H.
Qed.
Lemma nth_ext_ {A} (l k : list A) : (forall i, nth_error l i = nth_error k i) -> l = k.
Proof.
  revert k. induction l as [|x l IH]; intros [|y k] H; [reflexivity|specialize (H 0%nat); discriminate|specialize (H 0%nat); discriminate|].
  pose proof (H 0%nat) as E. injection E as ->. f_equal. apply IH. intros i. exact (H (S i)).
Qed.
Lemma mapM_range_of {A} (f : Z -> res A) n l : List.length l = n -> (forall i x, nth_error l i = Some x -> f (Z.of_nat i) = Ok x) -> mapM f (range_z 0 n) = Ok l.
Proof.
  intros L H. destruct l as [|a l0].
  - subst n. reflexivity.
  - set (l := a :: l0) in *. rewrite (mapM_range f (fun i => nth i l a)).
    + f_equal. symmetry. apply list_of_nth; [exact L|]. intros i x X. symmetry. apply nth_error_nth. exact X.
    + intros i I. apply H. apply nth_error_nth'. lia.
Qed.
Lemma swar_view d u r : is_bytes d -> swar_load d u = Ok r <-> swar_shape d /\ rUnk02 r = u /\ zlen (rWaves r) = word d 0x38 /\
  forall i w, nth_error (rWaves r) i = Some w -> 0x44 + 4 * Z.of_nat i <= zlen d /\ 12 <= swar_stop d i - swar_start d i /\
    swar_start d i + 12 <= zlen d /\ wave_at d (swar_start d i) (swar_stop d i - swar_start d i) w.
Proof.
  intros B. unfold swar_shape, sound_head, swar_start, swar_stop. split.
  - intros H. unfold swar_load in H. stp H. apply prefixb_part in G; [|reflexivity]. apply bind_ok in H as (h & S & H). apply std_inv in S as (L & ->). cbn [hVersion hMagic hSize] in H. repeat stp H.
    apply Z.eqb_eq in G0. apply beq_eq in G2. apply bind_ok in H as (l & M & H). injection H as <-. cbn [rWaves rUnk02]. pose proof (word_range d 0x38 B ltac:(lia) ltac:(lia)) as R. apply mapM_range_inv in M as (LL & M).
    split; [|split; [reflexivity|split; [unfold zlen; lia|]]].
    + split; [|lia]. split; [lia|]. split; [exact G|]. split; [exact G0|exact G2].
    + intros i w W. pose proof (M i w W) as E. rewrite <- (Z2Nat.id (word d 0x38)) in E by lia. apply loadWave_view in E; [|exact B|rewrite <- LL; apply nth_error_Some; congruence|lia]. rewrite Z2Nat.id in E by lia. exact E.
  - intros (((L0 & M & V & D) & L) & U & N & W). pose proof (word_range d 0x38 B ltac:(lia) ltac:(lia)) as R. unfold swar_load. head_fwd. repeat fwd. rewrite D, beq_refl. cbn [guard bind].
    assert (E : mapM (swar_loadWave d (word d 8) (word d 0x38)) (range_z 0 (Z.to_nat (word d 0x38))) = Ok (rWaves r)).
    { apply mapM_range_of; [unfold zlen in N; lia|]. intros i w X. pose proof (W i w X) as E. assert (I : (i < List.length (rWaves r))%nat) by (apply nth_error_Some; congruence). unfold zlen in N.
      rewrite <- N in E |- *. apply loadWave_view; [exact B|exact I|lia|exact E]. }
    rewrite E. cbn [bind]. destruct r. cbn in *. subst. reflexivity.
Qed.

(** *** streams *)
Lemma row_view d n : forall chans o, 0 <= n -> read_row d n chans o =
  (map (fun p => snd p ++ [slice d (o + Z.of_nat (fst p) * n) (o + Z.of_nat (fst p) * n + n)]) (combine (seq 0 (List.length chans)) chans), o + n * zlen chans).
Proof.
  induction chans as [|c r IH]; intros o N; [cbn; f_equal; unfold zlen; cbn; lia|].
  cbn [read_row]. rewrite IH by exact N. f_equal; [|rewrite zlen_cons; lia]. cbn [List.length seq combine map fst snd]. f_equal; [do 3 f_equal; lia|].
  rewrite <- seq_shift. generalize (seq 0 (List.length r)). clear. induction r as [|a r IH]; intros [|x s]; try reflexivity. cbn [combine map fst snd]. f_equal; [do 3 f_equal; lia|]. apply IH.
Qed.
Lemma combine_map_self {A} (g : nat -> A) : forall n k, combine (seq k n) (map g (seq k n)) = map (fun c => (c, g c)) (seq k n).
Proof. induction n as [|n IH]; intros k; [reflexivity|]. cbn [seq map combine]. f_equal. apply IH. Qed.
Lemma repeat_seq {A} (x : A) : forall n k, repeat x n = map (fun _ : nat => x) (seq k n).
Proof. induction n as [|n IH]; intros k; [reflexivity|]. cbn [repeat seq map]. f_equal. apply IH. Qed.
Section Rows.
  Variable (d : bytes) (nch : nat) (blocks size last : Z) (big : bool).
  Hypothesis S0 : 0 <= size. Hypothesis L0 : 0 <= last. Hypothesis Big : big = true -> blocks = 1.
  Let last' := if big then last + 4 else last.
  Lemma rows_view : forall n, Z.of_nat n <= blocks -> exists o,
    fold_left (read_block d blocks size last big) (range_z 0 n) (rep [] (Z.of_nat nch), 0) =
    (map (fun c => map (strm_block d (Z.of_nat nch) blocks size last' c) (seq 0 n)) (seq 0 nch), o) /\
    (Z.of_nat n < blocks -> o = Z.of_nat n * (4 * ((Z.of_nat nch * size + 3) / 4))).
  Proof.
    induction n as [|n IH]; intros N.
    - exists 0. split; [|lia]. change (range_z 0 0) with (@nil Z). cbn [fold_left]. f_equal. unfold rep. rewrite Nat2Z.id. apply repeat_seq.
    - destruct IH as (o & E & O); [lia|]. rewrite range_z_snoc, fold_left_app, E. cbn [fold_left Z.add]. unfold read_block. specialize (O ltac:(lia)).
      set (bs := if big then _ else _). assert (Eb : bs = if Z.of_nat n =? blocks - 1 then last' else size).
      { unfold bs, last'. rewrite Z.add_0_l. destruct big; [specialize (Big eq_refl); destruct (Z.eqb_spec (Z.of_nat n) (blocks - 1)); [reflexivity|lia]|reflexivity]. }
      assert (P0 : 0 <= bs) by (rewrite Eb; unfold last'; destruct (_ =? _); destruct big; lia).
      assert (O0 : 0 <= o).
      { rewrite O. apply Z.mul_nonneg_nonneg; [lia|]. apply Z.mul_nonneg_nonneg; [lia|]. apply Z.div_pos; [|lia]. pose proof (Z.mul_nonneg_nonneg (Z.of_nat nch) size). lia. }
      rewrite row_view by exact P0. eexists. split.
      + f_equal. rewrite map_length, seq_length, combine_map_self, map_map. cbn [fst snd]. apply map_ext. intros c. rewrite seq_S, map_app. cbn [map Nat.add]. do 2 f_equal.
        unfold strm_block. rewrite <- Eb, <- O. rewrite slice_part by (pose proof (Z.mul_nonneg_nonneg (Z.of_nat c) bs); lia). f_equal. lia.
      + intros M. rewrite Eb, (proj2 (Z.eqb_neq _ _)) by lia. unfold zlen. rewrite map_length, seq_length. set (q := Z.of_nat nch * size). replace (size * Z.of_nat nch) with q by (unfold q; lia). rewrite O. fold q. rewrite Nat2Z.inj_succ. clearbody q. clear. generalize (Z.of_nat n). intros k.
        set (u := (q + 3) / 4). replace (k * (4 * u)) with (4 * (k * u)) by lia. replace (Z.succ k * (4 * u)) with (4 * (k * u) + 4 * u) by lia. generalize (k * u). intros v. unfold u. lia.
  Qed.
End Rows.
Lemma unks_view d : 0x60 <= zlen d -> mapM (fun i => unpack_u 4 d (0x40 + 4 * i)) (range_z 0 8) = Ok (map (fun i => word d (0x40 + 4 * Z.of_nat i)) (seq 0 8)).
Proof. intros L. apply (mapM_range _ (fun i => word d (0x40 + 4 * Z.of_nat i))). intros i I. apply unpack_word; lia. Qed.
Lemma unks_inv d l : mapM (fun i => unpack_u 4 d (0x40 + 4 * i)) (range_z 0 8) = Ok l -> 0x60 <= zlen d.
Proof.
  intros M. apply mapM_range_inv in M as (LL & M). destruct (nth_error l 7) as [x|] eqn:X; [|apply nth_error_None in X; lia]. apply M in X. apply word_inv in X as (X & _); lia.
Qed.
Lemma strm_view d info s : is_bytes d -> strm_load d info = Ok s <-> strm_shape d /\
  wt_val (sType s) = byte d 0x18 /\ sLooped s = negb (byte d 0x19 =? 0) /\ sUnk03 s = byte d 0x1B /\ sRate s = half d 0x1C /\ sTime s = half d 0x1E /\
  sLoop s = word d 0x20 /\ sPerBlock s = word d 0x34 /\ sInLast s = word d 0x3C /\ sUnks s = map (fun i => word d (0x40 + 4 * Z.of_nat i)) (seq 0 8) /\
  sInfo s = info /\ sChannels s = map (strm_channel d) (seq 0 (Z.to_nat (byte d 0x1A))).
Proof.
  intros B.
  assert (K : 0x60 <= zlen d -> strm_data d + 8 <= zlen d -> fold_left (read_block (slice d (strm_data d + 8) (strm_data d + word d (strm_data d + 4))) (word d 0x2C) (word d 0x30) (word d 0x38) ((word d 0x2C =? 1) && (byte d 0x18 =? 2)))
      (range_z 0 (Z.to_nat (word d 0x2C))) (rep [] (byte d 0x1A), 0) = (map (strm_channel d) (seq 0 (Z.to_nat (byte d 0x1A))), snd (fold_left (read_block (slice d (strm_data d + 8) (strm_data d + word d (strm_data d + 4))) (word d 0x2C) (word d 0x30) (word d 0x38) ((word d 0x2C =? 1) && (byte d 0x18 =? 2)))
      (range_z 0 (Z.to_nat (word d 0x2C))) (rep [] (byte d 0x1A), 0)))).
  { intros L L2. pose proof (word_range d 0x2C B ltac:(lia) ltac:(lia)). pose proof (word_range d 0x30 B ltac:(lia) ltac:(lia)). pose proof (word_range d 0x38 B ltac:(lia) ltac:(lia)). pose proof (byte_range d 0x1A B ltac:(lia)).
    pose proof (word_range d 0x14 B ltac:(lia) ltac:(lia)). assert (0 <= strm_data d) by (unfold strm_data; lia). pose proof (word_range d (strm_data d + 4) B ltac:(lia) ltac:(lia)).
    rewrite slice_part by lia. replace (strm_data d + word d (strm_data d + 4) - (strm_data d + 8)) with (word d (strm_data d + 4) - 8) by lia. rewrite <- (Z2Nat.id (byte d 0x1A)) at 1 3 by lia.
    destruct (rows_view (part d (strm_data d + 8) (word d (strm_data d + 4) - 8)) (Z.to_nat (byte d 0x1A)) (word d 0x2C) (word d 0x30) (word d 0x38) ((word d 0x2C =? 1) && (byte d 0x18 =? 2)) ltac:(lia) ltac:(lia)
      ltac:(rewrite andb_true_iff, Z.eqb_eq; tauto) (Z.to_nat (word d 0x2C)) ltac:(lia)) as (o & E & _). rewrite E. cbn [snd]. f_equal. apply map_ext. intros c. unfold strm_channel, strm_last. rewrite Z2Nat.id by lia. reflexivity. }
  unfold strm_shape, sound_head. split.
  - intros H. unfold strm_load in H. stp H. apply prefixb_part in G; [|reflexivity]. apply bind_ok in H as (h & S & H). apply std_inv in S as (L & ->). cbn [hVersion hMagic hSize] in H. repeat stp H.
    apply bind_ok in H as (u & U & H). pose proof (unks_inv _ _ U) as LU. rewrite (unks_view d LU) in U. injection U as <-. stp H. apply bind_ok in H as (t & T & H). apply wt_view in T. cbv zeta in H.
    pose proof (word_range d 0x14 B ltac:(lia) ltac:(lia)). change (0x10 + word d 0x14) with (strm_data d) in H. assert (0 <= strm_data d) by (unfold strm_data; lia). repeat stp H. change (wt_val ADPCM) with 2 in H.
    rewrite K in H by lia. injection H as <-. cbn [sType sLooped sUnk03 sRate sTime sLoop sPerBlock sInLast sUnks sInfo sChannels].
    apply Z.eqb_eq in G0, G3. apply beq_eq in G2, G4. split; [|repeat (split; [first [exact T|reflexivity]|]); reflexivity].
    split; [split; [lia|split; [exact G|split; [exact G0|exact G2]]]|]. split; [lia|]. split; [exact G3|]. split; [lia|exact G4].
  - intros (((L0 & M & V & D) & L & A & L2 & D2) & T & E). pose proof (word_range d 0x14 B ltac:(lia) ltac:(lia)). assert (0 <= strm_data d) by (unfold strm_data; lia).
    unfold strm_load. head_fwd. repeat fwd. rewrite D, beq_refl. cbn [guard bind]. repeat fwd. rewrite (unks_view d L). cbn [bind]. rewrite A. cbn [guard bind Z.eqb Pos.eqb].
    rewrite (proj2 (wt_view _ _) T). cbn [bind]. cbv zeta. change (0x10 + word d 0x14) with (strm_data d). repeat fwd. rewrite D2, beq_refl. cbn [guard bind]. change (wt_val ADPCM) with 2. rewrite K by lia.
    destruct s. cbn in E, T |- *. destruct E as (-> & -> & -> & -> & -> & -> & -> & -> & -> & ->). reflexivity.
Qed.

(** * An instrument read from a file is saved as the bytes it was read from *)
From Coq Require Import String.
From Verif Require Import PyBase PyLemmas PyTac WaveModel HeaderProps SbnkModel SbnkSpec SbnkLemmas SbnkInacc.

Lemma app_inj_len {A} (a b c d : list A) : zlen a = zlen c -> a ++ b = c ++ d -> a = c /\ b = d.
Proof.
  revert c. induction a as [|x a IH]; intros [|y c] L E.
  - split; [reflexivity|exact E].
  - rewrite zlen_cons in L. pose proof (zlen_nonneg c). change (zlen (@nil A)) with 0 in L. lia.
  - rewrite zlen_cons in L. pose proof (zlen_nonneg a). change (zlen (@nil A)) with 0 in L. lia.
  - rewrite !zlen_cons in L. injection E as -> E. destruct (IH c ltac:(lia) E) as [-> ->]. split; reflexivity.
Qed.
Lemma unpack_le n data off v : is_bytes data -> 0 <= off -> unpack_u n data off = Ok v -> le n v = slice data off (off + Z.of_nat n) /\ off + Z.of_nat n <= zlen data /\ 0 <= v < 256 ^ Z.of_nat n.
Proof.
  intros B O H. pose proof (unpack_u_lt _ _ _ _ O H) as L. pose proof (unpack_u_range _ _ _ _ B H) as R. rewrite unpack_word in H by assumption. injection H as <-.
  split; [|split; assumption]. apply le_unle_n; [apply is_bytes_slice; exact B|]. pose proof (zlen_slice data off (off + Z.of_nat n) ltac:(lia) ltac:(lia)) as Z. unfold zlen in Z. lia.
Qed.
Lemma note_kept data off type n : is_bytes data -> 0 <= off -> note_read data off type = Ok n -> note_fits n /\ note_bytes n = slice data off (off + 10) /\ off + 10 <= zlen data /\ nType n = type.
Proof.
  intros B O H. unfold note_read in H.
  apply bind_ok in H as (v1 & E1 & H). apply bind_ok in H as (v2 & E2 & H). apply bind_ok in H as (v3 & E3 & H). apply bind_ok in H as (v4 & E4 & H).
  apply bind_ok in H as (v5 & E5 & H). apply bind_ok in H as (v6 & E6 & H). apply bind_ok in H as (v7 & E7 & H). apply bind_ok in H as (v8 & E8 & H). injection H as <-.
  apply unpack_le in E1 as (A1 & L1 & R1); [|exact B|lia]. apply unpack_le in E2 as (A2 & L2 & R2); [|exact B|lia]. apply unpack_le in E3 as (A3 & L3 & R3); [|exact B|lia]. apply unpack_le in E4 as (A4 & L4 & R4); [|exact B|lia].
  apply unpack_le in E5 as (A5 & L5 & R5); [|exact B|lia]. apply unpack_le in E6 as (A6 & L6 & R6); [|exact B|lia]. apply unpack_le in E7 as (A7 & L7 & R7); [|exact B|lia]. apply unpack_le in E8 as (A8 & L8 & R8); [|exact B|lia].
  change (256 ^ Z.of_nat 2) with 65536 in *. change (256 ^ Z.of_nat 1) with 256 in *. change (Z.of_nat 1) with 1 in *. change (Z.of_nat 2) with 2 in *.
  split; [unfold note_fits; cbn; repeat split; lia|]. split; [|split; [lia|reflexivity]]. unfold note_bytes. cbn [nWave nArch nPitch nAttack nDecay nSustain nRelease nPan]. rewrite A1, A2, A3, A4, A5, A6, A7, A8.
  rewrite <- (slice_app_eq data off (off + 2) (off + 10)) by lia. rewrite <- (slice_app_eq data (off + 2) (off + 2 + 2) (off + 10)) by lia. replace (off + 2 + 2) with (off + 4) by lia.
  rewrite <- (slice_app_eq data (off + 4) (off + 4 + 1) (off + 10)) by lia. replace (off + 4 + 1) with (off + 5) by lia. rewrite <- (slice_app_eq data (off + 5) (off + 5 + 1) (off + 10)) by lia. replace (off + 5 + 1) with (off + 6) by lia.
  rewrite <- (slice_app_eq data (off + 6) (off + 6 + 1) (off + 10)) by lia. replace (off + 6 + 1) with (off + 7) by lia. rewrite <- (slice_app_eq data (off + 7) (off + 7 + 1) (off + 10)) by lia. replace (off + 7 + 1) with (off + 8) by lia.
  rewrite <- (slice_app_eq data (off + 8) (off + 8 + 1) (off + 10)) by lia. replace (off + 8 + 1) with (off + 9) by lia. replace (off + 9 + 1) with (off + 10) by lia. reflexivity.
Qed.
Lemma noteT_kept s n : is_bytes s -> zlen s <= 12 -> note_fromDataWithType s = Ok n -> noteT_fits n /\ noteT_bytes n = s.
Proof.
  intros B L H. unfold note_fromDataWithType in H. apply bind_ok in H as (t & T & H). apply unpack_le in T as (A & _ & R); [|exact B|lia]. apply note_kept in H as (F & N & LN & TY); [|exact B|lia]. subst t.
  split; [split; [exact F|]; change (256 ^ Z.of_nat 2) with 65536 in R; exact R|]. unfold noteT_bytes. rewrite A, N. change (0 + Z.of_nat 2) with 2. change (2 + 10) with 12. rewrite slice_app_eq by lia. apply slice_hit_all; lia.
Qed.
Lemma notesT_kept data start : is_bytes data -> 0 <= start -> forall n k ns, 0 <= k -> mapM (fun i => let off := start + 0xC * i in note_fromDataWithType (slice data off (off + 0xC))) (range_z k n) = Ok ns ->
  Forall noteT_fits ns /\ zlen ns = Z.of_nat n /\ concat (map noteT_bytes ns) = slice data (start + 12 * k) (start + 12 * (k + Z.of_nat n)).
Proof.
  intros B S. induction n as [|n IH]; intros k ns K H; cbn [range_z mapM] in H.
  - injection H as <-. split; [constructor|]. split; [reflexivity|]. cbn [map concat]. rewrite slice_nil by lia. reflexivity.
  - cbv zeta in H. apply bind_ok in H as (x & X & H). apply bind_ok in H as (r & R & H). injection H as <-. apply IH in R as (F & L & C); [|lia].
    apply noteT_kept in X as (FX & BX); [|apply is_bytes_slice; exact B|apply zlen_slice_le; lia]. split; [constructor; assumption|]. split; [rewrite zlen_cons; lia|]. cbn [map concat]. rewrite BX, C.
    replace (start + 12 * k + 12) with (start + 12 * (k + 1)) by lia. rewrite slice_app_eq by lia. f_equal. lia.
Qed.
Lemma regions_kept data start : is_bytes data -> 0 <= start -> forall ends k rs, 0 <= k -> is_bytes ends -> regions_loop data start k ends = Ok rs ->
  Forall (fun r => is_byte (fst r) /\ noteT_fits (snd r)) rs /\ (exists rest, ends = map fst rs ++ rest) /\
  concat (map (fun r => noteT_bytes (snd r)) rs) = slice data (start + 8 + 12 * k) (start + 8 + 12 * (k + zlen rs)).
Proof.
  intros B S. induction ends as [|e ends IH]; intros k rs K E H; cbn [regions_loop] in H.
  - injection H as <-. split; [constructor|]. split; [exists []; reflexivity|]. cbn [map concat]. rewrite slice_nil by (unfold zlen; cbn [length]; lia). reflexivity.
  - destruct ((e =? 0) && negb (k =? 0)); [injection H as <-; split; [constructor|]; split; [exists (e :: ends); reflexivity|]; cbn [map concat]; rewrite slice_nil by (unfold zlen; cbn [length]; lia); reflexivity|].
    cbv zeta in H. apply bind_ok in H as (x & X & H). apply bind_ok in H as (r & R & H). injection H as <-. inversion E as [|? ? E1 E2]; subst. apply IH in R as (F & (rest & ->) & C); [|lia|exact E2].
    apply noteT_kept in X as (FX & BX); [|apply is_bytes_slice; exact B|apply zlen_slice_le; lia]. split; [constructor; [split; assumption|exact F]|]. split; [exists rest; reflexivity|]. cbn [map concat snd]. rewrite BX, C, zlen_cons.
    replace (start + 8 + 12 * k + 12) with (start + 8 + 12 * (k + 1)) by lia. pose proof (zlen_nonneg r). rewrite slice_app_eq by lia. f_equal. lia.
Qed.
Lemma inst_kept f t o i n : is_bytes f -> 0 <= o -> 0 <= t -> makeInstrumentAt f t o = Ok (Some i, n) ->
  match iBody i with Single _ => True | Ranged _ ns => ns <> [] | Regional rs => slice f (o + zlen rs) (o + 8) = zeros (8 - zlen rs) end ->
  body_save (iBody i) = Ok (t, slice f o (o + n)).
Proof.
  intros B O T0 H. unfold makeInstrumentAt in H. destruct (Z.eqb_spec t 0) as [?|T]; [discriminate|]. apply bind_ok in H as ([bd m] & H & E). injection E as <- <-. cbn [iBody].
  revert H. destruct (Z.ltb_spec t 16) as [T1|T1]; [|destruct (Z.eqb_spec t 16) as [T2|T2]; [|destruct (Z.eqb_spec t 17) as [T3|T3]; [|discriminate]]]; intros H.
  - unfold single_fromData in H. apply bind_ok in H as (nn & N & H). injection H as <- <-. intros _. unfold note_fromData in N. apply note_kept in N as (F & NB & L & TY); [|apply is_bytes_slice; exact B|lia].
    rewrite body_save_ok by (cbn [body_fits]; split; [exact F|lia]). cbn [body_type body_bytes]. rewrite TY, NB. change (0 + 10) with 10. rewrite slice_hit_all; [reflexivity|reflexivity|apply zlen_slice_le; lia].
  - unfold range_fromData in H. apply bind_ok in H as (x1 & X1 & H). apply bind_ok in H as (x2 & X2 & H). apply bind_ok in H as (ns & N & H). injection H as <- <-. intros NE.
    apply unpack_le in X1 as (A1 & L1 & R1); [|exact B|lia]. apply unpack_le in X2 as (A2 & L2 & R2); [|exact B|lia]. change (256 ^ Z.of_nat 1) with 256 in *. change (Z.of_nat 1) with 1 in *.
    apply (notesT_kept f (o + 2) B ltac:(lia)) in N as (F & L & C); [|lia]. assert (LN : zlen ns = x2 - x1 + 1) by (destruct ns as [|y ns]; [congruence|]; rewrite zlen_cons in *; pose proof (zlen_nonneg ns); lia).
    assert (BF : body_fits (Ranged x1 ns)) by (cbn [body_fits]; repeat split; try lia; exact F). rewrite body_save_ok by exact BF. cbn [body_type body_bytes]. rewrite C. replace (x1 + zlen ns - 1) with x2 by lia. rewrite A1, A2. subst t.
    replace (o + 2 + 12 * 0) with (o + 1 + 1) by lia. replace (o + 2 + 12 * (0 + Z.of_nat (Z.to_nat (x2 - x1 + 1)))) with (o + (2 + 12 * zlen ns)) by lia. rewrite !slice_app_eq by (pose proof (zlen_nonneg ns); lia). reflexivity.
  - unfold regional_fromData in H. apply bind_ok in H as (ends & X1 & H). apply bind_ok in H as (rs & R & H). injection H as <- <-. intros Z8.
    pose proof (rd_ok_inv _ _ _ _ O X1) as L. rewrite (rd_slice f o 8 O ltac:(lia) L) in X1. injection X1 as <-.
    apply (regions_kept f o B O) in R as (F & (rest & ER) & C); [|lia|apply is_bytes_slice; exact B].
    assert (ZR : zlen rs <= 8) by (pose proof (zlen_slice f o (o + 8) ltac:(lia) ltac:(lia)) as ZS; rewrite ER, zlen_app, zlen_map in ZS; pose proof (zlen_nonneg rest); lia).
    pose proof (zlen_nonneg rs) as ZN. rewrite <- (slice_app_eq f o (o + zlen rs) (o + 8)) in ER by lia. apply app_inj_len in ER as [E1 E2]; [|rewrite zlen_map, zlen_slice by lia; lia].
    rewrite body_save_ok by (cbn [body_fits]; split; assumption). cbn [body_type body_bytes]. rewrite <- E1, C, <- Z8. subst t.
    replace (o + 8 + 12 * 0) with (o + 8) by lia. replace (o + 8 + 12 * (0 + zlen rs)) with (o + (8 + 12 * zlen rs)) by lia. rewrite !slice_app_eq by lia. reflexivity.
Qed.

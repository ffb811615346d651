(** Which sequence files and sequence archives are reproduced, proofs for C124. *)
From Coq Require Import String.
From Verif Require Import PyBase PyLemmas PyTac CommonModel WaveModel WaveLemmas SeqModel SsarModel SsarLemmas RomSpec ViewSpec ViewSdatSpec ViewLemmas ViewFiles ViewSdat ExactSpec Exact ExactStrm ExactFiles.

Lemma sseq_exact d info s : is_bytes d -> sseq_load d info = Ok s -> sseq_save s = Ok (d, info) <-> exact_sseq d.
Proof.
  intros B H. apply sseq_view in H as (L & M & V & ->); [|exact B]. set (x := part d (word d 24) (word d 8 - word d 24)). pose proof (zlen_nonneg x) as PX. pose proof (word_range d 8 B ltac:(lia) ltac:(lia)) as R8.
  assert (K : 0x1C + zlen x < 4294967296 -> d = sseq_bytes x <-> half d 4 = 0xFEFF /\ word d 8 = 0x1C + zlen x /\ half d 12 = 0x10 /\ half d 14 = 1 /\ part d 0x10 4 = asc "DATA" /\ word d 0x14 = 12 + zlen x /\ word d 0x18 = 0x1C /\ rest d 0x1C = x).
  { intros LT. unfold sseq_bytes. rewrite (cut_head d) by first [exact B|exact M|exact V|reflexivity|lia]. rewrite (cut d 0x10 4) by (reflexivity || lia). adds. do 2 cutw. tauto. }
  unfold exact_sseq, exact_head. split.
  - intros H. apply sseq_save_inv in H as (y & E & LT & H). cbn [sseq_data qParsed qData] in E. apply SeqRead.ok_inj in E. subst y. cbn [qInfo] in H. assert (E : d = sseq_bytes x) by congruence.
    apply (K LT) in E as (A1 & A2 & A3 & A4 & A5 & A6 & A7 & A8). pose proof (zlen_rest d 0x1C ltac:(lia)) as ZR. rewrite A8 in ZR. repeat split; try assumption; lia.
  - intros ((A1 & A2 & A3 & A4) & A5 & A6 & A7). assert (E : rest d 0x1C = x) by (unfold x; rewrite A2, A7; apply rest_part; lia). pose proof (zlen_rest d 0x1C ltac:(lia)) as ZR. rewrite E in ZR.
    rewrite (sseq_save_eq {| qParsed := false; qEvents := []; qData := x; qInfo := info |} x eq_refl) by lia. cbn [qInfo]. do 2 f_equal. symmetry. apply K; [lia|]. repeat split; try assumption; lia.
Qed.

Definition arch_row (d : bytes) (i : nat) : Z * seqParams :=
  let p := 0x20 + 12 * Z.of_nat i in (signed 32 (word d p), (half d (p + 4), byte d (p + 6), byte d (p + 7), byte d (p + 8), byte d (p + 9))).
Lemma signed_mod v : 0 <= v < 4294967296 -> signed 32 v mod 4294967296 = v.
Proof. intros V. unfold signed. change (2 ^ (32 - 1)) with 2147483648. change (2 ^ 32) with 4294967296. destruct (Z.ltb_spec v 2147483648); lia. Qed.
Lemma arow_exact d i : is_bytes d -> 0x20 + 12 * Z.of_nat i + 12 <= zlen d ->
  part d (0x20 + 12 * Z.of_nat i) 12 = arow (arch_row d i) <-> byte d (0x20 + 12 * Z.of_nat i + 10) = 0 /\ byte d (0x20 + 12 * Z.of_nat i + 11) = 0.
Proof.
  intros B L. unfold arow, arch_row. cbv zeta. set (p := 0x20 + 12 * Z.of_nat i) in *. assert (P : 0 <= p) by lia. clearbody p.
  rewrite signed_mod by (apply word_range; [exact B|lia|lia]). change [0; 0] with (le 1 0 ++ le 1 0).
  pose proof (half_range d (p + 4) B ltac:(lia) ltac:(lia)). pose proof (byte_range d (p + 6) B ltac:(lia)). pose proof (byte_range d (p + 7) B ltac:(lia)). pose proof (byte_range d (p + 8) B ltac:(lia)). pose proof (byte_range d (p + 9) B ltac:(lia)).
  rewrite !part_split by (rewrite ?zlen_app, ?zlen_le; lia). rewrite !zlen_le. change (Z.of_nat 4) with 4. change (Z.of_nat 2) with 2. change (Z.of_nat 1) with 1.
  replace (p + 4 + 2) with (p + 6) by lia. replace (p + 6 + 1) with (p + 7) by lia. replace (p + 7 + 1) with (p + 8) by lia. replace (p + 8 + 1) with (p + 9) by lia. replace (p + 9 + 1) with (p + 10) by lia. replace (p + 10 + 1) with (p + 11) by lia.
  rewrite part_word by first [exact B|lia]. rewrite part_half by first [exact B|lia]. rewrite !part_byte by first [exact B|lia].
  assert (Q : forall o, o = 10 \/ o = 11 -> le 1 (byte d (p + o)) = le 1 0 <-> byte d (p + o) = 0).
  { intros o O. pose proof (byte_range d (p + o) B ltac:(lia)). split; [|intros ->; reflexivity]. intros E. apply (f_equal unle) in E. rewrite !unle_le_id in E by (p256; lia). exact E. }
  rewrite !Q by tauto. tauto.
Qed.
Lemma ssar_exact d u names r : is_bytes d -> ssar_load d u names = Ok r -> ssar_save r = Ok (d, u, map fst (rSeqs r)) <-> exact_ssar d.
Proof.
  intros B H. apply ssar_view in H as ((L0 & M & V & D) & L & C & ->); [|exact B]. cbn [rSeqs]. set (x := part d (word d 24) (word d 8 - word d 24)). set (n := Z.to_nat (word d 28)). set (q := map _ (seq 0 n)).
  set (rows := map (arch_row d) (seq 0 n)). pose proof (word_range d 0x1C B ltac:(lia) ltac:(lia)) as RN. pose proof (word_range d 8 B ltac:(lia) ltac:(lia)) as R8. pose proof (zlen_nonneg x) as PX.
  assert (LR : zlen rows = word d 28) by (unfold rows, zlen; rewrite map_length, seq_length; lia).
  assert (LQ : zlen q = word d 28) by (unfold q, zlen; rewrite map_length, seq_length; lia).
  assert (EB : ssar_body {| rParsed := false; rEvents := []; rData := x; rSeqs := q; rUnk := u |} = Ok (concat (map arow rows), x)).
  { unfold ssar_body. cbn [rParsed rSeqs rData]. assert (E : mapM (fun p : option (list Z) * aseq => o <- aseq_firstEventOffset (snd p);; ssar_row match o with Some o0 => o0 | None => -1 end (aParams (snd p))) q = Ok (map arow rows)); [|rewrite E; reflexivity].
    unfold q, rows. assert (I : forall i, In i (seq 0 n) -> 0x20 + 12 * Z.of_nat i + 10 <= zlen d) by (intros i I; apply in_seq in I; lia). revert I. generalize (seq 0 n). intros l I. induction l as [|i l IH]; [reflexivity|]. cbn [map mapM snd].
    assert (E : (o <- aseq_firstEventOffset (archive_row d i);; ssar_row match o with Some o0 => o0 | None => -1 end (aParams (archive_row d i))) = Ok (arow (arch_row d i))).
    { specialize (I i (or_introl eq_refl)). unfold archive_row, aseq_firstEventOffset. cbv zeta. cbn [aParsed aOffset aParams bind].
      replace (match (if signed 32 (word d (32 + 12 * Z.of_nat i)) =? -1 then None else Some (signed 32 (word d (32 + 12 * Z.of_nat i)))) with Some o => o | None => -1 end) with (signed 32 (word d (32 + 12 * Z.of_nat i))) by (destruct (Z.eqb_spec (signed 32 (word d (32 + 12 * Z.of_nat i))) (-1)); congruence).
      pose proof (word_range d (32 + 12 * Z.of_nat i) B ltac:(lia) ltac:(lia)) as RW.
      apply ssar_row_ok; [unfold i32, signed; change (2 ^ (32 - 1)) with 2147483648; change (2 ^ 32) with 4294967296; destruct (Z.ltb_spec (word d (32 + 12 * Z.of_nat i)) 2147483648); lia|].
      unfold params_ok. pose proof (half_range d (32 + 12 * Z.of_nat i + 4) B ltac:(lia) ltac:(lia)). repeat split; try lia; apply byte_range; try exact B; lia. }
    rewrite E. cbn [bind]. rewrite IH by (intros j J; apply I; right; exact J). reflexivity. }
  assert (K : 0x20 + 12 * zlen rows + zlen x < 4294967296 -> d = ssar_bytes rows x <-> half d 4 = 0xFEFF /\ word d 8 = 0x20 + 12 * zlen rows + zlen x /\ half d 12 = 0x10 /\ half d 14 = 1 /\ word d 0x14 = 0x10 + 12 * zlen rows + zlen x /\ word d 0x18 = 0x20 + 12 * zlen rows /\
     (forall i, (i < n)%nat -> part d (0x20 + 12 * Z.of_nat i) 12 = arow (arch_row d i)) /\ rest d (0x20 + 12 * zlen rows) = x).
  { intros LT. unfold ssar_bytes. rewrite (cut_head d) by first [exact B|exact M|exact V|reflexivity|lia]. rewrite (cut d 0x10 4) by (reflexivity || lia). adds. do 3 cutw. replace (map arow rows) with (map (fun i => arow (arch_row d i)) (seq 0 n)) by (unfold rows; rewrite map_map; reflexivity).
    rewrite (cut_rows d 12 (fun i => arow (arch_row d i))) by first [lia|intros i; apply zlen_arow]. replace (12 * Z.of_nat n) with (12 * zlen rows) by lia. cbn [Nat.add]. intuition. }
  unfold exact_ssar, exact_head. split.
  - intros H. destruct (ssar_save_inv _ _ _ _ H) as (t & y & E & LT & _). rewrite EB in E. apply SeqRead.ok_inj in E. assert (EX : x = y) by congruence. subst y. cbn [rSeqs] in LT.
    rewrite (ssar_save_eq _ rows x EB) in H by (cbn [rSeqs]; lia). apply SeqRead.ok_inj in H. assert (E2 : d = ssar_bytes rows x) by congruence.
    assert (ZL : zlen d = 0x20 + 12 * zlen rows + zlen x).
    { rewrite E2. unfold ssar_bytes. rewrite !zlen_app, zlen_std, !zlen_le by reflexivity. rewrite (zlen_concat_map arow rows 12) by (intros; apply zlen_arow). change (zlen (asc "SSAR")) with 4. change (zlen (asc "DATA")) with 4. lia. }
    apply K in E2 as (A1 & A2 & A3 & A4 & A5 & A6 & A7 & A8); [|lia]. split; [repeat split; lia|]. split; [lia|]. split; [lia|]. split; [lia|]. intros i I. specialize (A7 (Z.to_nat i) ltac:(lia)).
    apply (arow_exact d (Z.to_nat i) B) in A7; [|rewrite Z2Nat.id by lia; lia]. rewrite Z2Nat.id in A7 by lia. exact A7.
  - intros ((A1 & A2 & A3 & A4) & A5 & A6 & A7 & A8). assert (E : rest d (0x20 + 12 * zlen rows) = x) by (unfold x; rewrite A2, LR, <- A6; apply rest_part; lia).
    pose proof (zlen_rest d (0x20 + 12 * zlen rows) ltac:(lia)) as ZR. rewrite E in ZR. rewrite (ssar_save_eq _ rows x EB) by (cbn [rSeqs]; lia). cbn [rUnk rSeqs]. do 3 f_equal. symmetry. apply K; [lia|].
    repeat split; try assumption; try lia. intros i I. apply arow_exact; [exact B|lia|]. apply A8. lia.
Qed.

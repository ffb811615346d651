(** * C61: loaders accept only files of their own kind and version *)
From Coq Require Import String.
From Verif Require Import PyBase PyLemmas PyTac LzLemmas WaveModel WaveLemmas SeqModel SsarModel SbnkModel TexModel NarcModel SdatModel RomSpec.

(** the first four bytes, and the 16-bit number at 6 *)
Definition kind (magic : bytes) (version : Z) (f : bytes) : Prop := slice f 0 4 = magic /\ half f 6 = version.

Lemma prefix_slice (m f : bytes) : zlen m = 4 -> prefixb m f = true <-> slice f 0 4 = m.
Proof.
  intros L. rewrite prefixb_firstn. unfold slice. assert (E : length m = 4%nat) by (unfold zlen in L; lia). rewrite E. pose proof (zlen_nonneg f). unfold clamp. cbn [Z.ltb Z.compare].
  replace (Z.min 0 (zlen f)) with 0 by lia. rewrite Z.sub_0_r. change (skipn (Z.to_nat 0) f) with f. replace (firstn (Z.to_nat (Z.min 4 (zlen f))) f) with (firstn 4 f); [reflexivity|].
  destruct (Z.le_gt_cases 4 (zlen f)); [rewrite Z.min_l by lia; reflexivity|]. rewrite Z.min_r by lia. rewrite (firstn_all2 f) by (unfold zlen in *; lia). symmetry. apply firstn_all2. unfold zlen. lia.
Qed.
Lemma rd_some data off n : 0 <= off -> 0 <= n -> off + n <= zlen data -> rd data off n = Ok (slice data off (off + n)).
Proof. exact (rd_slice data off n). Qed.
Lemma unpack_word data n off : 0 <= off -> off + Z.of_nat n <= zlen data -> unpack_u n data off = Ok (unle (slice data off (off + Z.of_nat n))).
Proof. intros P L. unfold unpack_u, unpack_e. rewrite rd_slice by lia. reflexivity. Qed.
Lemma std_fields f : 16 <= zlen f -> exists h, std_unpack f = Ok h /\ hMagic h = slice f 0 4 /\ hVersion h = half f 6.
Proof.
  intros L. unfold std_unpack. rewrite (rd_slice f 0 4) by lia. cbn [bind]. rewrite !unpack_word by lia. cbn [bind]. eexists. split; [reflexivity|]. split; reflexivity.
Qed.
Lemma std_short f h : std_unpack f = Ok h -> 16 <= zlen f.
Proof.
  intros H. unfold std_unpack in H. repeat (apply bind_ok in H as (? & ? & H)).
  match goal with E : unpack_u 2 f 14 = Ok _ |- _ => apply unpack_u_lt in E; [|lia] end. lia.
Qed.
Ltac reject L M :=
  destruct (std_fields _ L) as (h & EH & EM & EV);
  match goal with |- bind (guard (prefixb ?m ?f) _) _ = _ => destruct (prefixb m f) eqn:EP; [cbn [guard bind]|reflexivity]; apply prefix_slice in EP; [|reflexivity] end;
  rewrite EH; cbn [bind].
Theorem C61_wrong_kind : forall f, 16 <= zlen f ->
  (~ kind (asc "SWAV") 0x100 f -> swav_load f = Err ValueError) /\
  (forall u, ~ kind (asc "SWAR") 0x100 f -> swar_load f u = Err ValueError) /\
  (forall i, ~ kind (asc "STRM") 0x100 f -> strm_load f i = Err ValueError) /\
  (forall i, ~ kind (asc "SSEQ") 0x100 f -> sseq_load f i = Err ValueError) /\
  (forall u n, ~ kind (asc "SSAR") 0x100 f -> ssar_load f u n = Err ValueError) /\
  (forall o u w, ~ kind (asc "SBNK") 0x100 f -> sbnk_load o f u w = Err ValueError) /\
  (~ kind (asc "BTX0") 1 f -> nsbtx_load f = Err ValueError) /\
  (forall o, ~ kind (asc "SDAT") 0x100 f -> sdat_load o f = Err ValueError) /\
  (forall d, ~ kind (asc "NARC") 1 f -> ~ (kind (asc "NARC") 0x100 f /\ half f 4 = 0xFFFE) -> is_bytes f -> narc_load d f = Err ValueError).
Proof.
  intros f L. assert (V : forall m v, slice f 0 4 = m -> ~ kind m v f -> (half f 6 =? v) = false) by (intros m v E N; apply Z.eqb_neq; intros C; apply N; split; assumption).
  repeat split.
  - intros N. unfold swav_load. reject L M. rewrite EV, (V _ _ EP N). reflexivity.
  - intros u N. unfold swar_load. reject L M. rewrite EV, (V _ _ EP N). reflexivity.
  - intros u N. unfold strm_load. reject L M. rewrite EV, (V _ _ EP N). reflexivity.
  - intros u N. unfold sseq_load. destruct (prefixb (asc "SSEQ") f) eqn:EP; [cbn [guard bind]|reflexivity]. apply prefix_slice in EP; [|reflexivity]. rewrite !unpack_word by lia. cbn [bind]. change (unle (slice f 6 (6 + Z.of_nat 2))) with (half f 6). rewrite (V _ _ EP N). reflexivity.
  - intros u n N. unfold ssar_load. reject L M. rewrite EV, (V _ _ EP N). reflexivity.
  - intros o u w N. unfold sbnk_load. reject L M. rewrite EM, EP, beq_refl. cbn [guard bind]. rewrite EV, (V _ _ EP N). reflexivity.
  - intros N. unfold nsbtx_load. reject L M. rewrite EV, (V _ _ EP N). reflexivity.
  - intros o N. unfold sdat_load. destruct (std_fields _ L) as (h & EH & EM & EV). rewrite EH. cbn [bind]. rewrite EV. destruct (half f 6 =? 0x100) eqn:E1; [cbn [guard bind]|reflexivity]. rewrite EM. destruct (beq (slice f 0 4) (asc "SDAT")) eqn:E2; [|reflexivity].
    exfalso. apply N. split; [apply beq_eq; exact E2|apply Z.eqb_eq; exact E1].
  - intros d N N' B. unfold narc_load. rewrite (rd_slice f 0 4) by lia. cbn [bind]. rewrite !unpack_word by lia. cbn [bind].
    change (unle (slice f 6 (6 + Z.of_nat 2))) with (half f 6). change (unle (slice f 4 (4 + Z.of_nat 2))) with (half f 4). change (slice f 0 (0 + 4)) with (slice f 0 4).
    assert (R : 0 <= half f 6 < 256 ^ 2). { apply (unpack_u_range 2 f 6); [exact B|]. exact (unpack_word f 2 6 ltac:(lia) ltac:(lia)). }
    assert (C : forall v, slice f 0 4 = asc "NARC" -> (half f 6 =? v) = true -> kind (asc "NARC") v f) by (intros v E1 E2; split; [exact E1|apply Z.eqb_eq; exact E2]).
    destruct (half f 4 =? 0xFFFE) eqn:EB.
    + destruct (_ =? 1) eqn:EV; [cbn [guard bind]|reflexivity]. destruct (beq (slice f 0 4) (asc "NARC")) eqn:EM; [|reflexivity]. exfalso. apply N'. apply beq_eq in EM. apply Z.eqb_eq in EV. split; [|apply Z.eqb_eq; exact EB]. split; [exact EM|].
      change 0xFF with (Z.ones 8) in EV. rewrite Z.land_ones, Z.shiftl_mul_pow2, Z.shiftr_div_pow2 in EV by lia. change (2 ^ 8) with 256 in EV.
      pose proof (Z.div_mod (half f 6) 256 ltac:(lia)). pose proof (Z.mod_pos_bound (half f 6) 256 ltac:(lia)). assert (0 <= half f 6 / 256 < 256) by (split; [apply Z.div_pos; lia|apply Z.div_lt_upper_bound; lia]).
      assert (LO : Z.lor (half f 6 mod 256 * 256) (half f 6 / 256) = half f 6 mod 256 * 256 + half f 6 / 256).
      { pose proof (lor_shiftl_add (half f 6 mod 256) (half f 6 / 256) 8 ltac:(lia) ltac:(lia)) as LO. rewrite Z.shiftl_mul_pow2 in LO by lia. exact LO. }
      rewrite LO in EV. lia.
    + destruct (half f 6 =? 1) eqn:EV; [cbn [guard bind]|reflexivity]. destruct (beq (slice f 0 4) (asc "NARC")) eqn:EM; [|reflexivity]. exfalso. apply N. apply beq_eq in EM. apply C; assumption.
Qed.
Print Assumptions C61_wrong_kind.

(** a wave file whose version, or whose name, is wrong; and a good one *)
Definition ex_head (magic : bytes) (version : Z) : bytes := magic ++ le 2 0xFEFF ++ le 2 version ++ le 4 16 ++ le 2 16 ++ le 2 0.
Example C61_ex :
  16 <= zlen (ex_head (asc "SWAV") 0x101) /\ ~ kind (asc "SWAV") 0x100 (ex_head (asc "SWAV") 0x101) /\ ~ kind (asc "BTX0") 1 (ex_head (asc "BTX0") 2)
  /\ ~ kind (asc "SWAR") 0x100 (ex_head (asc "SWAV") 0x100) /\ kind (asc "SWAV") 0x100 (ex_head (asc "SWAV") 0x100)
  /\ swar_load (ex_head (asc "SWAV") 0x100) 0 = Err ValueError /\ nsbtx_load (ex_head (asc "BTX0") 2) = Err ValueError.
Proof.
  split; [vm_compute; discriminate|]. do 3 (split; [intros (A & B); vm_compute in A, B; discriminate|]).
  repeat split; vm_compute; reflexivity.
Qed.

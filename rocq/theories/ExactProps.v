(** * C124: which files are reproduced byte for byte *)
From Coq Require Import String.
From Verif Require ViewFilesProps ViewSdatProps.
From Verif Require Import PyBase PyLemmas PyTac FntModel NarcModel BnModel WaveModel SeqModel SsarModel RomSpec ViewSpec ExactSpec Exact ExactStrm ExactFiles ExactNarc ExactSeq.
Import ViewFilesProps ViewSdatProps.

(** ** waves, wave archives, streams *)
Theorem C124_wave : forall d w, is_bytes d -> swav_load d = Ok w -> swav_save w false false = Ok (w, d) <-> exact_swav d.
Proof.
  intros d w B L. rewrite <- (swav_exact d w B L). unfold swav_save, swav_update. cbn [bind]. destruct w. cbn [bind]. split.
  - intros H. apply bind_ok in H as (x & H & E). apply SeqRead.ok_inj in E. rewrite H. f_equal. congruence.
  - intros ->. reflexivity.
Qed.
Print Assumptions C124_wave.
Theorem C124_wave_archive : forall d u r, is_bytes d -> swar_load d u = Ok r -> swar_save r = Ok (d, u) <-> exact_swar d.
Proof. exact swar_exact. Qed.
Print Assumptions C124_wave_archive.
Theorem C124_stream : forall d info s, is_bytes d -> strm_load d info = Ok s -> strm_save s false = Ok (s, (d, info)) <-> exact_strm d.
Proof.
  intros d info s B L. rewrite <- (strm_exact d info s B L). unfold strm_save. split.
  - intros H. apply bind_ok in H as (x & H & E). apply SeqRead.ok_inj in E. rewrite H. f_equal. congruence.
  - intros ->. reflexivity.
Qed.
Print Assumptions C124_stream.

(** ** sequences, sequence archives *)
Theorem C124_sequence : forall d info s, is_bytes d -> sseq_load d info = Ok s -> sseq_save s = Ok (d, info) <-> exact_sseq d.
Proof. exact sseq_exact. Qed.
Print Assumptions C124_sequence.
(** with the names of the sequences *)
Theorem C124_sequence_archive : forall d u names r, is_bytes d -> ssar_load d u names = Ok r ->
  ssar_save r = Ok (d, u, map fst (rSeqs r)) <-> exact_ssar d.
Proof. exact ssar_exact. Qed.
Print Assumptions C124_sequence_archive.

(** ** touch areas and image positions *)
Theorem C124_touch_areas : forall d b, is_bytes d -> bnbl_load d = Ok b -> bnbl_save b = Ok d <-> exact_places d 6.
Proof. exact bnbl_exact. Qed.
Print Assumptions C124_touch_areas.
Theorem C124_image_positions : forall d b, is_bytes d -> bncl_load d = Ok b -> bncl_save b = Ok d <-> exact_places d 8.
Proof. exact bncl_exact. Qed.
Print Assumptions C124_image_positions.

(** ** archives; what the filename table is written as is C04 *)
Theorem C124_archive : forall depth d n, is_bytes d -> narc_load depth d = Ok n ->
  narc_save n = Ok d <-> exists names, FntModel.save (nFilenames n) = Ok names /\ exact_narc d names.
Proof. exact narc_exact. Qed.
Print Assumptions C124_archive.

(** ** files that are reproduced *)
Definition sound_first (m : string) (size blocks : Z) : bytes := asc m ++ [0xFF; 0xFE; 0; 1] ++ le 4 size ++ le 2 16 ++ le 2 blocks.
Definition same_wave : bytes := sound_first "SWAV" 0x27 1 ++ asc "DATA" ++ le 4 0x17 ++ [2; 1; 3; 0; 4; 0; 5; 0; 6; 0; 0; 0] ++ [1; 2; 3].
Definition same_archive : bytes := sound_first "SWAR" 0x61 1 ++ asc "DATA" ++ le 4 0x51 ++ zeros 32 ++ le 4 2 ++ le 4 0x44 ++ le 4 0x52 ++
  [0; 1; 0; 1; 0; 1; 0; 1; 0; 0; 0; 0; 5; 6] ++ [2; 0; 1; 0; 0; 0; 0; 0; 0; 0; 0; 0; 7; 8; 9].
(** three rows of two channels, filled up to four bytes *)
Definition same_stream : bytes := sound_first "STRM" 0x7C 2 ++ asc "HEAD" ++ le 4 0x50 ++ [1; 1; 2; 0; 1; 0; 2; 0] ++ concat (map (le 4) [3; 16; 0x68; 3; 3; 5; 1; 6; 11; 12; 13; 14; 15; 16; 17; 18]) ++
  asc "DATA" ++ le 4 28 ++ [1; 2; 3; 4; 5; 6; 0; 0; 7; 8; 9; 10; 11; 12; 0; 0; 13; 14; 0; 0].
Definition same_sequence : bytes := sound_first "SSEQ" 0x1F 1 ++ asc "DATA" ++ le 4 0x0F ++ le 4 0x1C ++ [1; 2; 3].
Definition same_sequences : bytes := sound_first "SSAR" 0x3A 1 ++ asc "DATA" ++ le 4 0x2A ++ le 4 0x38 ++ le 4 2 ++
  (le 4 0xFFFFFFFF ++ le 2 1 ++ [2; 3; 4; 5; 0; 0]) ++ (le 4 0x80000000 ++ le 2 9 ++ [8; 7; 6; 5; 0; 0]) ++ [0xFF; 0xFF].
Definition same_areas : bytes := asc "JNBL" ++ [5; 0; 2; 0] ++ [0x34; 0x12; 1; 0x20; 9; 8] ++ [255; 0x2F; 0; 0; 255; 0].
Definition same_positions : bytes := asc "JNCL" ++ [5; 0; 1; 0] ++ [0x34; 0x12; 1; 0x20; 1; 2; 0; 1].
(** the filename table of nine bytes is filled up with 0xFF, the first file with 0 *)
Definition same_narc : bytes := asc "NARC" ++ [0xFE; 0xFF; 0; 1] ++ le 4 0x50 ++ le 2 16 ++ le 2 3 ++
  asc "BTAF" ++ le 4 0x1C ++ le 4 2 ++ (le 4 0 ++ le 4 3) ++ (le 4 4 ++ le 4 8) ++ asc "BTNF" ++ le 4 20 ++ (le 4 8 ++ le 2 0 ++ le 2 1 ++ [0; 0xFF; 0xFF; 0xFF]) ++ asc "GMIF" ++ le 4 0x10 ++ [5; 6; 7; 0] ++ [1; 2; 3; 4].
Example C124_ex :
  (is_bytes same_wave /\ is_bytes same_archive /\ is_bytes same_stream /\ is_bytes same_sequence) /\
  (is_bytes same_sequences /\ is_bytes same_areas /\ is_bytes same_positions /\ is_bytes same_narc) /\
  (exists w, swav_load same_wave = Ok w /\ swav_save w false false = Ok (w, same_wave)) /\
  (exists r, swar_load same_archive 3 = Ok r /\ swar_save r = Ok (same_archive, 3)) /\
  (exists s, strm_load same_stream (1, 2, 3, 4, 5) = Ok s /\ strm_save s false = Ok (s, (same_stream, (1, 2, 3, 4, 5)))) /\
  (exists s, sseq_load same_sequence (0, 0, 127, 64, 50, 0) = Ok s /\ sseq_save s = Ok (same_sequence, (0, 0, 127, 64, 50, 0))) /\
  (exists r, ssar_load same_sequences 5 [Some [65]] = Ok r /\ ssar_save r = Ok (same_sequences, 5, [Some [65]; None])) /\
  (exists b, bnbl_load same_areas = Ok b /\ bnbl_save b = Ok same_areas) /\
  (exists b, bncl_load same_positions = Ok b /\ bncl_save b = Ok same_positions) /\
  (exists n, narc_load 9 same_narc = Ok n /\ narc_save n = Ok same_narc).
Proof.
  split; [repeat split; all_bytes|]. split; [repeat split; all_bytes|]. repeat match goal with |- _ /\ _ => split end; eexists; (split; [vm_compute; reflexivity|vm_compute; reflexivity]).
Qed.
(** ** and files that are not *)
Example C124_ex_odd :
  (exists w x, swav_load odd_wave = Ok w /\ swav_save w false false = Ok (w, x) /\ x <> odd_wave) /\
  (exists r x, swar_load odd_archive 3 = Ok r /\ swar_save r = Ok (x, 3) /\ x <> odd_archive) /\
  (exists s x, strm_load odd_stream (1, 2, 3, 4, 5) = Ok s /\ strm_save s false = Ok (s, (x, (1, 2, 3, 4, 5))) /\ x <> odd_stream) /\
  (exists s x, sseq_load odd_sseq (0, 0, 127, 64, 50, 0) = Ok s /\ sseq_save s = Ok (x, (0, 0, 127, 64, 50, 0)) /\ x <> odd_sseq) /\
  (exists r x, ssar_load odd_ssar 5 [] = Ok r /\ ssar_save r = Ok (x, 5, [None; None]) /\ x <> odd_ssar) /\
  (exists b x, bnbl_load odd_areas = Ok b /\ bnbl_save b = Ok x /\ x <> odd_areas) /\
  (exists b x, bncl_load odd_positions = Ok b /\ bncl_save b = Ok x /\ x <> odd_positions) /\
  (exists n x, narc_load 9 odd_narc = Ok n /\ narc_save n = Ok x /\ x <> odd_narc).
Proof.
  repeat match goal with |- _ /\ _ => split end; eexists; eexists; (split; [vm_compute; reflexivity|split; [vm_compute; reflexivity|vm_compute; discriminate]]).
Qed.

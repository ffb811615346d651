(** * Loading arbitrary bytes: it ends, and the exceptions it can raise *)
From Coq Require Import String.
From Verif Require Import PyBase PyLemmas CommonModel FntModel NarcModel BnModel WaveModel SeqModel ColorModel SbnkModel SsarModel SsarLemmas SdatModel SdatProps
  TexModel TexProps NsbmdModel NsbmdProps LzModel CodeModel RomModel LoadTotal.

(** every theorem below lists the exceptions that can come out of a loader, for
    all contents of the file; OutOfFuel, the model's mark of a loop that has not
    ended, is in none of the lists *)
Ltac from_raises L := intros; match goal with H : _ = Err _ |- _ => let R := fresh in pose proof L as R; rewrite H in R; exact R end.

(** ** C85: filename tables, and archives and ROMs with them *)
Theorem C85_fnt : forall depth data e, is_bytes data -> FntModel.load depth data = Err e -> In e [StructError; RecursionError].
Proof. intros depth data e B. from_raises (fnt_raises depth data B). Qed.
Print Assumptions C85_fnt.
(** at most 4096 nested calls are ever of use: folder IDs have 12 bits, so a
    recursion limit above that changes nothing, and a table that still exceeds
    it can be read with no limit at all *)
Theorem C85_fnt_depth : forall depth data, (4096 <= depth)%nat -> FntModel.load depth data = FntModel.load 4096 data.
Proof. intros depth data. apply load_limit. Qed.
Print Assumptions C85_fnt_depth.
Theorem C85_fnt_endless : forall data, FntModel.load 4096 data = Err RecursionError -> forall depth, FntModel.load depth data = Err RecursionError.
Proof.
  intros data H depth. destruct (Nat.le_gt_cases 4096 depth) as [L|L]; [rewrite load_limit by exact L; exact H|].
  destruct (FntModel.load depth data) as [f|e] eqn:E.
  - exfalso. unfold FntModel.load in *. pose proof (folder_more_n data 0xF000 (4096 - depth) depth ltac:(congruence)) as X. rewrite Nat.sub_add in X by lia. congruence.
  - f_equal. unfold FntModel.load in *. pose proof (folder_more_n data 0xF000 (4096 - depth) depth) as X. rewrite Nat.sub_add in X by lia. rewrite H, E in X.
    destruct e; try reflexivity; exfalso; specialize (X ltac:(discriminate)); discriminate X.
Qed.
Print Assumptions C85_fnt_endless.
(** a folder that contains itself *)
Definition ex_cycle : bytes := le 4 8 ++ le 2 0 ++ le 2 1 ++ (0x81 :: asc "a" ++ le 2 0xF000) ++ [0].
Example C85_fnt_ex : FntModel.load 30 [] = Err StructError /\ FntModel.load 4096 ex_cycle = Err RecursionError.
Proof. vm_compute. split; reflexivity. Qed.

Theorem C85_narc : forall depth data e, is_bytes data -> narc_load depth data = Err e ->
  In e [ValueError; AssertionError; StructError; RecursionError].
Proof. intros depth data e B. from_raises (narc_raises depth data B). Qed.
Print Assumptions C85_narc.
Definition ex_narc_with (fnt : bytes) : bytes :=
  asc "NARC" ++ le 2 0xFEFF ++ le 2 1 ++ le 4 0 ++ le 2 16 ++ le 2 3 ++ asc "BTAF" ++ le 4 12 ++ le 4 0 ++
  asc "BTNF" ++ le 4 (8 + zlen fnt) ++ fnt ++ asc "GMIF" ++ le 4 8.
Example C85_narc_ex : narc_load 30 [] = Err StructError /\ narc_load 30 (zeros 16) = Err ValueError /\
  narc_load 30 (asc "NARC" ++ le 2 0xFEFF ++ le 2 1 ++ zeros 20) = Err AssertionError /\ narc_load 30 (ex_narc_with ex_cycle) = Err RecursionError /\
  exists n, narc_load 30 (ex_narc_with (le 4 8 ++ le 2 0 ++ le 2 1 ++ [0])) = Ok n.
Proof. vm_compute. repeat (split; [reflexivity|]). eexists. reflexivity. Qed.

(** a ROM is never refused because of its size: shorter data is padded, so
    struct.error comes from the position of the banner or from the filename table *)
Theorem C85_rom : forall depth data e, is_bytes data -> rom_load depth data = Err e -> In e [StructError; RecursionError].
Proof. intros depth data e B. from_raises (rom_raises depth data B). Qed.
Print Assumptions C85_rom.
Definition ex_rom_with (fntOff fntLen banner : Z) (rest : bytes) : bytes :=
  zeros 0x40 ++ le 4 fntOff ++ le 4 fntLen ++ zeros 0x20 ++ le 4 banner ++ zeros 0x194 ++ rest.
Example C85_rom_ex : rom_load 30 (ex_rom_with 0 0 0x400 []) = Err StructError /\ rom_load 30 (ex_rom_with 0x200 13 0 ex_cycle) = Err RecursionError /\
  (exists r, rom_load 30 [] = Ok r) /\ exists r, rom_load 30 (ex_rom_with 0x200 9 0 (le 4 8 ++ le 2 0 ++ le 2 1 ++ [0])) = Ok r.
Proof. vm_compute. split; [reflexivity|]. split; [reflexivity|]. split; eexists; reflexivity. Qed.

(** ** C85: the other files *)
Theorem C85_touch_areas : forall data e, bnbl_load data = Err e -> In e [ValueError; StructError].
Proof. intros data e. from_raises (bnbl_raises data). Qed.
Print Assumptions C85_touch_areas.
Theorem C85_image_positions : forall data e, bncl_load data = Err e -> In e [ValueError; StructError].
Proof. intros data e. from_raises (bncl_raises data). Qed.
Print Assumptions C85_image_positions.
Example C85_bn_ex : bnbl_load [] = Err ValueError /\ bnbl_load (asc "JNBL" ++ le 2 0 ++ le 2 1 ++ [0; 0; 0; 0; 0]) = Err StructError /\
  bncl_load (asc "JNBL") = Err ValueError /\ bncl_load (asc "JNCL") = Err StructError.
Proof. vm_compute. repeat split; reflexivity. Qed.

Theorem C85_waves : forall data e, (swav_load data = Err e \/ (exists u, swar_load data u = Err e) \/ exists i, strm_load data i = Err e) ->
  In e [ValueError; AssertionError; StructError].
Proof.
  intros data e [H|[[u H]|[i H]]]; [pose proof (swav_raises data) as R|pose proof (swar_raises data u) as R|pose proof (strm_raises data i) as R]; rewrite H in R; exact R.
Qed.
Print Assumptions C85_waves.
Definition ex_sound (m : string) : bytes := asc m ++ le 2 0xFEFF ++ le 2 0x100 ++ le 4 0 ++ le 2 16 ++ le 2 1.
Example C85_waves_ex : swav_load [] = Err ValueError /\ swav_load (asc "SWAV") = Err StructError /\ swav_load (ex_sound "SWAV" ++ zeros 30) = Err AssertionError /\
  swav_load (ex_sound "SWAV" ++ asc "DATA" ++ zeros 4 ++ (3 :: zeros 11)) = Err ValueError /\
  swar_load [] 0 = Err ValueError /\ swar_load (ex_sound "SWAR") 0 = Err StructError /\ swar_load (ex_sound "SWAR" ++ zeros 64) 0 = Err AssertionError /\
  strm_load [] (0, 0, 0, 0, 0) = Err ValueError /\ strm_load (ex_sound "STRM") (0, 0, 0, 0, 0) = Err StructError /\
  strm_load (ex_sound "STRM" ++ zeros 64) (0, 0, 0, 0, 0) = Err AssertionError.
Proof. vm_compute. repeat split; reflexivity. Qed.

(** a sound archive, whatever the files in it are (order: see C53) *)
Theorem C85_sound_archive : forall order data e, sdat_load order data = Err e -> In e [ValueError; AssertionError; StructError; IndexError].
Proof. intros order data e. from_raises (sdat_raises order data). Qed.
Print Assumptions C85_sound_archive.
(** [ex_file] with one byte replaced *)
Definition with_byte (d : bytes) (i v : Z) : bytes := slice_to d i ++ v :: slice_from d (i + 1).
Example C85_sdat_ex : (exists s, sdat_load [1; 16; 17] ex_file = Ok s) /\ sdat_load [1; 16; 17] [] = Err StructError /\ sdat_load [1; 16; 17] (zeros 60) = Err ValueError /\
  sdat_load [1; 16; 17] (ex_sound "SDAT" ++ zeros 60) = Err AssertionError /\
  sdat_load [1; 16; 17] (with_byte ex_file (unle (slice ex_file 0x20 0x24) + 8) 1) = Err IndexError.
Proof. split; [eexists; vm_compute; reflexivity|]. vm_compute. repeat split; reflexivity. Qed.

Theorem C85_textures : forall data e, nsbtx_load data = Err e -> In e [ValueError; AssertionError; StructError; IndexError].
Proof. intros data e. from_raises (nsbtx_raises data). Qed.
Print Assumptions C85_textures.
(** the TEX0 block itself never raises the KeyError and ValueError that the lookup
    of palette offsets could: the offset looked for is always there *)
Theorem C85_texture_block : forall data e, readTEX0 data = Err e -> In e [AssertionError; StructError; IndexError].
Proof. intros data e. from_raises (readTEX0_raises data). Qed.
Print Assumptions C85_texture_block.
Definition ex_nsbtx : bytes := Eval vm_compute in
  match nsbtx_save (demo_nsbtx [(Some (asc "p"), demo_pal 0 (rep (C4 1 2 3 1) 16)); (Some (asc "q"), demo_pal 0 (rep (C4 31 0 3 0) 4))]) with Ok d => d | Err _ => [] end.
Example C85_textures_ex : (exists x, nsbtx_load ex_nsbtx = Ok x) /\ nsbtx_load [] = Err ValueError /\ nsbtx_load (asc "BTX0") = Err StructError /\
  nsbtx_load (with_byte ex_nsbtx 14 2) = Err AssertionError /\
  nsbtx_load (with_byte ex_nsbtx (0x14 + 0x30) 0) = Err IndexError /\ readTEX0 (slice_from (with_byte ex_nsbtx (0x14 + 0x30) 0) 0x14) = Err IndexError.
Proof. split; [eexists; vm_compute; reflexivity|]. vm_compute. repeat split; reflexivity. Qed.

Theorem C85_models : forall data e, nsbmd_load data = Err e -> In e [ValueError; AssertionError; StructError; IndexError].
Proof. intros data e. from_raises (nsbmd_raises data). Qed.
Print Assumptions C85_models.
Definition ex_nsbmd : bytes := Eval vm_compute in match nsbmd_save demo_nsbmd with Ok d => d | Err _ => [] end.
Example C85_models_ex : (exists x, nsbmd_load ex_nsbmd = Ok x) /\ nsbmd_load [] = Err ValueError /\ nsbmd_load (asc "BMD0") = Err StructError /\
  nsbmd_load (with_byte ex_nsbmd 0x14 0) = Err ValueError /\
  nsbmd_load (with_byte ex_nsbmd (unle (slice ex_nsbmd 0x10 0x14) + 12) 0) = Err AssertionError /\
  nsbmd_load (with_byte ex_nsbmd (unle (slice ex_nsbmd 0x14 0x18) + 0x30) 0) = Err IndexError.
Proof. split; [eexists; vm_compute; reflexivity|]. vm_compute. repeat split; reflexivity. Qed.

(** overlay tables: besides what the callback that fetches the files raises *)
Theorem C85_overlays : forall tab cb ids e, (forall o f d, cb o f = Ok d -> is_bytes d) -> loadOverlayTable tab cb ids = Err e ->
  (exists o f, cb o f = Err e) \/ In e [StructError; ValueError; RuntimeError; IndexError].
Proof.
  intros tab cb ids e B H. pose proof (overlays_raises tab cb ids (fun e => exists o f, cb o f = Err e)) as R.
  assert (C : forall o f, raises (fun e => exists o f, cb o f = Err e) (cb o f)) by (intros o f; destruct (cb o f) eqn:E; cbn [raises]; [exact I|eexists _, _; exact E]).
  specialize (R C B). rewrite H in R. exact R.
Qed.
Print Assumptions C85_overlays.
Example C85_overlays_ex : loadOverlayTable (zeros 33) (fun _ _ => Ok []) None = Err StructError /\
  loadOverlayTable (zeros 32) (fun _ _ => Err KeyError) None = Err KeyError /\
  loadOverlayTable (zeros 31 ++ [1]) (fun _ _ => Ok [1; 2; 3; 4; 5]) None = Err StructError /\ (exists l, loadOverlayTable (zeros 32) (fun _ _ => Ok []) None = Ok l).
Proof. vm_compute. repeat (split; [reflexivity|]). eexists. reflexivity. Qed.

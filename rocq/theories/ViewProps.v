(** * C102, C103: what arbitrary ROMs and filename tables are read as

    The round trips say what becomes of files this library has written.  Here the
    file is any sequence of bytes, and the statements say which bytes of it each
    part of the object is. *)
From Coq Require Import String Relations.
From Verif Require Import PyBase PyLemmas PyTac CommonModel FntModel FntSpec CodeModel RomModel RomSpec RomLoad LoadTotal ViewSpec ViewLemmas ViewRom RomProps.

Definition fnt_part (d : bytes) : bytes := part d (word d 0x40) (word d 0x44).
Definition fat_part (d : bytes) : bytes := part d (word d 0x48) (word d 0x4C).
(** a ROM is read iff its banner has a version and its filename table is one *)
Theorem C102_accepted : forall depth d, is_bytes d -> 0x200 <= zlen d ->
  (exists r, rom_load depth d = Ok r) <->
  (word d 0x68 = 0 \/ word d 0x68 + 2 <= zlen d) /\ (fnt_part d = [] \/ exists t, FntModel.load depth (fnt_part d) = Ok t).
Proof.
  intros depth d B L. destruct (rom_view depth d B L) as (post & order & _ & _ & ->). pose proof (word_range d 0x68 B ltac:(lia) ltac:(lia)) as W. unfold banner_res, names_res, fnt_of. fold (fnt_part d). split.
  - intros (r & H). apply bind_ok in H as (ban & H1 & H). apply bind_ok in H as (names & H2 & H). split.
    + destruct (Z.eqb_spec (word d 0x68) 0) as [E|E]; [left; exact E|]. apply bind_ok in H1 as (v & H1 & _). right. apply (unpack_u_lt 2) in H1; lia.
    + destruct (fnt_part d) as [|x l]; [left; reflexivity|right; exists names; exact H2].
  - intros (H1 & H2). assert (E1 : exists ban, (if word d 0x68 =? 0 then Ok [] else v <- unpack_u 2 d (word d 0x68) ;; Ok (slice d (word d 0x68) (word d 0x68 + banner_len v))) = Ok ban).
    { destruct (Z.eqb_spec (word d 0x68) 0) as [E|E]; [eexists; reflexivity|]. rewrite unpack_half by lia. eexists. reflexivity. }
    destruct E1 as (ban & ->). cbn [bind]. assert (E2 : exists t, match fnt_part d with [] => Ok (Folder [] [] 0) | _ => FntModel.load depth (fnt_part d) end = Ok t).
    { destruct (fnt_part d) as [|x l]; [eexists; reflexivity|]. destruct H2 as [H2|H2]; [discriminate|exact H2]. }
    destruct E2 as (t & ->). eexists. reflexivity.
Qed.
Print Assumptions C102_accepted.
(** shorter data is filled up with zeros to the size of the header *)
Theorem C102_short : forall depth d, zlen d < 0x200 -> rom_load depth d = rom_load depth (d ++ zeros (0x200 - zlen d)).
Proof.
  intros depth d L. unfold rom_load at 1. assert (Q : (zlen d <? 0x200) = true) by (clear - L; lia). rewrite Q. unfold rom_load.
  assert (Q2 : (zlen (d ++ zeros (0x200 - zlen d)) <? 0x200) = false) by (rewrite zlen_app, zlen_zeros by (clear - L; lia); clear; lia). rewrite Q2. reflexivity.
Qed.
Print Assumptions C102_short.
(** the header *)
Theorem C102_header : forall depth d r, is_bytes d -> 0x200 <= zlen d -> rom_load depth d = Ok r ->
  (exists k, part d 0 12 = name r ++ repeat 0 k /\ last (name r) 1 <> 0) /\
  [idCode r; developerCode r; secureAreaDisable r; pad088 r; nintendoLogo r; pad16C r] =
    [part d 0xC 4; part d 0x10 2; part d 0x78 8; part d 0x88 0x38; part d 0xC0 0x9C; part d 0x16C 0x94] /\
  [unitCode r; encryptionSeedSelect r; deviceCapacity r; pad015 r; pad016 r; pad017 r; pad018 r; pad019 r; pad01A r; pad01B r; pad01C r; region r; RomModel.version r; autostart r] =
    map (byte d) [0x12; 0x13; 0x14; 0x15; 0x16; 0x17; 0x18; 0x19; 0x1A; 0x1B; 0x1C; 0x1D; 0x1E; 0x1F] /\
  [arm9EntryAddress r; arm9RamAddress r; arm7EntryAddress r; arm7RamAddress r; normalCardControl r; secureCardControl r; arm9CodeSettings r; arm7CodeSettings r; debugRomAddress r] =
    map (word d) [0x24; 0x28; 0x34; 0x38; 0x60; 0x64; 0x70; 0x74; 0x168] /\
  [secureAreaChecksum r; secureTransferDelay r] = map (half d) [0x6C; 0x6E].
Proof.
  intros depth d r B L H. destruct (rom_view depth d B L) as (post & order & _ & _ & E). rewrite E in H. apply bind_ok in H as (ban & _ & H). apply bind_ok in H as (names & _ & H). injection H as <-.
  split; [|repeat split]. cbn [viewed name]. exact (rstrip_split (part d 0 12)).
Qed.
Print Assumptions C102_header.
(** code, tables and debug ROM lie where the header says, and what is between the
    header and the ARM9 code is kept *)
Theorem C102_parts : forall depth d r, is_bytes d -> 0x200 <= zlen d -> rom_load depth d = Ok r ->
  arm9 r = part d (word d 0x20) (word d 0x2C) /\ arm7 r = part d (word d 0x30) (word d 0x3C) /\
  arm9OverlayTable r = part d (word d 0x50) (word d 0x54) /\ arm7OverlayTable r = part d (word d 0x58) (word d 0x5C) /\
  debugRom r = part d (word d 0x160) (if word d 0x160 =? 0 then 0 else word d 0x164) /\
  pad200 r = part d 0x200 (word d 0x20 - 0x200) /\ trailer d (word d 0x20 + word d 0x2C) (arm9PostData r).
Proof.
  intros depth d r B L H. destruct (rom_view depth d B L) as (post & order & T & _ & E). rewrite E in H. apply bind_ok in H as (ban & _ & H). apply bind_ok in H as (names & _ & H). injection H as <-.
  cbn [viewed arm9 arm7 arm9OverlayTable arm7OverlayTable debugRom pad200 arm9PostData]. do 4 (split; [reflexivity|]). split; [destruct (_ =? _); reflexivity|]. split; [reflexivity|exact T].
Qed.
Print Assumptions C102_parts.
(** the signature: at the offset stored at 0x1000, otherwise behind the size given in
    the header; at most 0x88 bytes *)
Theorem C102_signature : forall depth d r, is_bytes d -> 0x200 <= zlen d -> rom_load depth d = Ok r ->
  (0x1004 <= zlen d -> word d 0x1000 <> 0 -> rsaSignature r = part d (word d 0x1000) 0x88) /\
  (zlen d < 0x1004 \/ word d 0x1000 = 0 -> rsaSignature r = part d (word d 0x80) (if word d 0x80 =? 0 then 0 else 0x88)).
Proof.
  intros depth d r B L H. destruct (rom_view depth d B L) as (post & order & _ & _ & E). rewrite E in H. apply bind_ok in H as (ban & _ & H). apply bind_ok in H as (names & _ & H). injection H as <-.
  cbn [viewed rsaSignature]. unfold signature_at. pose proof (word_range d 0x80 B ltac:(lia) ltac:(lia)) as W. split.
  - intros L2 N. rewrite (proj2 (Z.leb_le 0x1004 (zlen d)) L2), (proj2 (Z.eqb_neq (word d 0x1000) 0) N). cbn [andb negb]. rewrite (proj2 (Z.eqb_neq (word d 0x1000) 0) N). reflexivity.
  - intros C. assert (C' : (0x1004 <=? zlen d) && negb (word d 0x1000 =? 0) = false) by (destruct C as [C|C]; [rewrite (proj2 (Z.leb_gt 0x1004 (zlen d)) C); reflexivity|rewrite C; apply andb_false_r]).
    rewrite C'. destruct (Z.ltb_spec (word d 0x80) (zlen d)) as [S|S]; [destruct (word d 0x80 =? 0); reflexivity|]. cbn [Z.eqb]. unfold part. rewrite skipn_all2 by (unfold zlen in S; lia). rewrite firstn_nil. reflexivity.
Qed.
Print Assumptions C102_signature.
(** the files are the ranges of the file allocation table, in its order *)
Theorem C102_files : forall depth d r, is_bytes d -> 0x200 <= zlen d -> rom_load depth d = Ok r ->
  zlen (files r) = zlen (fat_part d) / 8 /\
  (forall i, (i < List.length (files r))%nat -> let start := word (fat_part d) (8 * Z.of_nat i) in
     nth_error (files r) i = Some (part d start (word (fat_part d) (8 * Z.of_nat i + 4) - start))) /\
  by_offset (fun i => word (fat_part d) (8 * Z.of_nat i)) (List.length (files r)) (sortedFileIds r).
Proof.
  intros depth d r B L H. destruct (rom_view depth d B L) as (post & order & _ & O & E). rewrite E in H. apply bind_ok in H as (ban & _ & H). apply bind_ok in H as (names & _ & H). injection H as <-.
  cbn [viewed files sortedFileIds]. rewrite map_length, seq_length. split; [unfold zlen at 1; rewrite map_length, seq_length; apply Z2Nat.id; apply Z.div_pos; [apply zlen_nonneg|lia]|]. split; [|exact O].
  intros i I. cbv zeta. rewrite nth_error_map, (nth_error_nth' _ 0%nat), seq_nth by (rewrite ?seq_length; exact I). reflexivity.
Qed.
Print Assumptions C102_files.
(** the names are those of the filename table, if there is one *)
Theorem C102_names : forall depth d r, is_bytes d -> 0x200 <= zlen d -> rom_load depth d = Ok r ->
  (fnt_part d = [] /\ filenames r = Folder [] [] 0) \/ (fnt_part d <> [] /\ denotes (fnt_part d) 0 (filenames r)).
Proof.
  intros depth d r B L H. destruct (rom_view depth d B L) as (post & order & _ & _ & E). rewrite E in H. apply bind_ok in H as (ban & _ & H). apply bind_ok in H as (names & N & H). injection H as <-.
  cbn [viewed filenames]. unfold names_res, fnt_of in N. fold (fnt_part d) in N. destruct (fnt_part d) as [|x l] eqn:F; [left; split; congruence|right; split; [discriminate|]].
  apply (folder_read (x :: l) depth) with (id := 0xF000); [rewrite <- F; apply is_bytes_part; exact B|lia|exact N].
Qed.
Print Assumptions C102_names.
(** a ROM nobody would write: the ARM9 code reaches beyond the end of the file, a
    file overlaps the table, and the signature follows the given size *)
Definition set_words (l : list (Z * Z)) (d : bytes) : bytes := fold_left (fun d p => slice_set d (fst p) (fst p + 4) (le 4 (snd p))) l d.
Definition odd_rom : bytes := set_words [(0x20, 0x212); (0x2C, 100); (0x30, 0x20E); (0x3C, 3); (0x48, 0x200); (0x4C, 17); (0x80, 0x213); (0x160, 0x1FF); (0x164, 2); (0x200, 0x210); (0x204, 0x214); (0x208, 0x20C); (0x20C, 0x212)] (zeros 0x210 ++ [1; 2; 3; 4; 5; 6]).
Example C102_ex : is_bytes odd_rom /\ 0x200 <= zlen odd_rom /\ exists r, rom_load 1 odd_rom = Ok r /\ arm9 r = [3; 4; 5; 6] /\ arm7 r = [0; 0; 1] /\
  files r = [[1; 2; 3; 4]; [0x12; 2; 0; 0; 1; 2]] /\ sortedFileIds r = [1; 0] /\ rsaSignature r = [4; 5; 6] /\ debugRom r = [0; 0x10] /\ zlen (pad200 r) = 0x12 /\ iconBanner r = [].
Proof. split; [apply Forall_forall; intros x I; pose proof (proj1 (forallb_forall byteb odd_rom) ltac:(vm_compute; reflexivity) x I) as Q; unfold byteb in Q; unfold is_byte; lia|]. split; [vm_compute; discriminate|]. eexists. split; [vm_compute; reflexivity|]. vm_compute. repeat split. Qed.

(** the banner: none without an offset, otherwise as long as its version, a half word at
    its start, says; versions other than these four count as 1 *)
Theorem C102_banner : forall depth d r, is_bytes d -> 0x200 <= zlen d -> rom_load depth d = Ok r ->
  (word d 0x68 = 0 -> iconBanner r = []) /\
  (word d 0x68 <> 0 -> forall v n, half d (word d 0x68) = v -> In (v, n) [(1, 0x840); (2, 0x940); (3, 0x1240); (0x103, 0x23C0)] -> iconBanner r = part d (word d 0x68) n) /\
  (word d 0x68 <> 0 -> ~ In (half d (word d 0x68)) [1; 2; 3; 0x103] -> iconBanner r = part d (word d 0x68) 0x840).
Proof.
  intros depth d r B L H. destruct (rom_view depth d B L) as (post & order & T & _ & E). rewrite E in H. apply bind_ok in H as (ban & HB & H). apply bind_ok in H as (names & _ & H). injection H as <-.
  pose proof (word_range d 0x68 B ltac:(lia) ltac:(lia)) as W. cbn [viewed iconBanner]. unfold banner_res in HB. split; [|].
  - intros Q. rewrite Q in HB. cbn [Z.eqb] in HB. injection HB as <-. reflexivity.
  - assert (K : word d 0x68 <> 0 -> ban = part d (word d 0x68) (banner_len (half d (word d 0x68)))).
    { intros Q. rewrite (proj2 (Z.eqb_neq _ _) Q) in HB. apply bind_ok in HB as (v & V & HB). pose proof V as V2. apply (unpack_u_lt 2) in V2; [|lia]. rewrite unpack_half in V by lia. injection V as <-. injection HB as <-. rewrite slice_part0; [reflexivity|lia|]. unfold banner_len. repeat destruct (_ =? _); lia. }
    split.
    + intros Q v n V I. rewrite (K Q), V. cbn [In] in I. destruct I as [I|[I|[I|[I|[]]]]]; injection I as <- <-; reflexivity.
    + intros Q N. rewrite (K Q). f_equal. unfold banner_len. cbn [In] in N. repeat rewrite (proj2 (Z.eqb_neq _ _)) by (intros X; apply N; rewrite X; tauto). reflexivity.
Qed.
Print Assumptions C102_banner.
(** a banner of an unknown version, cut off at the end of the file *)
Definition banner_rom : bytes := set_words [(0x68, 0x208)] (zeros 0x208 ++ [7; 1; 5; 6]).
Example C102_banner_ex : is_bytes banner_rom /\ 0x200 <= zlen banner_rom /\ half banner_rom (word banner_rom 0x68) = 0x107 /\ exists r, rom_load 1 banner_rom = Ok r /\ iconBanner r = [7; 1; 5; 6].
Proof. split; [apply Forall_forall; intros x I; pose proof (proj1 (forallb_forall byteb banner_rom) ltac:(vm_compute; reflexivity) x I) as Q; unfold byteb in Q; unfold is_byte; lia|]. split; [vm_compute; discriminate|]. split; [vm_compute; reflexivity|]. eexists. split; [vm_compute; reflexivity|]. vm_compute. reflexivity. Qed.

(** ** C103: filename tables *)
(** the folders returned are exactly those the table describes *)
Theorem C103_read : forall depth d g, is_bytes d -> (4096 <= depth)%nat -> FntModel.load depth d = Ok g <-> denotes d 0 g.
Proof. intros depth d g B D. apply load_iff; assumption. Qed.
Print Assumptions C103_read.
Theorem C103_any_depth : forall depth d g, is_bytes d -> FntModel.load depth d = Ok g -> denotes d 0 g.
Proof. intros depth d g B H. apply (folder_read d depth) with (id := 0xF000); [exact B|lia|exact H]. Qed.
Print Assumptions C103_any_depth.
(** the nesting is too deep only if there is a way from the root to a folder that
    contains itself, and a table with such a folder is never read *)
Theorem C103_endless : forall d, is_bytes d -> FntModel.load 4096 d = Err RecursionError ->
  exists n, clos_refl_trans Z (lists d) 0 n /\ clos_trans Z (lists d) n n.
Proof. exact endless_cycle. Qed.
Print Assumptions C103_endless.
Theorem C103_cycle : forall d n, is_bytes d -> clos_refl_trans Z (lists d) 0 n -> clos_trans Z (lists d) n n ->
  forall depth, exists e, FntModel.load depth d = Err e /\ (e = RecursionError \/ e = StructError).
Proof.
  intros d n B R T depth. destruct (FntModel.load depth d) as [g|e] eqn:E.
  - exfalso. apply (cycle_fails d n B R T g). apply (folder_read d depth) with (id := 0xF000); [exact B|lia|exact E].
  - exists e. split; [reflexivity|]. pose proof (fnt_raises depth d B) as Q. rewrite E in Q. destruct Q as [Q|[Q|[]]]; [right|left]; symmetry; exact Q.
Qed.
Print Assumptions C103_cycle.
(** folders 0 and 1: a file "a", the folder "b" (number 1) with a file "c", a file "d"
    after it; in the other table folder 1 lists itself *)
Definition ex_table : bytes := le 4 16 ++ le 2 5 ++ le 2 2 ++ le 4 25 ++ le 2 7 ++ le 2 0xF000 ++ [1; 97; 129; 98; 1; 0xF0; 1; 100; 0] ++ [1; 99; 0].
Definition ex_loop : bytes := le 4 16 ++ le 2 5 ++ le 2 2 ++ le 4 16 ++ le 2 7 ++ le 2 0xF000 ++ [1; 97; 129; 98; 1; 0xF0; 1; 100; 0].
Example C103_ex : denotes ex_table 0 (Folder [(asc "b", Folder [] [asc "c"] 7)] [asc "a"; asc "d"] 5) /\ FntModel.load 4096 ex_table = Ok (Folder [(asc "b", Folder [] [asc "c"] 7)] [asc "a"; asc "d"] 5).
Proof.
  assert (E : FntModel.load 2 ex_table = Ok (Folder [(asc "b", Folder [] [asc "c"] 7)] [asc "a"; asc "d"] 5)) by (vm_compute; reflexivity).
  assert (B : is_bytes ex_table) by (repeat (constructor; [vm_compute; split; [discriminate|reflexivity]|]); constructor).
  split; [exact (C103_any_depth 2 _ _ B E)|]. apply C103_read; [exact B|lia|exact (C103_any_depth 2 _ _ B E)].
Qed.
Example C103_loop_ex : FntModel.load 100 ex_loop = Err RecursionError /\ clos_refl_trans Z (lists ex_loop) 0 1 /\ clos_trans Z (lists ex_loop) 1 1.
Proof.
  assert (L : forall n, n = 0 \/ n = 1 -> lists ex_loop n 1).
  { intros n H. split; [destruct H as [-> | ->]; vm_compute; discriminate|]. assert (E : word ex_loop (8 * n) = 16) by (destruct H as [-> | ->]; vm_compute; reflexivity). rewrite E.
    apply lf_file; [vm_compute; split; [discriminate|reflexivity]|vm_compute; split; reflexivity|]. apply (lf_here _ _ _ 1); vm_compute; try (split; [discriminate|reflexivity]); try reflexivity; discriminate. }
  split; [vm_compute; reflexivity|]. split; [apply rt_step, L; left; reflexivity|apply t_step, L; right; reflexivity].
Qed.

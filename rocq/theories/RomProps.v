(** * Properties of NintendoDSRom (ndspy/rom.py) *)
From Coq Require Import String.
From Verif Require Import PyBase AtLemmas CommonModel FntModel FntSpec FntSaveLemmas CodeModel RomModel RomSpec RomLayout RomLoad RomChecks.

(** a small ROM: three files, one of them an overlay, code with a trailer *)
Definition ex_ovt : bytes := zeros 0x18 ++ [1; 0; 0; 0] ++ zeros 4.
Definition ex_rom : rom :=
  {| name := asc "TEST"; idCode := asc "ABCD"; developerCode := asc "01";
     unitCode := 0; encryptionSeedSelect := 0; deviceCapacity := 9;
     pad015 := 0; pad016 := 0; pad017 := 0; pad018 := 0; pad019 := 0; pad01A := 0; pad01B := 0; pad01C := 0;
     region := 1; version := 2; autostart := 0;
     arm9EntryAddress := 0x2000800; arm9RamAddress := 0x2000000; arm7EntryAddress := 0x2380000; arm7RamAddress := 0x2380000;
     normalCardControl := 1; secureCardControl := 2; secureAreaChecksum := 3; secureTransferDelay := 4;
     arm9CodeSettings := 5; arm7CodeSettings := 6; secureAreaDisable := [1]; pad088 := zeros 0x38; nintendoLogo := default_logo;
     debugRomAddress := 7; pad16C := zeros 0x94; pad200 := [9; 9]; rsaSignature := [1; 2; 3];
     arm9 := [10; 11; 12]; arm9PostData := magic ++ zeros 8; arm7 := [20; 21];
     arm9OverlayTable := ex_ovt; arm7OverlayTable := []; iconBanner := [1; 0] ++ zeros 0x83E; debugRom := [30];
     filenames := Folder [] [asc "a"; asc "b"; asc "c"] 0; files := [[100]; [101; 101]; [102; 102; 102]];
     sortedFileIds := [2; 7] |}.
Definition ex_data : bytes := match rom_save false ex_rom with Ok (d, _) => d | Err _ => [] end.
Example C14_ex_save : rom_save false ex_rom = Ok (ex_data, ex_rom).
Proof. vm_compute. reflexivity. Qed.
Example C14_ex_places : zlen ex_data = 0x5C00 /\ map (fat_start ex_data) [0; 1; 2]%nat = [0x5A00; 0x4400; 0x5800] /\
  map (word ex_data) [0x20; 0x30; 0x40; 0x48; 0x50; 0x58; 0x68; 0x80; 0x160] = [0x4000; 0x4600; 0x4800; 0x4A00; 0x4200; 0; 0x4C00; 0x5A20; 0x5600].
Proof. vm_compute. repeat split. Qed.

(** C14: every part is found, intact, where the header or the FAT says *)
Theorem C14_layout : forall upd r data r1, rom_save upd r = Ok (data, r1) ->
  (word data 0x20 mod 0x4000 = 0 /\ 0x4000 <= word data 0x20 /\ word data 0x2C = zlen (arm9 r) /\
   stored data (word data 0x20) (arm9 r ++ arm9PostData r)) /\
  (word data 0x3C = zlen (arm7 r) /\ stored data (word data 0x30) (arm7 r)) /\
  (exists fnt, FntModel.save (filenames r) = Ok fnt /\ word data 0x44 = zlen fnt /\ stored data (word data 0x40) fnt) /\
  (word data 0x54 = zlen (arm9OverlayTable r) /\ announced data 0x50 (arm9OverlayTable r)) /\
  (word data 0x5C = zlen (arm7OverlayTable r) /\ announced data 0x58 (arm7OverlayTable r)) /\
  announced data 0x68 (iconBanner r) /\
  (word data 0x164 = zlen (debugRom r) /\ announced data 0x160 (debugRom r)) /\
  (word data 0x1000 = word data 0x80 /\ stored data (word data 0x80) (rsaSignature r)) /\
  word data 0x4C = 8 * zlen (files r) /\
  (forall i f, nth_error (files r) i = Some f ->
     word data (word data 0x48 + 8 * Z.of_nat i + 4) = fat_start data i + zlen f /\
     stored data (fat_start data i) f /\ fat_start data i mod 0x200 = 0 /\ 0x4000 <= fat_start data i).
Proof. exact saved_layout. Qed.
Print Assumptions C14_layout.

(** C14: no two of the ranges carrying data overlap *)
Theorem C14_disjoint : forall upd r data r1, rom_save upd r = Ok (data, r1) -> ForallOrdPairs disjoint (regions r data).
Proof. exact saved_disjoint. Qed.
Print Assumptions C14_disjoint.
Example C14_ex_regions : length (regions ex_rom ex_data) = 14%nat.
Proof. vm_compute. reflexivity. Qed.

(** C15: loading a saved ROM; [reloaded] lists the result field by field.  The
    data after the ARM9 code has to be recognisable as such. *)
Theorem C15_roundtrip : forall upd r data r1 depth, rom_save upd r = Ok (data, r1) ->
  files_named (filenames r) -> (height (filenames r) <= depth)%nat -> post_blocks (arm9PostData r) ->
  ~ stored data (word data 0x20 + zlen (arm9 r) + zlen (arm9PostData r)) magic ->
  exists order, rom_load depth data = Ok (reloaded r1 data order) /\ by_offset (fat_start data) (length (files r)) order.
Proof. exact load_saved. Qed.
Print Assumptions C15_roundtrip.
(** the last hypothesis holds whenever padding follows the code *)
Theorem C15_padding_follows : forall upd r data r1, rom_save upd r = Ok (data, r1) ->
  (zlen (arm9 r) + zlen (arm9PostData r)) mod 0x200 <> 0 ->
  ~ stored data (word data 0x20 + zlen (arm9 r) + zlen (arm9PostData r)) magic.
Proof. exact padding_follows. Qed.
Print Assumptions C15_padding_follows.
Example C15_ex_hyps : files_named (filenames ex_rom) /\ (height (filenames ex_rom) <= 2)%nat /\ post_blocks (arm9PostData ex_rom) /\
  (zlen (arm9 ex_rom) + zlen (arm9PostData ex_rom)) mod 0x200 <> 0.
Proof.
  split; [apply files_namedb_ok; reflexivity|]. split; [vm_compute; lia|]. split; [|vm_compute; discriminate].
  exact (pb_cons (zeros 8) [] eq_refl pb_nil).
Qed.
Example C15_ex_load : exists r', rom_load 2 ex_data = Ok r' /\ files r' = files ex_rom /\ filenames r' = filenames ex_rom /\
  sortedFileIds r' = [1; 2; 0] /\ name r' = asc "TEST" /\ arm9PostData r' = magic ++ zeros 8 /\ secureAreaDisable r' = 1 :: zeros 7.
Proof. eexists. split; [vm_compute; reflexivity|]. vm_compute. repeat split. Qed.

(** without that hypothesis the property fails: code that ends on a multiple of
    0x200 swallows the beginning of an ARM7 binary starting with 21 06 C0 DE *)
Definition with_code (r : rom) (a9 a7 : bytes) : rom :=
  {| name := name r; idCode := idCode r; developerCode := developerCode r;
     unitCode := unitCode r; encryptionSeedSelect := encryptionSeedSelect r; deviceCapacity := deviceCapacity r;
     pad015 := 0; pad016 := 0; pad017 := 0; pad018 := 0; pad019 := 0; pad01A := 0; pad01B := 0; pad01C := 0;
     region := region r; version := version r; autostart := autostart r;
     arm9EntryAddress := 0; arm9RamAddress := 0; arm7EntryAddress := 0; arm7RamAddress := 0;
     normalCardControl := 1; secureCardControl := 2; secureAreaChecksum := 3; secureTransferDelay := 4;
     arm9CodeSettings := 5; arm7CodeSettings := 6; secureAreaDisable := zeros 8; pad088 := zeros 0x38; nintendoLogo := default_logo;
     debugRomAddress := 7; pad16C := zeros 0x94; pad200 := []; rsaSignature := [];
     arm9 := a9; arm9PostData := []; arm7 := a7;
     arm9OverlayTable := []; arm7OverlayTable := []; iconBanner := []; debugRom := [];
     filenames := Folder [] [] 0; files := []; sortedFileIds := [] |}.
Definition swallow_rom : rom := with_code ex_rom (zeros 0x200) (magic ++ [1; 2; 3; 4; 5; 6; 7; 8; 9]).
Theorem C15_trailer_refuted : exists r data r1 r', rom_save false r = Ok (data, r1) /\ post_blocks (arm9PostData r) /\
  rom_load 2 data = Ok r' /\ arm9PostData r = [] /\ arm9PostData r' = magic ++ [1; 2; 3; 4; 5; 6; 7; 8].
Proof.
  exists swallow_rom, (match rom_save false swallow_rom with Ok (d, _) => d | Err _ => [] end), swallow_rom,
    (match rom_load 2 (match rom_save false swallow_rom with Ok (d, _) => d | Err _ => [] end) with Ok r => r | Err _ => swallow_rom end).
  split; [vm_compute; reflexivity|]. split; [exact pb_nil|]. split; [vm_compute; reflexivity|]. split; [reflexivity|]. vm_compute. reflexivity.
Qed.
Print Assumptions C15_trailer_refuted.

(** the size of an icon banner is the one of its version, that of version 1 for any
    other version; otherwise the ROM cannot be saved *)
Definition banner_size (v n : Z) : Prop :=
  (v = 1 /\ n = 0x840) \/ (v = 2 /\ n = 0x940) \/ (v = 3 /\ n = 0x1240) \/ (v = 0x103 /\ n = 0x23C0) \/ (~ In v [1; 2; 3; 0x103] /\ n = 0x840).
Lemma banner_len_size v : banner_size v (banner_len v).
Proof. unfold banner_size, banner_len. cbn [In]. repeat match goal with |- context [Z.eqb v ?c] => destruct (Z.eqb_spec v c) as [->|]; [tauto|] end. right. right. right. right. split; [|reflexivity]. intuition congruence. Qed.
Lemma unpack_slice n d o v : 0 <= o -> unpack_u n d o = Ok v -> v = unle (slice d o (o + Z.of_nat n)).
Proof. intros P. unfold unpack_u, unpack_e. destruct (Z_lt_ge_dec (zlen d) (o + Z.of_nat n)) as [Q|Q]; [unfold rd, struct_off; replace (o <? 0) with false by lia; replace (zlen d <? o + Z.of_nat n) with true by lia; discriminate|]. rewrite PyLemmas.rd_slice by lia. cbn [bind dec]. congruence. Qed.
Theorem C15_banner_saved : forall upd r data r1, rom_save upd r = Ok (data, r1) -> iconBanner r <> [] -> banner_size (half (iconBanner r) 0) (zlen (iconBanner r)).
Proof.
  intros upd r data r1 E NE. destruct (RomHeader.rom_save_spec _ _ _ _ E) as (D & l & P & fnt & h & cap & B & _). destruct (RomBody.bs_banner _ _ _ _ _ B) as [X|(v & V & ->)]; [congruence|]. rewrite (unpack_slice _ _ _ _ (Z.le_refl 0) V). apply banner_len_size.
Qed.
Print Assumptions C15_banner_saved.
Theorem C15_banner_loaded : forall depth data r, rom_load depth data = Ok r -> is_bytes data -> 0x200 <= zlen data ->
  (word data 0x68 = 0 /\ iconBanner r = []) \/ (word data 0x68 <> 0 /\ exists n, banner_size (half data (word data 0x68)) n /\ iconBanner r = slice data (word data 0x68) (word data 0x68 + n)).
Proof.
  intros depth data r E BO L. unfold rom_load in E. assert (Q : (zlen data <? 0x200) = false) by (clear - L; lia). rewrite Q in E. cbv zeta in E.
  repeat match type of E with bind _ _ = Ok _ => let v := fresh "v" in let H := fresh "H" in apply PyLemmas.bind_ok in E as (v & H & E); cbv beta in E end.
  match type of E with (let (_, _) := ?p in _) = _ => destruct p as [fs order] end.
  apply (f_equal (fun z => match z with Ok y => iconBanner y | Err _ => [] end)) in E. cbv beta iota in E. cbn [iconBanner] in E. rewrite <- E. clear E.
  match goal with H : unpack_u 4 data 0x68 = Ok ?v |- _ => pose proof (PyTac.unpack_u_range _ _ _ _ BO H) as R; apply (unpack_slice 4) in H; [|lia]; change v with v in *; subst v end.
  change (unle (slice data 0x68 (0x68 + Z.of_nat 4))) with (word data 0x68) in *.
  match goal with H : (if word data 0x68 =? 0 then _ else _) = Ok ?b |- _ => destruct (Z.eqb_spec (word data 0x68) 0) as [Z0|Z0]; [left; split; [exact Z0|congruence]|right; split; [exact Z0|]; destruct (unpack_u 2 data (word data 0x68)) as [w|] eqn:W; [|discriminate]; cbn [bind] in H; apply (unpack_slice 2) in W; [|lia]; subst w; exists (banner_len (half data (word data 0x68))); split; [apply banner_len_size|unfold half; change (Z.of_nat 2) with 2 in *; congruence]] end.
Qed.
Print Assumptions C15_banner_loaded.
Example C15_banner_ex : let data v := zeros 0x68 ++ [0; 2] ++ zeros 0x196 ++ le 2 v ++ zeros 0x2500 in
  map (fun v => match rom_load 1 (data v) with Ok r => zlen (iconBanner r) | Err _ => -1 end) [1; 2; 3; 0x103; 0x100] = [0x840; 0x940; 0x1240; 0x23C0; 0x840].
Proof. vm_compute. reflexivity. Qed.

(** C16: size, logo and its checksum, header checksum, header size, capacity byte *)
Theorem C16_header : forall upd r data r1, rom_save upd r = Ok (data, r1) ->
  zlen data mod 0x400 = 0 /\ 0x4000 <= zlen data /\
  slice data 0xC0 0x15C = nintendoLogo r /\ half data 0x15C = crc16 (nintendoLogo r) /\
  half data 0x15E = crc16 (slice data 0 0x15E) /\ word data 0x84 = 0x4000 /\ get data 0x14 = Ok (deviceCapacity r1).
Proof. exact saved_header. Qed.
Print Assumptions C16_header.
Example C16_ex_crc : half ex_data 0x15C = 0xCF56 /\ half ex_data 0x15E = crc16 (slice ex_data 0 0x15E).
Proof. vm_compute. repeat split. Qed.

(** C16: with [updateDeviceCapacity] the capacity stands for the smallest power
    of two that is not below the size of the file; without, nothing changes *)
Theorem C16_capacity : forall r data r1, rom_save true r = Ok (data, r1) ->
  zlen data <= 2 ^ (17 + deviceCapacity r1) /\ (forall k, 0 <= k -> zlen data <= 2 ^ k -> 17 + deviceCapacity r1 <= k) /\ 0 <= deviceCapacity r1.
Proof. exact saved_capacity. Qed.
Print Assumptions C16_capacity.
Definition big_rom : rom := with_code ex_rom (zeros 0x1F000) [].
Example C16_ex_capacity : match rom_save true big_rom with Ok (d, r1) => zlen d = 0x23400 /\ deviceCapacity r1 = 1 | Err _ => False end.
Proof. vm_compute. split; reflexivity. Qed.
Theorem C16_unchanged : forall r data r1, rom_save false r = Ok (data, r1) -> r1 = r.
Proof. exact saved_keeps. Qed.
Print Assumptions C16_unchanged.
(** the option makes every ROM of at most 64 KiB impossible to save *)
Theorem C16_small_fails : forall r data r1, rom_save false r = Ok (data, r1) -> zlen data <= 0x10000 -> rom_save true r = Err ValueError.
Proof. exact small_fails. Qed.
Print Assumptions C16_small_fails.
Example C16_ex_small : rom_save true ex_rom = Err ValueError.
Proof. vm_compute. reflexivity. Qed.

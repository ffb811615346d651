(** * Changing the code and the overlays of a ROM (for C122) *)
From Verif Require Import PyBase CodeModel RomModel RomSpec ViewSpec ViewProps RomViewSpec EditSpec.

(** what a program does that assigns the attributes arm9, arm7, arm9OverlayTable,
    arm7OverlayTable and files of a ROM (rom.py:148-157) *)
Definition with_code (r : rom) (a9 a7 t9 t7 : bytes) (fs : list bytes) : rom :=
  {| name := name r; idCode := idCode r; developerCode := developerCode r;
     unitCode := unitCode r; encryptionSeedSelect := encryptionSeedSelect r;
     deviceCapacity := deviceCapacity r;
     pad015 := pad015 r; pad016 := pad016 r; pad017 := pad017 r; pad018 := pad018 r;
     pad019 := pad019 r; pad01A := pad01A r; pad01B := pad01B r; pad01C := pad01C r;
     region := region r; version := version r; autostart := autostart r;
     arm9EntryAddress := arm9EntryAddress r; arm9RamAddress := arm9RamAddress r;
     arm7EntryAddress := arm7EntryAddress r; arm7RamAddress := arm7RamAddress r;
     normalCardControl := normalCardControl r; secureCardControl := secureCardControl r;
     secureAreaChecksum := secureAreaChecksum r; secureTransferDelay := secureTransferDelay r;
     arm9CodeSettings := arm9CodeSettings r; arm7CodeSettings := arm7CodeSettings r;
     secureAreaDisable := secureAreaDisable r; pad088 := pad088 r; nintendoLogo := nintendoLogo r;
     debugRomAddress := debugRomAddress r; pad16C := pad16C r; pad200 := pad200 r;
     rsaSignature := rsaSignature r; arm9 := a9; arm9PostData := arm9PostData r; arm7 := a7;
     arm9OverlayTable := t9; arm7OverlayTable := t7;
     iconBanner := iconBanner r; debugRom := debugRom r;
     filenames := filenames r; files := fs; sortedFileIds := sortedFileIds r |}.
(** the same for the overlays of one processor *)
Definition with_overlays (nine : bool) (r : rom) (table : bytes) (fs : list bytes) : rom :=
  if nine then with_code r (arm9 r) (arm7 r) table (arm7OverlayTable r) fs
  else with_code r (arm9 r) (arm7 r) (arm9OverlayTable r) table fs.
Definition load_overlays (nine : bool) (r : rom) : option (Z -> bool) -> res (list (Z * overlay)) :=
  if nine then loadArm9Overlays r else loadArm7Overlays r.
Definition table_of (nine : bool) (r : rom) : bytes := if nine then arm9OverlayTable r else arm7OverlayTable r.

(** the ROM [data], made from the ROM [d]: names and header are those of [d], the
    four parts and the files are the given ones *)
Record reworked (d data : bytes) (a9 a7 t9 t7 : bytes) (fs : list bytes) : Prop := {
  rw_names : forall p id, found (fnt_part data) 0 p id <-> found (fnt_part d) 0 p id;
  rw_count : forall i, 0 <= i -> (has_file data i <-> i < zlen fs);
  rw_files : forall i, 0 <= i < zlen fs -> nth_error fs (Z.to_nat i) = Some (rom_file data i);
  rw_header : kept_header d data;
  rw_code : part data (word data 0x20) (word data 0x2C) = a9 /\ part data (word data 0x30) (word data 0x3C) = a7;
  rw_tables : part data (word data 0x50) (word data 0x54) = t9 /\ part data (word data 0x58) (word data 0x5C) = t7 }.

(** overlay [ov] was written, compressed ([c]) or not, as the file [f] and is read
    back as [ov']: the code is the same; the size in RAM, the size of the file and
    the bit that tells compression follow it; the rest is the same *)
Definition stored_as (c : bool) (ov : overlay) (f : bytes) (ov' : overlay) : Prop :=
  oData ov' = oData ov /\ oRamSize ov' = zlen (oData ov) /\ oCompressedSize ov' = zlen f /\
  (forall n, 0 <= n -> Z.testbit (oFlags ov') n = if n =? 0 then c else Z.testbit (oFlags ov) n) /\
  oRamAddress ov' = oRamAddress ov /\ oBssSize ov' = oBssSize ov /\ oSiStart ov' = oSiStart ov /\
  oSiEnd ov' = oSiEnd ov /\ oFileID ov' = oFileID ov /\
  (if c then unpacked f (oData ov) else f = oData ov).

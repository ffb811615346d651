(** * ndspy/rom.py: class NintendoDSRom

    [name], [idCode], ... hold bytes; integer attributes are [Z].  Loading a
    ROM creates a new object, so [rom_load] returns one; [rom_save] returns the
    file and the object after the call ([save] may change [deviceCapacity]). *)
From Verif Require Import PyBase CommonModel FntModel CodeModel.

(** attributes (rom.py:47-91) *)
Record rom := {
  name : bytes; idCode : bytes; developerCode : bytes;
  unitCode : Z; encryptionSeedSelect : Z; deviceCapacity : Z;
  pad015 : Z; pad016 : Z; pad017 : Z; pad018 : Z;
  pad019 : Z; pad01A : Z; pad01B : Z; pad01C : Z;
  region : Z; version : Z; autostart : Z;
  arm9EntryAddress : Z; arm9RamAddress : Z;
  arm7EntryAddress : Z; arm7RamAddress : Z;
  normalCardControl : Z; secureCardControl : Z;
  secureAreaChecksum : Z; secureTransferDelay : Z;
  arm9CodeSettings : Z; arm7CodeSettings : Z;
  secureAreaDisable : bytes; pad088 : bytes; nintendoLogo : bytes;
  debugRomAddress : Z; pad16C : bytes; pad200 : bytes; rsaSignature : bytes;
  arm9 : bytes; arm9PostData : bytes; arm7 : bytes;
  arm9OverlayTable : bytes; arm7OverlayTable : bytes;
  iconBanner : bytes; debugRom : bytes;
  filenames : folder; files : list bytes; sortedFileIds : list Z }.

(** [_ICON_BANNER_LENGTHS.get(version, _ICON_BANNER_LENGTHS[1])] (rom.py:33-39) *)
Definition banner_len (v : Z) : Z :=
  if v =? 1 then 0x840 else if v =? 2 then 0x940 else if v =? 3 then 0x1240
  else if v =? 0x103 then 0x23C0 else 0x840.

(** the loop reading [arm9PostData] (rom.py:292-299) *)
Fixpoint post_loop (fuel : nat) (d : bytes) (off : Z) : res bytes :=
  match fuel with
  | O => Err OutOfFuel
  | S k => if beq (slice d off (off + 4)) [0x21; 0x06; 0xC0; 0xDE]
           then r <- post_loop k d (off + 12) ;; Ok (slice d off (off + 12) ++ r)
           else Ok []
  end.

(** one iteration of the loop over the FAT (rom.py:311-314): the files so far
    and the dictionary [offset2Id] *)
Definition fat_step (d fat : bytes) (st : list bytes * list (Z * Z)) (i : Z)
  : res (list bytes * list (Z * Z)) :=
  s <- unpack_u 4 fat (8 * i) ;; e <- unpack_u 4 fat (8 * i + 4) ;;
  Ok (fst st ++ [slice d s e], dset (snd st) s i).

(** reading the files (rom.py:307-317) *)
Definition load_files (d fat : bytes) : res (list bytes * list Z) :=
  st <- foldM (fat_step d fat) ([], []) (range_z 0 (Z.to_nat (zlen fat / 8))) ;;
  Ok (fst st, map snd (sort_keys (snd st))).

(** [realSigOffset] (rom.py:253-258) *)
Definition sig_off (d : bytes) (romSize : Z) : res Z :=
  real <- (if 0x1004 <=? zlen d then unpack_u 4 d 0x1000 else Ok 0) ;;
  Ok (if (real =? 0) && (romSize <? zlen d) then romSize else real).

(** [_initFromData] (rom.py:160-317).  The header is read with a cursor; the
    cursor's values are written out here (the [assert]s on it at 0x15, 0x20, ...
    always hold, because every read advances it by a fixed amount).  [depth]
    bounds the recursion of [fnt.load], as in FntModel. *)
Definition rom_load (depth : nat) (data : bytes) : res rom :=
  let d := if zlen data <? 0x200 then data ++ zeros (0x200 - zlen data) else data in
  let raw o n := slice d o (o + n) in
  let r8 := get d in
  let r16 := unpack_u 2 d in
  let r32 := unpack_u 4 d in
  unit_ <- r8 0x12 ;; seed <- r8 0x13 ;; cap <- r8 0x14 ;;
  p15 <- r8 0x15 ;; p16 <- r8 0x16 ;; p17 <- r8 0x17 ;; p18 <- r8 0x18 ;;
  p19 <- r8 0x19 ;; p1A <- r8 0x1A ;; p1B <- r8 0x1B ;; p1C <- r8 0x1C ;;
  reg <- r8 0x1D ;; ver <- r8 0x1E ;; auto_ <- r8 0x1F ;;
  arm9Offset <- r32 0x20 ;; arm9Entry <- r32 0x24 ;; arm9Ram <- r32 0x28 ;; arm9Len <- r32 0x2C ;;
  arm7Offset <- r32 0x30 ;; arm7Entry <- r32 0x34 ;; arm7Ram <- r32 0x38 ;; arm7Len <- r32 0x3C ;;
  fntOffset <- r32 0x40 ;; fntLen <- r32 0x44 ;; fatOffset <- r32 0x48 ;; fatLen <- r32 0x4C ;;
  ovt9Offset <- r32 0x50 ;; ovt9Len <- r32 0x54 ;; ovt7Offset <- r32 0x58 ;; ovt7Len <- r32 0x5C ;;
  normal <- r32 0x60 ;; secure <- r32 0x64 ;; bannerOffset <- r32 0x68 ;;
  sac <- r16 0x6C ;; std <- r16 0x6E ;;
  cs9 <- r32 0x70 ;; cs7 <- r32 0x74 ;;
  romSize <- r32 0x80 ;;
  debugOffset <- r32 0x160 ;; debugSize <- r32 0x164 ;; debugAddr <- r32 0x168 ;;
  sig <- sig_off d romSize ;;
  let fnt := slice d fntOffset (fntOffset + fntLen) in
  let fat := slice d fatOffset (fatOffset + fatLen) in
  ban <- (if bannerOffset =? 0 then Ok []
          else v <- unpack_u 2 d bannerOffset ;;
               Ok (slice d bannerOffset (bannerOffset + banner_len v))) ;;
  post <- post_loop (S (length d)) d (arm9Offset + arm9Len) ;;
  names <- (match fnt with [] => Ok (Folder [] [] 0) | _ => FntModel.load depth fnt end) ;;
  '(fs, order) <- (match fat with [] => Ok ([], []) | _ => load_files d fat end) ;;
  Ok {| name := rstrip 0 (raw 0 12); idCode := raw 0xC 4; developerCode := raw 0x10 2;
        unitCode := unit_; encryptionSeedSelect := seed; deviceCapacity := cap;
        pad015 := p15; pad016 := p16; pad017 := p17; pad018 := p18;
        pad019 := p19; pad01A := p1A; pad01B := p1B; pad01C := p1C;
        region := reg; version := ver; autostart := auto_;
        arm9EntryAddress := arm9Entry; arm9RamAddress := arm9Ram;
        arm7EntryAddress := arm7Entry; arm7RamAddress := arm7Ram;
        normalCardControl := normal; secureCardControl := secure;
        secureAreaChecksum := sac; secureTransferDelay := std;
        arm9CodeSettings := cs9; arm7CodeSettings := cs7;
        secureAreaDisable := raw 0x78 8; pad088 := raw 0x88 0x38; nintendoLogo := raw 0xC0 0x9C;
        debugRomAddress := debugAddr; pad16C := raw 0x16C 0x94;
        pad200 := slice d 0x200 (Z.min arm9Offset (zlen d));
        rsaSignature := if sig =? 0 then [] else slice d sig (Z.min (zlen d) (sig + 0x88));
        arm9 := slice d arm9Offset (arm9Offset + arm9Len); arm9PostData := post;
        arm7 := slice d arm7Offset (arm7Offset + arm7Len);
        arm9OverlayTable := slice d ovt9Offset (ovt9Offset + ovt9Len);
        arm7OverlayTable := slice d ovt7Offset (ovt7Offset + ovt7Len);
        iconBanner := ban;
        debugRom := if debugOffset =? 0 then [] else slice d debugOffset (debugOffset + debugSize);
        filenames := names; files := fs; sortedFileIds := order |}.

(** ** save *)

(** [fileOffsets]: newest entry first *)
Definition offs : Type := list (Z * Z).
Fixpoint off_of (o : offs) (k : Z) : option Z :=
  match o with [] => None | (k', v) :: r => if k' =? k then Some v else off_of r k end.
(** [k in fileOffsets] *)
Definition packed (o : offs) (k : Z) : bool := match off_of o k with Some _ => true | None => false end.

(** [align(0x200, b'\xFF')] (rom.py:339-343) *)
Definition alignF (d : bytes) : bytes := pad_to 0x200 0xFF d.

(** the body of the overlay loops (rom.py:364-368, 384-388) *)
Definition pack_overlay (fs : list bytes) (table : bytes) (st : bytes * offs) (i : Z)
  : res (bytes * offs) :=
  id <- unpack_u 4 table (i + 0x18) ;;
  f <- get fs id ;;
  Ok (alignF (fst st ++ f), (id, zlen (fst st)) :: snd st).

(** [for i in range(0, len(table), 32)] *)
Definition pack_overlays (fs : list bytes) (table : bytes) (st : bytes * offs) : res (bytes * offs) :=
  foldM (pack_overlay fs table) st
    (map (fun n => 32 * n) (range_z 0 (Z.to_nat ((zlen table + 31) / 32)))).

(** an optional part: [if part: offset = len(data); data.extend(part); align
    else: offset = 0] (rom.py:356-361, 376-381, 416-421) *)
Definition pack_part (part d : bytes) : bytes * Z :=
  match part with [] => (d, 0) | _ => (alignF (d ++ part), zlen d) end.

(** the body of the loop over the remaining files (rom.py:432-437) *)
Definition pack_file (fs : list bytes) (st : bytes * offs) (n : Z) : res (bytes * offs) :=
  f <- get fs n ;;
  let d := alignF (fst st) in
  Ok (d ++ f, (n, zlen d) :: snd st).

(** one element of [iterFilenums] (rom.py:424-430) together with the loop body:
    the generator is lazy, so its tests see the offsets recorded so far *)
Definition pack_sorted (fs : list bytes) (st : bytes * offs) (n : Z) : res (bytes * offs) :=
  if negb (packed (snd st) n) && (n <? zlen fs) then pack_file fs st n else Ok st.
Definition pack_rest (fs : list bytes) (st : bytes * offs) (n : Z) : res (bytes * offs) :=
  if negb (packed (snd st) n) then pack_file fs st n else Ok st.

(** the body of the loop filling the FAT (rom.py:440-444) *)
Definition put_fat (o : offs) (fatOffset : Z) (d : bytes) (x : Z * bytes) : res bytes :=
  let (i, file) := x in
  match off_of o i with
  | None => Err AssertionError
  | Some s => b <- pack_us [(4%nat, s); (4%nat, s + zlen file)] ;; put d (fatOffset + 8 * i) b
  end.

(** the offsets found while the body is packed *)
Record layout := {
  oArm9 : Z; oOvt9 : Z; oArm7 : Z; oOvt7 : Z; oFnt : Z; lFnt : Z; oFat : Z;
  oBanner : Z; oDebug : Z; oRsa : Z; oFiles : offs }.

(** everything after the header (rom.py:334-456) *)
Definition rom_body (r : rom) : res (bytes * layout) :=
  let d0 := pad_to 0x4000 0 (zeros 0x200 ++ pad200 r) in
  let arm9Offset := zlen d0 in
  let d1 := alignF (d0 ++ arm9 r ++ arm9PostData r) in
  let (d2, ovt9Offset) := pack_part (arm9OverlayTable r) d1 in
  '(d3, o3) <- pack_overlays (files r) (arm9OverlayTable r) (d2, []) ;;
  let arm7Offset := zlen d3 in
  let d4 := alignF (d3 ++ arm7 r) in
  let (d5, ovt7Offset) := pack_part (arm7OverlayTable r) d4 in
  '(d6, o6) <- pack_overlays (files r) (arm7OverlayTable r) (d5, o3) ;;
  let fntOffset := zlen d6 in
  fnt <- FntModel.save (filenames r) ;;
  let d7 := alignF (d6 ++ fnt) in
  let fatOffset := zlen d7 in
  let d8 := alignF (d7 ++ zeros (8 * zlen (files r))) in
  _ <- (match iconBanner r with
        | [] => Ok tt
        | b => v <- unpack_u 2 b 0 ;; guard (zlen b =? banner_len v) AssertionError
        end) ;;
  let (d9, bannerOffset) := pack_part (iconBanner r) d8 in
  let (d10, debugOffset) := pack_part (debugRom r) d9 in
  st11 <- foldM (pack_sorted (files r)) (d10, o6) (sortedFileIds r) ;;
  '(d12, o12) <- foldM (pack_rest (files r)) st11 (range_z 0 (length (files r))) ;;
  d13 <- foldM (put_fat o12 fatOffset) d12
           (combine (range_z 0 (length (files r))) (files r)) ;;
  let d14 := pad_to 0x20 0 d13 in
  let rsaOffset := zlen d14 in
  w <- pack_u 4 rsaOffset ;;
  d15 <- put (d14 ++ rsaSignature r) 0x1000 w ;;
  Ok (pad_to 0x400 0 d15,
      {| oArm9 := arm9Offset; oOvt9 := ovt9Offset; oArm7 := arm7Offset; oOvt7 := ovt7Offset;
         oFnt := fntOffset; lFnt := zlen fnt; oFat := fatOffset;
         oBanner := bannerOffset; oDebug := debugOffset; oRsa := rsaOffset; oFiles := o12 |}).

(** [writeRaw] after an [assert] on the length; [writeRaw(x.ljust(n, b'\0')[:n])];
    [write8]; [write16]; [write32] (rom.py:466-481) *)
Inductive hfield :=
| HLen (b : bytes) (n : Z) | HFix (b : bytes) (n : Z) | H8 (v : Z) | H16 (v : Z) | H32 (v : Z).
Definition hwrite (f : hfield) : res bytes :=
  match f with
  | HLen b n => _ <- guard (zlen b =? n) AssertionError ;; Ok b
  | HFix b n => Ok (slice (ljust b n 0) 0 n)
  | H8 v => if byteb v then Ok [v] else Err ValueError
  | H16 v => pack_u 2 v
  | H32 v => pack_u 4 v
  end.

(** header fields up to the logo (rom.py:483-537); [cap] is [deviceCapacity] *)
Definition header_fields (r : rom) (l : layout) (cap : Z) : list hfield :=
  [ HFix (name r) 12; HLen (idCode r) 4; HLen (developerCode r) 2;
    H8 (unitCode r); H8 (encryptionSeedSelect r); H8 cap;
    H8 (pad015 r); H8 (pad016 r); H8 (pad017 r); H8 (pad018 r);
    H8 (pad019 r); H8 (pad01A r); H8 (pad01B r); H8 (pad01C r);
    H8 (region r); H8 (version r); H8 (autostart r);
    H32 (oArm9 l); H32 (arm9EntryAddress r); H32 (arm9RamAddress r); H32 (zlen (arm9 r));
    H32 (oArm7 l); H32 (arm7EntryAddress r); H32 (arm7RamAddress r); H32 (zlen (arm7 r));
    H32 (oFnt l); H32 (lFnt l); H32 (oFat l); H32 (zlen (files r) * 8);
    H32 (oOvt9 l); H32 (zlen (arm9OverlayTable r));
    H32 (oOvt7 l); H32 (zlen (arm7OverlayTable r));
    H32 (normalCardControl r); H32 (secureCardControl r); H32 (oBanner l);
    H16 (secureAreaChecksum r); H16 (secureTransferDelay r);
    H32 (arm9CodeSettings r); H32 (arm7CodeSettings r); HFix (secureAreaDisable r) 8;
    H32 (oRsa l); H32 0x4000; HLen (pad088 r) 0x38; HLen (nintendoLogo r) 0x9C;
    H16 (crc16 (nintendoLogo r)) ].
(** the fields after the checksums (rom.py:541-545) *)
Definition debug_fields (r : rom) (l : layout) : list hfield :=
  [ H32 (oDebug l); H32 (zlen (debugRom r)); H32 (debugRomAddress r); HLen (pad16C r) 0x94 ].

(** the finished header (rom.py:465-547).  The fields are written one after the
    other from offset 0, so [data[0:0x15e]] is what has been written so far. *)
Definition rom_header (r : rom) (l : layout) (cap : Z) : res bytes :=
  a <- mapM hwrite (header_fields r l cap) ;;
  c <- hwrite (H16 (crc16 (concat a))) ;;
  b <- mapM hwrite (debug_fields r l) ;;
  Ok (concat a ++ c ++ concat b).

(** the object with another [deviceCapacity] *)
Definition set_capacity (r : rom) (cap : Z) : rom :=
  {| name := name r; idCode := idCode r; developerCode := developerCode r;
     unitCode := unitCode r; encryptionSeedSelect := encryptionSeedSelect r; deviceCapacity := cap;
     pad015 := pad015 r; pad016 := pad016 r; pad017 := pad017 r; pad018 := pad018 r;
     pad019 := pad019 r; pad01A := pad01A r; pad01B := pad01B r; pad01C := pad01C r;
     region := region r; version := version r; autostart := autostart r;
     arm9EntryAddress := arm9EntryAddress r; arm9RamAddress := arm9RamAddress r;
     arm7EntryAddress := arm7EntryAddress r; arm7RamAddress := arm7RamAddress r;
     normalCardControl := normalCardControl r; secureCardControl := secureCardControl r;
     secureAreaChecksum := secureAreaChecksum r; secureTransferDelay := secureTransferDelay r;
     arm9CodeSettings := arm9CodeSettings r; arm7CodeSettings := arm7CodeSettings r;
     secureAreaDisable := secureAreaDisable r; pad088 := pad088 r; nintendoLogo := nintendoLogo r;
     debugRomAddress := debugRomAddress r; pad16C := pad16C r; pad200 := pad200 r;
     rsaSignature := rsaSignature r; arm9 := arm9 r; arm9PostData := arm9PostData r; arm7 := arm7 r;
     arm9OverlayTable := arm9OverlayTable r; arm7OverlayTable := arm7OverlayTable r;
     iconBanner := iconBanner r; debugRom := debugRom r;
     filenames := filenames r; files := files r; sortedFileIds := sortedFileIds r |}.

(** [save(updateDeviceCapacity=upd)] (rom.py:329-549): the file and the object
    afterwards.  [math.ceil(math.log2(n))] is modelled by the exact
    [Z.log2_up n]; [n] is a multiple of 0x400 below 2^33, where the double
    computation is exact enough to agree.  The header replaces the first 0x200
    bytes. *)
Definition rom_save (upd : bool) (r : rom) : res (bytes * rom) :=
  '(d, l) <- rom_body r ;;
  let cap := if upd then Z.log2_up (zlen d) - 17 else deviceCapacity r in
  h <- rom_header r l cap ;;
  Ok (h ++ skipn 0x200 d, set_capacity r cap).

(** [NintendoDSRom()] (rom.py:105-157) *)
Definition default_logo : bytes :=
  [0x24;0xFF;0xAE;0x51;0x69;0x9A;0xA2;0x21;0x3D;0x84;0x82;0x0A;0x84;0xE4;0x09;0xAD;
   0x11;0x24;0x8B;0x98;0xC0;0x81;0x7F;0x21;0xA3;0x52;0xBE;0x19;0x93;0x09;0xCE;0x20;
   0x10;0x46;0x4A;0x4A;0xF8;0x27;0x31;0xEC;0x58;0xC7;0xE8;0x33;0x82;0xE3;0xCE;0xBF;
   0x85;0xF4;0xDF;0x94;0xCE;0x4B;0x09;0xC1;0x94;0x56;0x8A;0xC0;0x13;0x72;0xA7;0xFC;
   0x9F;0x84;0x4D;0x73;0xA3;0xCA;0x9A;0x61;0x58;0x97;0xA3;0x27;0xFC;0x03;0x98;0x76;
   0x23;0x1D;0xC7;0x61;0x03;0x04;0xAE;0x56;0xBF;0x38;0x84;0x00;0x40;0xA7;0x0E;0xFD;
   0xFF;0x52;0xFE;0x03;0x6F;0x95;0x30;0xF1;0x97;0xFB;0xC0;0x85;0x60;0xD6;0x80;0x25;
   0xA9;0x63;0xBE;0x03;0x01;0x4E;0x38;0xE2;0xF9;0xA2;0x34;0xFF;0xBB;0x3E;0x03;0x44;
   0x78;0x00;0x90;0xCB;0x88;0x11;0x3A;0x94;0x65;0xC0;0x7C;0x63;0x87;0xF0;0x3C;0xAF;
   0xD6;0x25;0xE4;0x8B;0x38;0x0A;0xAC;0x72;0x21;0xD4;0xF8;0x07].
Definition rom_new : rom :=
  {| name := []; idCode := [0x23;0x23;0x23;0x23]; developerCode := [0;0];
     unitCode := 0; encryptionSeedSelect := 0; deviceCapacity := 9;
     pad015 := 0; pad016 := 0; pad017 := 0; pad018 := 0;
     pad019 := 0; pad01A := 0; pad01B := 0; pad01C := 0;
     region := 0; version := 0; autostart := 0;
     arm9EntryAddress := 0x2000800; arm9RamAddress := 0x2000000;
     arm7EntryAddress := 0x2380000; arm7RamAddress := 0x2380000;
     normalCardControl := 0x0416657; secureCardControl := 0x81808f8;
     secureAreaChecksum := 0; secureTransferDelay := 0x0D7E;
     arm9CodeSettings := 0; arm7CodeSettings := 0;
     secureAreaDisable := zeros 8; pad088 := zeros 0x38; nintendoLogo := default_logo;
     debugRomAddress := 0; pad16C := zeros 0x94; pad200 := zeros 0x3E00;
     rsaSignature := []; arm9 := []; arm9PostData := []; arm7 := [];
     arm9OverlayTable := []; arm7OverlayTable := []; iconBanner := []; debugRom := [];
     filenames := Folder [] [] 0; files := []; sortedFileIds := [] |}.

(** the object with other file contents *)
Definition set_files (r : rom) (fs : list bytes) : rom :=
  {| name := name r; idCode := idCode r; developerCode := developerCode r;
     unitCode := unitCode r; encryptionSeedSelect := encryptionSeedSelect r;
     deviceCapacity := deviceCapacity r;
     pad015 := pad015 r; pad016 := pad016 r; pad017 := pad017 r; pad018 := pad018 r;
     pad019 := pad019 r; pad01A := pad01A r; pad01B := pad01B r; pad01C := pad01C r;
     region := region r; version := version r; autostart := autostart r;
     arm9EntryAddress := arm9EntryAddress r; arm9RamAddress := arm9RamAddress r;
     arm7EntryAddress := arm7EntryAddress r; arm7RamAddress := arm7RamAddress r;
     normalCardControl := normalCardControl r; secureCardControl := secureCardControl r;
     secureAreaChecksum := secureAreaChecksum r; secureTransferDelay := secureTransferDelay r;
     arm9CodeSettings := arm9CodeSettings r; arm7CodeSettings := arm7CodeSettings r;
     secureAreaDisable := secureAreaDisable r; pad088 := pad088 r; nintendoLogo := nintendoLogo r;
     debugRomAddress := debugRomAddress r; pad16C := pad16C r; pad200 := pad200 r;
     rsaSignature := rsaSignature r; arm9 := arm9 r; arm9PostData := arm9PostData r; arm7 := arm7 r;
     arm9OverlayTable := arm9OverlayTable r; arm7OverlayTable := arm7OverlayTable r;
     iconBanner := iconBanner r; debugRom := debugRom r;
     filenames := filenames r; files := fs; sortedFileIds := sortedFileIds r |}.

(** [getFileByName] / [setFileByName] (rom.py:605-624) *)
Definition rom_getFileByName (r : rom) (filename : list Z) : res bytes :=
  fid <- idOf (filenames r) filename ;;
  match fid with None => Err ValueError | Some i => get (files r) i end.
Definition rom_setFileByName (r : rom) (filename : list Z) (data : bytes) : res rom :=
  fid <- idOf (filenames r) filename ;;
  match fid with
  | None => Err ValueError
  | Some i => fs <- setl (files r) i data ;; Ok (set_files r fs)
  end.

(** [loadArm9], [loadArm7], [loadArm9Overlays], [loadArm7Overlays] (rom.py:567-602) *)
Definition loadArm9 (r : rom) : res mcf := mcf_new (arm9 r) (arm9RamAddress r) (Some (arm9CodeSettings r)).
Definition loadArm7 (r : rom) : res mcf := mcf_new (arm7 r) (arm7RamAddress r) (Some (arm7CodeSettings r)).
Definition loadArm9Overlays (r : rom) (ids : option (Z -> bool)) : res (list (Z * overlay)) :=
  loadOverlayTable (arm9OverlayTable r) (fun _ fileID => get (files r) fileID) ids.
Definition loadArm7Overlays (r : rom) (ids : option (Z -> bool)) : res (list (Z * overlay)) :=
  loadOverlayTable (arm7OverlayTable r) (fun _ fileID => get (files r) fileID) ids.

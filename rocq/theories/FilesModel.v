(** * Model of the functions that read and write files of the file system: the
    fromFile / saveToFile wrappers of every format, the command lines of
    /repo/ndspy/lz10.py and /repo/ndspy/codeCompression.py, and
    /repo/tools/lz10tool.py, fnttool.py and _common.py.

    Definitions only.  A file system is a map from paths to contents together with
    the set of paths that can be opened for writing.  A path is a directory (any
    string) and a final name.  Opening a path without contents for reading, or an
    unwritable one for writing, raises OSError and changes nothing.
    Simplifications: a write that has begun does not fail half way; symbolic links
    and two spellings of one path are not modelled; argparse is not modelled (the
    mains start from the parsed arguments); what is printed is not modelled; when a
    wrapper fails after save() has changed the object (update options), the changed
    object is not shown. *)
From Coq Require Import String.
From Verif Require Import PyBase LzModel CodeModel FntModel NarcModel BmgModel BnModel ColorModel Gfx2DModel
  WaveModel SeqModel SsarModel SbnkModel SdatModel RomModel.

(** ** The file system (CPython's [open], [read], [write]) *)
Record path := { pDir : list Z; pName : list Z }.
Definition path_eqb (p q : path) : bool := beq (pDir p) (pDir q) && beq (pName p) (pName q).

Record disk := { contents : path -> option bytes; writable : path -> bool }.

Inductive ioerr := OSError | Raised (e : exc).
Inductive outcome (A : Type) := Done (a : A) | Failed (e : ioerr).
Arguments Done {A} a.
Arguments Failed {A} e.
Definition io (A : Type) := disk -> outcome A * disk.

Definition io_ret {A} (a : A) : io A := fun d => (Done a, d).
Definition io_bind {A B} (x : io A) (k : A -> io B) : io B :=
  fun d => let '(o, d') := x d in match o with Done a => k a d' | Failed e => (Failed e, d') end.
Notation "x <-- e1 ;; e2" := (io_bind e1 (fun x => e2)) (at level 61, e1 at next level, right associativity).
(** a computation that does not touch the file system *)
Definition pure {A} (r : res A) : io A := fun d => (match r with Ok a => Done a | Err e => Failed (Raised e) end, d).

(** [with open(p, 'rb') as f: f.read()] *)
Definition read_file (p : path) : io bytes :=
  fun d => (match contents d p with Some b => Done b | None => Failed OSError end, d).
(** [with open(p, 'wb') as f: f.write(b)] *)
Definition write_file (p : path) (b : bytes) : io unit :=
  fun d => if writable d p
           then (Done tt, {| contents := fun q => if path_eqb q p then Some b else contents d q; writable := writable d |})
           else (Failed OSError, d).

(** ** Loading and saving the formats *)

(** bmg.py:232-237, 344-351; [id0] is the id argument of BMG(data, id) *)
Definition bmg_fromFile (sj : codec) (id0 : Z) (p : path) : io bmg := f <-- read_file p ;; pure (bmg_load sj id0 f).
Definition bmg_saveToFile (sj : codec) (b : bmg) (p : path) : io unit := d <-- pure (bmg_save sj b) ;; write_file p d.
(** bnbl.py:87-92, 106-113 *)
Definition bnbl_fromFile (p : path) : io bnbl := f <-- read_file p ;; pure (bnbl_load f).
Definition bnbl_saveToFile (b : bnbl) (p : path) : io unit := d <-- pure (bnbl_save b) ;; write_file p d.
(** bncl.py:80-85, 99-106 *)
Definition bncl_fromFile (p : path) : io bncl := f <-- read_file p ;; pure (bncl_load f).
Definition bncl_saveToFile (b : bncl) (p : path) : io unit := d <-- pure (bncl_save b) ;; write_file p d.
(** code.py:189-195, 256-263 *)
Definition mcf_fromFile (p : path) (ram : Z) : io mcf := f <-- read_file p ;; pure (mcf_new f ram None).
Definition mcf_saveToFile (m : mcf) (p : path) (compress : bool) : io unit :=
  d <-- pure (mcf_save m compress) ;; write_file p d.
(** MainCodeFile.fromCompressed (code.py:164-176) *)
Definition mcf_fromCompressed (data : bytes) (ram : Z) (ptr : option Z) : res mcf :=
  d <- code_decompress data ;; mcf_new d ram ptr.
(** color.py:355-361, 372-380 *)
Definition loadPaletteFromFile (p : path) : io (list ColorModel.color) := f <-- read_file p ;; pure (loadPalette f).
Definition savePaletteToFile (c : list ColorModel.color) (p : path) : io unit := d <-- pure (savePalette c) ;; write_file p d.
(** graphics2D.py:185-191, 211-219 *)
Definition loadImageTilesFromFile (p : path) (f : imgfmt) : io (list itile) := d <-- read_file p ;; pure (loadImageTiles d f).
Definition saveImageTilesToFile (t : list itile) (p : path) : io unit := d <-- pure (saveImageTiles t) ;; write_file p d.
(** graphics2D.py:358-364, 387-395 *)
Definition loadTilemapTilesFromFile (p : path) (f : mapfmt) : io (list mtile) := d <-- read_file p ;; pure (loadTilemapTiles d f).
Definition saveTilemapTilesToFile (t : list mtile) (p : path) : io unit := d <-- pure (saveTilemapTiles t) ;; write_file p d.
(** narc.py:110-115, 165-172 *)
Definition narc_fromFile (depth : nat) (p : path) : io narc := f <-- read_file p ;; pure (narc_load depth f).
Definition narc_saveToFile (n : narc) (p : path) : io unit := d <-- pure (narc_save n) ;; write_file p d.
(** rom.py:319-326, 552-564; saving updates the ROM object *)
Definition rom_fromFile (depth : nat) (p : path) : io rom := f <-- read_file p ;; pure (rom_load depth f).
Definition rom_saveToFile (r : rom) (p : path) (updateDeviceCapacity : bool) : io rom :=
  s <-- pure (rom_save updateDeviceCapacity r) ;; _ <-- write_file p (fst s) ;; io_ret (snd s).
(** soundArchive.py:353-359, 840-847; [order] is the iteration order of Python's sets *)
Definition sdat_fromFile (order : list Z) (p : path) : io sdat := f <-- read_file p ;; pure (sdat_load order f).
Definition sdat_saveToFile (s : sdat) (p : path) : io unit := d <-- pure (sdat_save s) ;; write_file p d.
(** soundBank.py:557-563, 785-792 *)
Definition sbnk_fromFile (order : list Z) (p : path) (unk : Z) (wars : option (list (option Z))) : io sbnk :=
  f <-- read_file p ;; pure (sbnk_load order f unk wars).
Definition sbnk_saveToFile (b : sbnk) (p : path) : io unit := s <-- pure (sbnk_save b) ;; write_file p (fst (fst s)).
(** soundSequence.py:80-86, 158-165 *)
Definition sseq_fromFile (p : path) (info : seqInfo) : io sseq := f <-- read_file p ;; pure (sseq_load f info).
Definition sseq_saveToFile (s : sseq) (p : path) : io unit := d <-- pure (sseq_save s) ;; write_file p (fst d).
(** soundSequenceArchive.py:102-108, 231-238 *)
Definition ssar_fromFile (p : path) (unk02 : Z) (names : list (option (list Z))) : io ssar :=
  f <-- read_file p ;; pure (ssar_load f unk02 names).
Definition ssar_saveToFile (s : ssar) (p : path) : io unit := d <-- pure (ssar_save s) ;; write_file p (fst (fst d)).
(** soundStream.py:84-90, 255-262; the result is the stream object after the call *)
Definition strm_fromFile (p : path) (info : Z * Z * Z * Z * Z) : io strm := f <-- read_file p ;; pure (strm_load f info).
Definition strm_saveToFile (s : strm) (p : path) (updateTime : bool) : io strm :=
  r <-- pure (strm_save s updateTime) ;; _ <-- write_file p (fst (snd r)) ;; io_ret (fst r).
(** soundWave.py:89-95, 124-132; the result is the wave object after the call *)
Definition swav_fromFile (p : path) : io swav := f <-- read_file p ;; pure (swav_load f).
Definition swav_saveToFile (w : swav) (p : path) (updateTime updateTotal : bool) : io swav :=
  r <-- pure (swav_save w updateTime updateTotal) ;; _ <-- write_file p (snd r) ;; io_ret (fst r).
(** soundWaveArchive.py:98-104, 138-145 *)
Definition swar_fromPath (p : path) (unk02 : Z) : io swar := f <-- read_file p ;; pure (swar_fromFile f unk02).
Definition swar_saveToFile (s : swar) (p : path) : io unit := d <-- pure (swar_save s) ;; write_file p (fst d).

(** ** Compression to and from files *)

(** lz10.py:86-91, 94-100, 117-122, 125-131 *)
Definition lz10_decompressFromFile (p : path) : io bytes := f <-- read_file p ;; pure (lz10_decompress f).
Definition lz10_decompressToFile (data : bytes) (p : path) : io unit := d <-- pure (lz10_decompress data) ;; write_file p d.
Definition lz10_compressFromFile (p : path) : io bytes := f <-- read_file p ;; pure (lz10_compress f).
Definition lz10_compressToFile (data : bytes) (p : path) : io unit := d <-- pure (lz10_compress data) ;; write_file p d.
(** codeCompression.py:215-220, 223-229, 296-301, 304-310 *)
Definition code_decompressFromFile (p : path) : io bytes := f <-- read_file p ;; pure (code_decompress f).
Definition code_decompressToFile (data : bytes) (p : path) : io unit := d <-- pure (code_decompress data) ;; write_file p d.
Definition code_compressFromFile (p : path) (isArm9 : bool) : io bytes := f <-- read_file p ;; pure (code_compress f isArm9).
Definition code_compressToFile (data : bytes) (p : path) (isArm9 : bool) : io unit :=
  d <-- pure (code_compress data isArm9) ;; write_file p d.

(** ** The command lines of lz10.py and codeCompression.py *)

(** PurePath.suffix and with_suffix (CPython's pathlib up to 3.13), for a path with a
    non-empty final name: the suffix starts at the last full stop of the name, unless
    that is its first or last character *)
Definition suffix_at (name : list Z) : option Z :=
  let i := rfind_in name (asc ".") 0 (zlen name) in
  if (0 <? i) && (i <? zlen name - 1) then Some i else None.
Definition with_suffix (p : path) (s : list Z) : path :=
  {| pDir := pDir p;
     pName := match suffix_at (pName p) with Some i => slice_to (pName p) i ++ s | None => pName p ++ s end |}.

(** the parsed arguments: the sub-command, the input, the output if given *)
Inductive command := Compress | Decompress.

(** handleCompress and handleDecompress (lz10.py:143-153, 164-173) *)
Definition lz10_main (c : command) (input : path) (output : option path) : io unit :=
  match c with
  | Compress =>
      data <-- read_file input ;;
      lz10_compressToFile data (match output with Some p => p | None => with_suffix input (asc ".cmp") end)
  | Decompress =>
      data <-- lz10_decompressFromFile input ;;
      write_file (match output with Some p => p | None => with_suffix input (asc ".dec") end) data
  end.
(** handleCompress and handleDecompress (codeCompression.py:323-333, 346-355) *)
Definition code_main (c : command) (is_arm9 : bool) (input : path) (output : option path) : io unit :=
  match c with
  | Compress =>
      data <-- read_file input ;;
      code_compressToFile data (match output with Some p => p | None => with_suffix input (asc ".cmp") end) is_arm9
  | Decompress =>
      data <-- code_decompressFromFile input ;;
      write_file (match output with Some p => p | None => with_suffix input (asc ".dec") end) data
  end.

(** [args.infile + s] (lz10tool.py:45) *)
Definition add_suffix (p : path) (s : list Z) : path := {| pDir := pDir p; pName := pName p ++ s |}.
(** main (tools/lz10tool.py:28-56); [mode] is None when neither -c nor -d is given *)
Definition lz10tool (mode : option command) (infile : path) (outfile : option path) : io unit :=
  ind <-- read_file infile ;;
  m <-- pure (match mode with
              | Some m => Ok m
              | None => b <- get ind 0 ;; Ok (if b =? 0x10 then Decompress else Compress)
              end) ;;
  let out := match outfile with
             | Some p => p
             | None => add_suffix infile (match m with Compress => asc ".lz10" | Decompress => asc ".raw" end)
             end in
  outd <-- pure (match m with Compress => lz10_compress ind | Decompress => lz10_decompress ind end) ;;
  write_file out outd.

(** ** Filename tables as JSON (tools/_common.py) *)

(** the JSON values that occur; a JSON text is modelled by its value, i.e.
    [json.loads(json.dumps(x))] is taken to give back the value (tuples as lists) *)
Inductive json : Type :=
| JInt (n : Z)
| JStr (s : list Z)
| JList (l : list json)
| JDict (l : list (list Z * json)).

(** FilenamesTableEncoder.default, applied by json.dumps to every Folder
    (tools/_common.py:10-20, 36-40) *)
Fixpoint fntToJson (f : folder) : json :=
  match f with
  | Folder folders files first =>
      JDict ((asc "first_id", JInt first)
             :: (match files with [] => [] | _ => [(asc "files", JList (map JStr files))] end)
             ++ (match folders with [] => [] | _ =>
                   [(asc "folders",
                     JList ((fix go (l : list (list Z * folder)) : list json :=
                               match l with [] => [] | (n, g) :: r => JList [JStr n; fntToJson g] :: go r end) folders))] end))
  end.

(** [d[k]] / [d.get(k)] *)
Fixpoint jget (l : list (list Z * json)) (k : list Z) : option json :=
  match l with [] => None | (k', v) :: r => if beq k' k then Some v else jget r k end.
(** the file names as strings; a list of anything is accepted by Python, the model
    only follows lists of strings *)
Definition as_str (j : json) : res (list Z) := match j with JStr s => Ok s | _ => Err TypeError end.
(** convertDictToFilenamesTable (tools/_common.py:23-33): [thisFolder.folders.append(a, b)]
    with two arguments raises TypeError, after its arguments have been computed, that
    is after converting the first subfolder *)
Fixpoint jsonToFnt (fuel : nat) (j : json) : res folder :=
  match fuel with
  | O => Err RecursionError
  | S k =>
      match j with
      | JDict d =>
          match jget d (asc "first_id") with
          | None => Err KeyError
          | Some (JInt first) =>
              files <- match jget d (asc "files") with
                       | None => Ok []
                       | Some (JList l) => mapM as_str l
                       | Some _ => Err TypeError
                       end ;;
              match jget d (asc "folders") with
              | None | Some (JList []) => Ok (Folder [] files first)
              | Some (JList (JList [JStr _; sub] :: _)) => _ <- jsonToFnt k sub ;; Err TypeError
              | Some _ => Err ValueError
              end
          | Some _ => Err TypeError
          end
      | _ => Err TypeError
      end
  end.

(** ** main of tools/fnttool.py (lines 55-112) *)

Inductive fntfmt := FBin | FJson | FRom | FNarc.
(** json.loads and json.dumps on texts, encoded as UTF-8 (CPython's) *)
Record jcodec := { jDumps : json -> bytes; jLoads : bytes -> res json }.
(** [rom.filenames = fnt] *)
Definition set_filenames (r : rom) (t : folder) : rom :=
  {| name := name r; idCode := idCode r; developerCode := developerCode r;
     unitCode := unitCode r; encryptionSeedSelect := encryptionSeedSelect r;
     deviceCapacity := deviceCapacity r;
     pad015 := pad015 r; pad016 := pad016 r; pad017 := pad017 r; pad018 := pad018 r;
     pad019 := pad019 r; pad01A := pad01A r; pad01B := pad01B r; pad01C := pad01C r;
     region := region r; version := version r; autostart := autostart r;
     arm9EntryAddress := arm9EntryAddress r; arm9RamAddress := arm9RamAddress r;
     arm7EntryAddress := arm7EntryAddress r; arm7RamAddress := arm7RamAddress r;
     normalCardControl := normalCardControl r; secureCardControl := secureCardControl r;
     secureAreaChecksum := secureAreaChecksum r; secureTransferDelay := secureTransferDelay r;
     arm9CodeSettings := arm9CodeSettings r; arm7CodeSettings := arm7CodeSettings r;
     secureAreaDisable := secureAreaDisable r; pad088 := pad088 r; nintendoLogo := nintendoLogo r;
     debugRomAddress := debugRomAddress r; pad16C := pad16C r; pad200 := pad200 r;
     rsaSignature := rsaSignature r; arm9 := arm9 r; arm9PostData := arm9PostData r; arm7 := arm7 r;
     arm9OverlayTable := arm9OverlayTable r; arm7OverlayTable := arm7OverlayTable r;
     iconBanner := iconBanner r; debugRom := debugRom r;
     filenames := t; files := files r; sortedFileIds := sortedFileIds r |}.

(** loading the table (fnttool.py:63-74); [ndspy.narc.load] does not exist *)
Definition fnttool_load (js : jcodec) (depth : nat) (f : fntfmt) (ind : bytes) : res folder :=
  match f with
  | FBin => FntModel.load depth ind
  | FJson => j <- jLoads js ind ;; jsonToFnt depth j
  | FRom => r <- rom_load depth ind ;; Ok (filenames r)
  | FNarc => Err AttributeError
  end.
(** the data to write (fnttool.py:86-103); [NintendoDSRom(None)] is an empty ROM *)
Definition fnttool_data (js : jcodec) (depth : nat) (f : fntfmt) (t : folder) (existing : option bytes) : res bytes :=
  match f with
  | FBin => FntModel.save t
  | FJson => Ok (jDumps js (fntToJson t))
  | FRom => r <- (match existing with Some b => rom_load depth b | None => Ok rom_new end) ;;
            s <- rom_save false (set_filenames r t) ;; Ok (fst s)
  | FNarc => Err AttributeError
  end.
Definition fnttool (js : jcodec) (depth : nat) (i o : fntfmt) (infile outfile : path) : io unit :=
  out <-- (fun d => (Done (contents d outfile), d)) ;;
  _ <-- pure (guard (match o, out with FRom, None | FNarc, None => false | _, _ => true end) ValueError) ;;
  ind <-- read_file infile ;;
  t <-- pure (fnttool_load js depth i ind) ;;
  outd <-- pure (fnttool_data js depth o t out) ;;
  write_file outfile outd.

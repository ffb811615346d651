(** * Model of ndspy/narc.py

    fromFile and saveToFile are in FilesModel, __str__ and __repr__ in ReprModel. *)
From Coq Require Import String.
From Verif Require Import PyBase CommonModel FntModel.

(** NARC attributes (narc.py:36-47); endiannessOfBeginning is '<' ([LE]) or '>' ([BE]) *)
Record narc := { nFilenames : folder; nFiles : list bytes; nEndian : endian }.

(** NARC() (narc.py:43-46) *)
Definition narc_new : narc := {| nFilenames := Folder [] [] 0; nFiles := []; nEndian := LE |}.

(** one FAT entry and its file (narc.py:88-90) *)
Definition narc_loadFile (data : bytes) (rawDataOffset i : Z) : res bytes :=
  startOffset <- unpack_u 4 data (0x1C + 8 * i) ;;
  endOffset <- unpack_u 4 data (0x1C + 8 * i + 4) ;;
  Ok (slice data (rawDataOffset + startOffset) (rawDataOffset + endOffset)).

(** _initFromData (narc.py:50-93); NDS_STD_FILE_HEADER is '<4sHHIHH'
    (_common.py:31).  [depth] is the recursion limit of fnt.load. *)
Definition narc_load (depth : nat) (data : bytes) : res narc :=
  magic <- rd data 0 4 ;;
  bom <- unpack_u 2 data 4 ;;
  version <- unpack_u 2 data 6 ;;
  _ <- unpack_u 4 data 8 ;;
  _ <- unpack_u 2 data 12 ;;
  _ <- unpack_u 2 data 14 ;;
  let '(e, version) := if bom =? 0xFFFE
                       then (BE, Z.lor (Z.shiftl (Z.land version 0xFF) 8) (Z.shiftr version 8))
                       else (LE, version) in
  _ <- guard (version =? 1) ValueError ;;
  _ <- guard (beq magic (asc "NARC")) ValueError ;;
  fatbMagic <- rd data 0x10 4 ;;
  fatbSize <- unpack_u 4 data 0x14 ;;
  fileCount <- unpack_u 4 data 0x18 ;;
  _ <- guard (beq fatbMagic (rev (asc "FATB"))) AssertionError ;;
  let fntbOffset := 0x10 + fatbSize in
  fntbMagic <- rd data fntbOffset 4 ;;
  fntbSize <- unpack_u 4 data (fntbOffset + 4) ;;
  _ <- guard (beq fntbMagic (rev (asc "FNTB"))) AssertionError ;;
  let fimgOffset := fntbOffset + fntbSize in
  fimgMagic <- rd data fimgOffset 4 ;;
  _ <- unpack_u 4 data (fimgOffset + 4) ;;
  _ <- guard (beq fimgMagic (rev (asc "FIMG"))) AssertionError ;;
  let rawDataOffset := fimgOffset + 8 in
  files <- mapM (narc_loadFile data rawDataOffset) (range_z 0 (Z.to_nat fileCount)) ;;
  names <- load depth (slice data (fntbOffset + 8) (fntbOffset + fntbSize)) ;;
  Ok {| nFilenames := names; nFiles := files; nEndian := e |}.

(** fromFilesAndNames (narc.py:97-106) *)
Definition fromFilesAndNames (files : list bytes) (filenames : option folder) : narc :=
  {| nFilenames := match filenames with Some f => f | None => Folder [] [] 0 end; nFiles := files; nEndian := LE |}.

(** the loop filling fimgData and fatbData (narc.py:132-139); the padding
    [while] loop is [pad_to] (PyLemmas.pad_loop_eq) *)
Definition narc_addFile (st : bytes * bytes) (fd : bytes) : res (bytes * bytes) :=
  let '(fimg, fatb) := st in
  let startOff := zlen fimg - 8 in
  let fimg := fimg ++ fd in
  let endOff := startOff + zlen fd in
  e <- pack_us [(4%nat, startOff); (4%nat, endOff)] ;;
  Ok (pad_to 4 0 fimg, fatb ++ e).

(** save (narc.py:118-162) *)
Definition narc_save (self : narc) : res bytes :=
  h <- pack_us [(4%nat, 0x0C + 8 * zlen (nFiles self)); (4%nat, zlen (nFiles self))] ;;
  ' (fimg, fatb) <- foldM narc_addFile (zeros 8, rev (asc "FATB") ++ h) (nFiles self) ;;
  l <- pack_u 4 (zlen fimg) ;;
  fimg <- put fimg 0 (rev (asc "FIMG") ++ l) ;;
  nameTable <- save (nFilenames self) ;;
  let nameTable := pad_to 4 0xFF nameTable in
  nl <- pack_u 4 (zlen nameTable + 8) ;;
  let fntb := rev (asc "FNTB") ++ nl ++ nameTable in
  let data := zeros 0x10 ++ fatb ++ fntb ++ fimg in
  let '(bom, version) := match nEndian self with BE => (0xFFFE, 0x100) | LE => (0xFEFF, 1) end in
  hd <- pack_us [(2%nat, bom); (2%nat, version); (4%nat, zlen data); (2%nat, 0x10); (2%nat, 3)] ;;
  put data 0 (asc "NARC" ++ hd).

(** getFileByName / setFileByName (narc.py:175-194) *)
Definition narc_fid (self : narc) (filename : list Z) : res Z :=
  fid <- idOf (nFilenames self) filename ;;
  match fid with Some i => Ok i | None => Err ValueError end.
Definition getFileByName (self : narc) (filename : list Z) : res bytes :=
  fid <- narc_fid self filename ;; get (nFiles self) fid.
Definition setFileByName (self : narc) (filename : list Z) (data : bytes) : res narc :=
  fid <- narc_fid self filename ;;
  l <- setl (nFiles self) fid data ;;
  Ok {| nFilenames := nFilenames self; nFiles := l; nEndian := nEndian self |}.

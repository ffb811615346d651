(** * Model of ndspy/soundArchive.py: SDAT sound archives, with the players of
    ndspy/soundSequencePlayer.py and ndspy/soundStreamPlayer.py.

    Strings are lists of code points.  save() extends one bytearray and goes back
    to fill in offsets, sizes and headers; here each block is computed with the
    offsets its fields will hold and the blocks are put together at the end.  The
    bytes, and the exceptions, are the same. *)
From Coq Require Import String.
From Verif Require Import PyBase CommonModel WaveModel SeqModel SsarModel SbnkModel.

Definition name : Type := option (list Z).
(** an object with its dataMergeOptimizationID *)
Definition merged (A : Type) : Type := (Z * A)%type.
(** SequencePlayer (soundSequencePlayer.py:25-37): maxSequences, channels, heapSize.
    The set of channels is the list of its members. *)
Definition player : Type := (Z * list Z * Z)%type.

(** the attributes of SDAT (soundArchive.py:41-56) *)
Record sdat := {
  dSeqs : list (name * option (merged sseq));
  dArchs : list (name * option (merged ssar));
  dBanks : list (name * option (merged sbnk));
  dWars : list (name * option (merged swar));
  dPlayers : list (name * option player);
  dGroups : list (name * option (list groupEntry));
  dSPlayers : list (name * option (list Z));
  dStrms : list (name * option (merged strm));
  fatPad : bool;               (* fatLengthsIncludePadding *)
  firstAlign : option Z;       (* firstFileAlignment *)
  fileAlign : Z;               (* fileAlignment *)
  padEnd : bool;               (* padAtEnd *)
  padSymb : bool               (* padSymbSizeTo4InSDATHeader *)
}.
(** SDAT() (soundArchive.py:40-59) *)
Definition sdat_new : sdat :=
  {| dSeqs := []; dArchs := []; dBanks := []; dWars := []; dPlayers := []; dGroups := []; dSPlayers := []; dStrms := [];
     fatPad := false; firstAlign := None; fileAlign := 0x20; padEnd := true; padSymb := false |}.

(** ** Saving (soundArchive.py:362-837) *)

(** *** SYMB (soundArchive.py:369-517) *)

(** symbolsStringTable, the pairs of symbolsTableValues and
    shouldIncrementByTableLen, symbolsHeaderOffsets, anySymbolsInWholeFile *)
Record symb := { ySt : bytes; yVals : list (Z * bool); yHeads : list Z; yAny : bool }.

(** addSymbolAndGetOffset (soundArchive.py:373-378) *)
Definition addSymbol (st : bytes) (s : name) : res (bytes * Z) :=
  match s with
  | None => Ok (st, -1)
  | Some s => b <- encode_latin1 s ;; Ok (st ++ b ++ [0], zlen st)
  end.
(** [for symbol ... : values.append(addSymbolAndGetOffset(symbol))] *)
Fixpoint addSymbols (st : bytes) (l : list name) : res (bytes * list (Z * bool)) :=
  match l with
  | [] => Ok (st, [])
  | s :: r => ' (st, o) <- addSymbol st s ;; ' (st, vs) <- addSymbols st r ;; Ok (st, (o, true) :: vs)
  end.
Definition is_some {A} (o : option A) : bool := match o with Some _ => true | None => false end.
(** addSymbolsFrom(namedList) (soundArchive.py:388-422) *)
Definition addSymbolsFrom (y : symb) (names : list name) : res symb :=
  ' (st, vs) <- addSymbols (ySt y) names ;;
  Ok {| ySt := st; yVals := yVals y ++ (zlen names, false) :: vs; yHeads := yHeads y ++ [zlen (yVals y) * 4];
        yAny := yAny y || existsb is_some names |}.

(** the names in an archive, [None] where the archive is None *)
Definition subNames (e : option (merged ssar)) : option (list name) :=
  match e with Some (_, a) => Some (map fst (rSeqs a)) | None => None end.
(** the search for names (soundArchive.py:399-411): anyActualSymbols or
    anyActualSubsymbols; [entry.sequences] of None is an AttributeError *)
Fixpoint anyNested (l : list (name * option (list name))) : res bool :=
  match l with
  | [] => Ok false
  | (Some _, _) :: _ => Ok true
  | (None, None) :: _ => Err AttributeError
  | (None, Some subs) :: r => b <- anyNested r ;; Ok (existsb is_some subs || b)
  end.
(** the loop (soundArchive.py:436-461): the main list and the sub lists; [off] is
    subListsAreaOffset + len(subListsArea) * 4.  An SSAR is always true. *)
Fixpoint addNested (st : bytes) (off : Z) (l : list (name * option (list name)))
  : res (bytes * list (Z * bool) * list (Z * bool)) :=
  match l with
  | [] => Ok (st, [], [])
  | (s, e) :: r =>
      ' (st, o) <- addSymbol st s ;;
      match e with
      | None => ' (st, main, subs) <- addNested st off r ;; Ok (st, (o, true) :: (0, false) :: main, subs)
      | Some names =>
          ' (st, vs) <- addSymbols st names ;;
          ' (st, main, subs) <- addNested st (off + 4 + 4 * zlen names) r ;;
          Ok (st, (o, true) :: (off, false) :: main, (zlen names, false) :: vs ++ subs)
      end
  end.
(** addSymbolsFrom(namedList, True) (soundArchive.py:388-466) *)
Definition addSymbolsNested (y : symb) (l : list (name * option (list name))) : res symb :=
  any <- anyNested l ;;
  ' (st, main, subs) <- addNested (ySt y) (0x40 + zlen (yVals y) * 4 + (1 + 2 * zlen l) * 4) l ;;
  Ok {| ySt := st; yVals := yVals y ++ ((zlen l, false) :: main) ++ subs; yHeads := yHeads y ++ [zlen (yVals y) * 4];
        yAny := yAny y || any |}.

(** the eight calls (soundArchive.py:468-475) *)
Definition symbols (s : sdat) : res symb :=
  let y := {| ySt := []; yVals := []; yHeads := []; yAny := false |} in
  y <- addSymbolsFrom y (map fst (dSeqs s)) ;;
  y <- addSymbolsNested y (map (fun p => (fst p, subNames (snd p))) (dArchs s)) ;;
  y <- addSymbolsFrom y (map fst (dBanks s)) ;;
  y <- addSymbolsFrom y (map fst (dWars s)) ;;
  y <- addSymbolsFrom y (map fst (dPlayers s)) ;;
  y <- addSymbolsFrom y (map fst (dGroups s)) ;;
  y <- addSymbolsFrom y (map fst (dSPlayers s)) ;;
  addSymbolsFrom y (map fst (dStrms s)).

(** one value of the table (soundArchive.py:485-490) *)
Definition symb_value (tableLen : Z) (v : Z * bool) : res bytes :=
  if fst v =? -1 then Ok (zeros 4)
  else pack_u 4 (if snd v then fst v + (tableLen + 0x40) else fst v).
(** the block and the size for the header of the file (soundArchive.py:478-517) *)
Definition symb_block (pad : bool) (y : symb) : res (option (bytes * Z)) :=
  if yAny y then
    let tableLen := zlen (yVals y) * 4 in
    table <- mapM (symb_value tableLen) (yVals y) ;;
    let size := 0x40 + zlen (concat table) + zlen (ySt y) in
    let padded := size + (- size) mod 4 in
    heads <- pack_us (map (fun v => (4%nat, v + 0x40)) (yHeads y)) ;;
    h <- pack_u 4 padded ;;
    Ok (Some ((asc "SYMB" ++ h) ++ heads ++ zeros 0x18 ++ concat table ++ ySt y, if pad then padded else size))
  else Ok None.

(** *** INFO (soundArchive.py:520-753) *)

(** files and fileMergeIDs *)
Definition files : Type := list (bytes * Z).
(** addFileAndGetID (soundArchive.py:535-545): the first file equal to [file] with
    the same merge ID, else a new one; [i] numbers the files *)
Fixpoint find_file (fs : files) (f : bytes) (m i : Z) : option Z :=
  match fs with
  | [] => None
  | (f', m') :: r => if beq f' f && (m =? m') then Some i else find_file r f m (i + 1)
  end.
Definition addFile (fs : files) (f : bytes) (m : Z) : files * Z :=
  match find_file fs f m 0 with
  | Some i => (fs, i)
  | None => (fs ++ [(f, m)], zlen fs)
  end.

(** One part: the count, the table of offsets, the entries (as in
    soundArchive.py:555-573).  [entry fs x] gives the bytes of an entry; [pos] is
    len(data) - infoBlockOffset. *)
Definition part_step {A} (entry : files -> A -> res (bytes * files)) (st : Z * files * bytes * bytes) (x : option A)
  : res (Z * files * bytes * bytes) :=
  let '(pos, fs, offs, body) := st in
  match x with
  | None => Ok (pos, fs, offs ++ le 4 0, body)
  | Some x => ' (b, fs) <- entry fs x ;; o <- pack_u 4 pos ;; Ok (pos + zlen b, fs, offs ++ o, body ++ b)
  end.
Definition part {A} (entry : files -> A -> res (bytes * files)) (pos : Z) (fs : files) (l : list (option A)) : res (bytes * files) :=
  c <- pack_u 4 (zlen l) ;;
  ' (_, fs, offs, body) <- foldM (part_step entry) (pos + 4 + 4 * zlen l, fs, [], []) l ;;
  Ok (c ++ offs ++ body, fs).

(** SSEQ (soundArchive.py:563-571), struct '<3H4Bxx' *)
Definition seq_entry (fs : files) (x : merged sseq) : res (bytes * files) :=
  ' (file, (unk02, bankID, volume, cp, pp, playerID)) <- sseq_save (snd x) ;;
  let '(fs, i) := addFile fs file (fst x) in
  b <- pack_us [(2%nat, i); (2%nat, unk02); (2%nat, bankID); (1%nat, volume); (1%nat, cp); (1%nat, pp); (1%nat, playerID)] ;;
  Ok (b ++ [0; 0], fs).
(** SSAR (soundArchive.py:586-592), struct '<HH' *)
Definition arch_entry (fs : files) (x : merged ssar) : res (bytes * files) :=
  ' (file, unk02, _) <- ssar_save (snd x) ;;
  let '(fs, i) := addFile fs file (fst x) in
  b <- pack_us [(2%nat, i); (2%nat, unk02)] ;; Ok (b, fs).
(** SBNK (soundArchive.py:607-623), struct '<HH4h' *)
Definition swar_ids (wars : list (option Z)) : list Z :=
  let l := map (fun w => match w with None => -1 | Some w => w end) wars in l ++ rep (-1) (4 - zlen l).
Definition bank_entry (fs : files) (x : merged sbnk) : res (bytes * files) :=
  ' (file, unk02, wars) <- sbnk_save (snd x) ;;
  let '(fs, i) := addFile fs file (fst x) in
  _ <- guard (zlen (swar_ids wars) <=? 4) ValueError ;;
  b <- pack_us [(2%nat, i); (2%nat, unk02)] ;;
  w <- mapM (pack_s 2) (swar_ids wars) ;;
  Ok (b ++ concat w, fs).
(** SWAR (soundArchive.py:639-645), struct '<HH' *)
Definition war_entry (fs : files) (x : merged swar) : res (bytes * files) :=
  ' (file, unk02) <- swar_save (snd x) ;;
  let '(fs, i) := addFile fs file (fst x) in
  b <- pack_us [(2%nat, i); (2%nat, unk02)] ;; Ok (b, fs).
(** sequence players (soundArchive.py:661-671), struct '<HHI' *)
Definition channel_mask (channels : list Z) : Z :=
  fold_left (fun m j => if existsb (Z.eqb j) channels then Z.lor m (Z.shiftl 1 j) else m) (range_z 0 16) 0.
Definition player_entry (fs : files) (x : player) : res (bytes * files) :=
  let '(maxSequences, channels, heapSize) := x in
  b <- pack_us [(2%nat, maxSequences); (2%nat, channel_mask channels); (4%nat, heapSize)] ;; Ok (b, fs).
(** groups (soundArchive.py:687-692), struct '<BHxI' *)
Definition group_bytes (g : groupEntry) : res bytes :=
  let '(type, options, id) := group_save g in
  a <- pack_us [(1%nat, type); (2%nat, options)] ;; b <- pack_u 4 id ;; Ok (a ++ [0] ++ b).
Definition group_entry (fs : files) (x : list groupEntry) : res (bytes * files) :=
  c <- pack_u 4 (zlen x) ;; l <- mapM group_bytes x ;; Ok (c ++ concat l, fs).
(** stream players (soundArchive.py:708-725).  The position of an entry is a
    multiple of 4, so the padding loop (soundArchive.py:725), which also runs for
    None, only pads after an entry, to a multiple of 4 of its own length. *)
Definition splayer_entry (fs : files) (x : list Z) : res (bytes * files) :=
  c <- to_bytes [zlen x] ;;
  b <- to_bytes (x ++ rep 0xFF (16 - zlen x)) ;;
  Ok (pad_to 4 0 (c ++ b ++ zeros 4), fs).
(** streams (soundArchive.py:739-745), struct '<HH4B4x' *)
Definition strm_entry (fs : files) (x : merged strm) : res (bytes * files) :=
  ' (file, (unk02, volume, priority, playerID, unk07)) <- strm_save0 (snd x) ;;
  let '(fs, i) := addFile fs file (fst x) in
  b <- pack_us [(2%nat, i); (2%nat, unk02); (1%nat, volume); (1%nat, priority); (1%nat, playerID); (1%nat, unk07)] ;;
  Ok (b ++ zeros 4, fs).

(** info_declarePart (soundArchive.py:532-534) and one part: the state is the header entries so far, the
    files and the contents of the block after its 0x40 bytes of header *)
Definition declare {A} (entry : files -> A -> res (bytes * files)) (st : bytes * files * bytes) (l : list (option A))
  : res (bytes * files * bytes) :=
  let '(heads, fs, body) := st in
  h <- pack_u 4 (0x40 + zlen body) ;;
  ' (b, fs) <- part entry (0x40 + zlen body) fs l ;;
  Ok (heads ++ h, fs, body ++ b).
(** the block and the files (soundArchive.py:520-753) *)
Definition info_block (s : sdat) : res (bytes * files) :=
  st <- declare seq_entry ([], [], []) (map snd (dSeqs s)) ;;
  st <- declare arch_entry st (map snd (dArchs s)) ;;
  st <- declare bank_entry st (map snd (dBanks s)) ;;
  st <- declare war_entry st (map snd (dWars s)) ;;
  st <- declare player_entry st (map snd (dPlayers s)) ;;
  st <- declare group_entry st (map snd (dGroups s)) ;;
  st <- declare splayer_entry st (map snd (dSPlayers s)) ;;
  ' (heads, fs, body) <- declare strm_entry st (map snd (dStrms s)) ;;
  n <- pack_u 4 (0x40 + zlen body) ;;
  Ok ((asc "INFO" ++ n) ++ heads ++ zeros 0x18 ++ body, fs).

(** *** FAT and FILE (soundArchive.py:756-815) *)

(** [while n % a: n += 1]: the number of steps *)
Definition gap (a n : Z) : res Z := if a =? 0 then Err ZeroDivisionError else Ok ((- n) mod Z.abs a).
(** one file (soundArchive.py:786-803); [base] is len(data) before the FILE block,
    [d] what follows *)
Definition add_file (s : sdat) (base : Z) (st : bytes * bytes) (f : bytes * Z) : res (bytes * bytes) :=
  let '(d, fat) := st in
  g <- gap (fileAlign s) (base + zlen d) ;;
  let d := d ++ zeros g in
  e <- (if fatPad s then g <- gap (fileAlign s) (zlen (fst f)) ;; Ok (zlen (fst f) + g) else Ok (zlen (fst f))) ;;
  b <- pack_us [(4%nat, base + zlen d); (4%nat, e)] ;;
  Ok (d ++ fst f, fat ++ b ++ zeros 8).
(** the FILE block after its 12 bytes of header, and the table of the FAT block *)
Definition file_block (s : sdat) (base : Z) (fs : files) : res (bytes * bytes) :=
  g <- match firstAlign s with None => Ok 0 | Some a => gap a (base + 0xC) end ;;
  ' (d, fat) <- foldM (add_file s (base + 0xC)) (zeros g, []) fs ;;
  g <- (if padEnd s then gap (fileAlign s) (base + 0xC + zlen d) else Ok 0) ;;
  Ok (d ++ zeros g, fat).

(** save (soundArchive.py:362-837) *)
Definition sdat_save (s : sdat) : res bytes :=
  y <- symbols s ;;
  sb <- symb_block (padSymb s) y ;;
  let symb := match sb with Some (b, _) => b | None => [] end in
  let pad1 := zeros ((- (0x40 + zlen symb)) mod 4) in
  let infoOff := 0x40 + zlen symb + zlen pad1 in
  ' (info, fs) <- info_block s ;;
  let pad2 := zeros ((- (infoOff + zlen info)) mod 4) in
  let fatOff := infoOff + zlen info + zlen pad2 in
  let fatSize := 0xC + 0x10 * zlen fs in
  fatHead <- pack_us [(4%nat, fatSize); (4%nat, zlen fs)] ;;
  let pad3 := zeros ((- (fatOff + fatSize)) mod 4) in
  let fileOff := fatOff + fatSize + zlen pad3 in
  ' (file, fat) <- file_block s fileOff fs ;;
  let fileSize := 0xC + zlen file in
  fileHead <- pack_us [(4%nat, fileSize); (4%nat, zlen fs)] ;;
  offs <- pack_us (map (fun v => (4%nat, v))
            [match sb with Some _ => 0x40 | None => 0 end; match sb with Some (_, n) => n | None => 0 end;
             infoOff; zlen info; fatOff; fatSize; fileOff; fileSize]) ;;
  head <- pack_us [(2%nat, 0xFEFF); (2%nat, 0x100); (4%nat, fileOff + fileSize); (2%nat, 0x40);
                   (2%nat, match sb with Some _ => 4 | None => 3 end)] ;;
  Ok (((asc "SDAT" ++ head) ++ offs ++ zeros 0x10) ++ symb ++ pad1 ++ info ++ pad2
      ++ (asc "FAT " ++ fatHead) ++ fat ++ pad3 ++ (asc "FILE" ++ fileHead) ++ file).

(** ** Loading (soundArchive.py:62-350) *)

(** readSymbolsList(offset, False) (soundArchive.py:96-136): the names and
    lastEndOfString.  [block] is symbolsBlockOffset. *)
Definition read_symbol (data : bytes) (block off last : Z) : res (name * Z) :=
  o <- unpack_u 4 data off ;;
  if o =? 0 then Ok (None, last)
  else let s := loadNullTerminatedStringFrom data (block + o) 1 in Ok (Some s, o + zlen s + 1).
Fixpoint read_symbols_loop (data : bytes) (block off last : Z) (n : nat) : res (list name * Z) :=
  match n with
  | O => Ok ([], last)
  | S n => ' (s, last) <- read_symbol data block off last ;;
           ' (l, last) <- read_symbols_loop data block (off + 4) last n ;; Ok (s :: l, last)
  end.
Definition read_symbols (data : bytes) (block off last : Z) : res (list name * Z) :=
  count <- unpack_u 4 data (block + off) ;;
  read_symbols_loop data block (block + off + 4) last (Z.to_nat count).
(** readSymbolsList(offset, True) (soundArchive.py:96-136) *)
Fixpoint read_nested_loop (data : bytes) (block off last : Z) (n : nat) : res (list (name * list name) * Z) :=
  match n with
  | O => Ok ([], last)
  | S n => ' (s, last) <- read_symbol data block off last ;;
           o <- unpack_u 4 data (off + 4) ;;
           ' (subs, last) <- (if o =? 0 then Ok ([], last) else read_symbols data block o last) ;;
           ' (l, last) <- read_nested_loop data block (off + 8) last n ;; Ok ((s, subs) :: l, last)
  end.
Definition read_nested (data : bytes) (block off last : Z) : res (list (name * list name) * Z) :=
  count <- unpack_u 4 data (block + off) ;;
  read_nested_loop data block (block + off + 4) last (Z.to_nat count).

(** the detection of the alignment (soundArchive.py:167-184) *)
Definition shrink (align off : Z) (mv : Z * Z) : Z := if off mod (fst mv) =? snd mv then Z.min align (snd mv) else align.
Definition detect (align off : Z) : Z :=
  fold_left (fun a mv => shrink a off mv)
    [(0x200, 0x100); (0x100, 0x80); (0x80, 0x40); (0x40, 0x20); (0x20, 0x10); (0x10, 8); (8, 4); (4, 2); (2, 1)] align.
(** the loop over the FAT (soundArchive.py:145-190): files, fileAlignment,
    firstFileAlignment, fatLengthsIncludePadding, finalFileEnd *)
Record fatState := { tFiles : list bytes; tAlign : Z; tFirst : option Z; tPad : bool; tEnd : Z }.
Definition fat_step (data : bytes) (fatOff count : Z) (t : fatState) (i : Z) : res fatState :=
  let p := fatOff + 0xC + 0x10 * i in
  fileOffset <- unpack_u 4 data p ;;
  fileSize <- unpack_u 4 data (p + 4) ;;
  pad <- (if i =? count - 1 then Ok (tPad t)
          else next <- unpack_u 4 data (p + 0x10) ;; Ok (if next - fileOffset =? fileSize then tPad t else false)) ;;
  let align := detect (tAlign t) fileOffset in
  Ok {| tFiles := tFiles t ++ [slice data fileOffset (fileOffset + fileSize)]; tAlign := align;
        tFirst := if i =? 0 then Some align else tFirst t; tPad := pad; tEnd := fileOffset + fileSize |}.

(** getInfoEntryOffsets (soundArchive.py:210-219) *)
Definition info_offsets (data : bytes) (infoOff off : Z) : res (list (option Z)) :=
  count <- unpack_u 4 data (infoOff + off) ;;
  _ <- rd data (infoOff + off + 4) (4 * count) ;;
  mapM (fun i => o <- unpack_u 4 data (infoOff + off + 4 + 4 * i) ;; Ok (if o =? 0 then None else Some (infoOff + o)))
    (range_z 0 (Z.to_nat count)).
(** itertools.zip_longest *)
Fixpoint zip_longest {A B} (a : list A) (b : list B) : list (option A * option B) :=
  match a, b with
  | [], [] => []
  | x :: a, [] => (Some x, None) :: zip_longest a []
  | [], y :: b => (None, Some y) :: map (fun y => (None, Some y)) b
  | x :: a, y :: b => (Some x, Some y) :: zip_longest a b
  end.
Definition join {A} (o : option (option A)) : option A := match o with Some x => x | None => None end.
(** a loop over one part (as in soundArchive.py:222-235) *)
Definition load_part {A} (one : Z -> res A) (offs : list (option Z)) (names : list name) : res (list (name * option A)) :=
  mapM (fun p => x <- match join (fst p) with None => Ok None | Some o => x <- one o ;; Ok (Some x) end ;;
                 Ok (join (snd p), x)) (zip_longest offs names).

(** SSEQ (soundArchive.py:227-233) *)
Definition load_seq (data : bytes) (fs : list bytes) (o : Z) : res (merged sseq) :=
  fileID <- unpack_u 2 data o ;;
  unk02 <- unpack_u 2 data (o + 2) ;;
  bankID <- unpack_u 2 data (o + 4) ;;
  volume <- unpack_u 1 data (o + 6) ;;
  cp <- unpack_u 1 data (o + 7) ;;
  pp <- unpack_u 1 data (o + 8) ;;
  playerID <- unpack_u 1 data (o + 9) ;;
  f <- get fs fileID ;;
  q <- sseq_load f (unk02, bankID, volume, cp, pp, playerID) ;; Ok (fileID, q).
(** SSAR (soundArchive.py:237-249); the sub-symbols are [None] or a list, both a
    list here (see [ssar_load]) *)
Definition load_arch (data : bytes) (fs : list bytes) (subs : list name) (o : Z) : res (merged ssar) :=
  fileID <- unpack_u 2 data o ;;
  unk02 <- unpack_u 2 data (o + 2) ;;
  f <- get fs fileID ;;
  a <- ssar_load f unk02 subs ;; Ok (fileID, a).
Definition load_archs (data : bytes) (fs : list bytes) (offs : list (option Z)) (names : list (name * list name))
  : res (list (name * option (merged ssar))) :=
  mapM (fun p => x <- match join (fst p) with
                      | None => Ok None
                      | Some o => x <- load_arch data fs (match snd p with Some (_, subs) => subs | None => [] end) o ;; Ok (Some x)
                      end ;;
                 Ok (match snd p with Some (n, _) => n | None => None end, x)) (zip_longest offs names).
(** SBNK (soundArchive.py:257-267) *)
Definition load_bank (order : list Z) (data : bytes) (fs : list bytes) (o : Z) : res (merged sbnk) :=
  fileID <- unpack_u 2 data o ;;
  unk02 <- unpack_u 2 data (o + 2) ;;
  ids <- mapM (fun k => unpack_s 2 data (o + 4 + 2 * k)) (range_z 0 4) ;;
  f <- get fs fileID ;;
  b <- sbnk_load order f unk02 (Some (map (fun x => if x =? -1 then None else Some x) ids)) ;; Ok (fileID, b).
(** SWAR (soundArchive.py:277-279) *)
Definition load_war (data : bytes) (fs : list bytes) (o : Z) : res (merged swar) :=
  fileID <- unpack_u 2 data o ;;
  unk02 <- unpack_u 2 data (o + 2) ;;
  f <- get fs fileID ;;
  w <- swar_load f unk02 ;; Ok (fileID, w).
(** sequence players (soundArchive.py:289-299) *)
Definition load_player (data : bytes) (o : Z) : res player :=
  maxSequences <- unpack_u 2 data o ;;
  mask <- unpack_u 2 data (o + 2) ;;
  heapSize <- unpack_u 4 data (o + 4) ;;
  Ok (maxSequences, filter (fun i => negb (Z.land (Z.shiftr mask i) 1 =? 0)) (range_z 0 16), heapSize).
(** groups (soundArchive.py:309-317) *)
Definition load_group (data : bytes) (o : Z) : res (list groupEntry) :=
  count <- unpack_u 4 data o ;;
  mapM (fun k => let p := o + 4 + 8 * k in
                 type <- unpack_u 1 data p ;; options <- unpack_u 2 data (p + 1) ;; id <- unpack_u 4 data (p + 4) ;;
                 group_new type options id) (range_z 0 (Z.to_nat count)).
(** stream players (soundArchive.py:327-330) *)
Definition load_splayer (data : bytes) (o : Z) : res (list Z) :=
  count <- unpack_u 1 data o ;; rd data (o + 1) count.
(** streams (soundArchive.py:340-343) *)
Definition load_strm (data : bytes) (fs : list bytes) (o : Z) : res (merged strm) :=
  fileID <- unpack_u 2 data o ;;
  unk02 <- unpack_u 2 data (o + 2) ;;
  volume <- unpack_u 1 data (o + 4) ;;
  priority <- unpack_u 1 data (o + 5) ;;
  playerID <- unpack_u 1 data (o + 6) ;;
  unk07 <- unpack_u 1 data (o + 7) ;;
  f <- get fs fileID ;;
  x <- strm_load f (unk02, volume, priority, playerID, unk07) ;; Ok (fileID, x).

(** SDAT(data) (soundArchive.py:62-350); [order] as in [sbnk_load] *)
Definition sdat_load (order : list Z) (data : bytes) : res sdat :=
  h <- std_unpack data ;;
  _ <- guard (hVersion h =? 0x100) ValueError ;;
  _ <- guard (beq (hMagic h) (asc "SDAT")) ValueError ;;
  blocks <- mapM (fun i => unpack_u 4 data (0x10 + 4 * i)) (range_z 0 8) ;;
  let block i := nth i blocks 0 in
  let symbOff := block 0%nat in
  let infoOff := block 2%nat in
  let fatOff := block 4%nat in
  symbMagic <- rd data symbOff 4 ;;
  _ <- unpack_u 4 data (symbOff + 4) ;;
  heads <- (if symbOff =? 0 then Ok None
            else l <- mapM (fun i => unpack_u 4 data (symbOff + 8 + 4 * i)) (range_z 0 8) ;;
                 _ <- guard (beq symbMagic (asc "SYMB")) AssertionError ;; Ok (Some l)) ;;
  fatMagic <- rd data fatOff 4 ;;
  _ <- unpack_u 4 data (fatOff + 4) ;;
  count <- unpack_u 4 data (fatOff + 8) ;;
  _ <- guard (beq fatMagic (asc "FAT ")) AssertionError ;;
  t <- foldM (fat_step data fatOff count)
         {| tFiles := []; tAlign := 0x200; tFirst := None; tPad := true; tEnd := block 6%nat + 8 |}
         (range_z 0 (Z.to_nat count)) ;;
  infoMagic <- rd data infoOff 4 ;;
  _ <- unpack_u 4 data (infoOff + 4) ;;
  infos <- mapM (fun i => unpack_u 4 data (infoOff + 8 + 4 * i)) (range_z 0 8) ;;
  _ <- guard (beq infoMagic (asc "INFO")) AssertionError ;;
  let names i last := match heads with None => Ok ([], last) | Some l => read_symbols data symbOff (nth i l 0) last end in
  let offs i := info_offsets data infoOff (nth i infos 0) in
  let fs := tFiles t in
  ' (n, last) <- names 0%nat 0 ;; o <- offs 0%nat ;; seqs <- load_part (load_seq data fs) o n ;;
  ' (n, last) <- (match heads with None => Ok ([], last) | Some l => read_nested data symbOff (nth 1 l 0) last end) ;;
  o <- offs 1%nat ;; archs <- load_archs data fs o n ;;
  ' (n, last) <- names 2%nat last ;; o <- offs 2%nat ;; banks <- load_part (load_bank order data fs) o n ;;
  ' (n, last) <- names 3%nat last ;; o <- offs 3%nat ;; wars <- load_part (load_war data fs) o n ;;
  ' (n, last) <- names 4%nat last ;; o <- offs 4%nat ;; players <- load_part (load_player data) o n ;;
  ' (n, last) <- names 5%nat last ;; o <- offs 5%nat ;; groups <- load_part (load_group data) o n ;;
  ' (n, last) <- names 6%nat last ;; o <- offs 6%nat ;; splayers <- load_part (load_splayer data) o n ;;
  ' (n, last) <- names 7%nat last ;; o <- offs 7%nat ;; strms <- load_part (load_strm data fs) o n ;;
  Ok {| dSeqs := seqs; dArchs := archs; dBanks := banks; dWars := wars; dPlayers := players; dGroups := groups;
        dSPlayers := splayers; dStrms := strms; fatPad := tPad t;
        firstAlign := match tFirst t with Some a => if a =? tAlign t then None else Some a | None => None end;
        fileAlign := tAlign t;
        padEnd := negb ((tEnd t =? zlen data) && negb (tEnd t mod tAlign t =? 0));
        padSymb := (block 1%nat mod 4 =? 0) && negb (last mod 4 =? 0) |}.

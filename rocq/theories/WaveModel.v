(** * Model of ndspy/soundWave.py, ndspy/soundWaveArchive.py, ndspy/soundStream.py
      and ndspy/soundGroup.py

    saveToFile and, except for SWAR, fromFile are in FilesModel, __str__ and __repr__
    in ReprModel.  A struct.unpack of several fields
    is written as consecutive reads; each raises the same exception when the data
    is too short.  [int(a / b)] on floats in the two [updateTime] branches is
    written as integer division truncating towards zero (see DESIGN.md). *)
From Coq Require Import String.
From Verif Require Import PyBase.

(** ** the standard header, '<4sHHIHH' (_common.py:31) *)
Record stdheader := { hMagic : bytes; hBom : Z; hVersion : Z; hSize : Z; hHeaderSize : Z; hBlocks : Z }.
Definition std_unpack (data : bytes) : res stdheader :=
  magic <- rd data 0 4 ;;
  bom <- unpack_u 2 data 4 ;;
  version <- unpack_u 2 data 6 ;;
  size <- unpack_u 4 data 8 ;;
  hsize <- unpack_u 2 data 12 ;;
  blocks <- unpack_u 2 data 14 ;;
  Ok {| hMagic := magic; hBom := bom; hVersion := version; hSize := size; hHeaderSize := hsize; hBlocks := blocks |}.
Definition std_pack (magic : bytes) (version size blocks : Z) : res bytes :=
  r <- pack_us [(2%nat, 0xFEFF); (2%nat, version); (4%nat, size); (2%nat, 0x10); (2%nat, blocks)] ;;
  Ok (magic ++ r).

(** WaveType (__init__.py:44-51) *)
Inductive waveType : Set := PCM8 | PCM16 | ADPCM.
Definition wt_val (w : waveType) : Z := match w with PCM8 => 0 | PCM16 => 1 | ADPCM => 2 end.
(** [WaveType(v)] *)
Definition wt_of (v : Z) : res waveType :=
  if v =? 0 then Ok PCM8 else if v =? 1 then Ok PCM16 else if v =? 2 then Ok ADPCM else Err ValueError.
(** the '?' format character *)
Definition b2b (b : bool) : Z := if b then 1 else 0.

(** ** SWAV (soundWave.py:33-40) *)
Record swav := { wType : waveType; wLooped : bool; wRate : Z; wTime : Z; wLoop : Z; wTotal : Z; wData : bytes }.
Definition swav_new : swav :=
  {| wType := PCM8; wLooped := false; wRate := 8000; wTime := 0; wLoop := 0; wTotal := 0; wData := [] |}.

(** the SWAVInfo struct '<B?3HI' and the rest of the data (soundWave.py:64-67,
    soundWaveArchive.py:75-84) *)
Definition swav_info (data : bytes) (off : Z) (rest : bytes) : res swav :=
  wt <- unpack_u 1 data off ;;
  looped <- unpack_u 1 data (off + 1) ;;
  rate <- unpack_u 2 data (off + 2) ;;
  time <- unpack_u 2 data (off + 4) ;;
  loop <- unpack_u 2 data (off + 6) ;;
  len <- unpack_u 4 data (off + 8) ;;
  wt <- wt_of wt ;;
  Ok {| wType := wt; wLooped := negb (looped =? 0); wRate := rate; wTime := time; wLoop := loop; wTotal := loop + len; wData := rest |}.

(** SWAV(file) (soundWave.py:42-69) *)
Definition swav_load (file : bytes) : res swav :=
  _ <- guard (prefixb (asc "SWAV") file) ValueError ;;
  h <- std_unpack file ;;
  _ <- guard (hVersion h =? 0x100) ValueError ;;
  _ <- guard (beq (hMagic h) (asc "SWAV")) AssertionError ;;
  dataMagic <- rd file 0x10 4 ;;
  _ <- unpack_u 4 file 0x14 ;;
  _ <- guard (beq dataMagic (asc "DATA")) AssertionError ;;
  swav_info file 0x18 (slice file 0x24 (hSize h)).

(** SWAV.fromData (soundWave.py:73-86) *)
Definition swav_fromData (data : bytes) (wt : waveType) (looped : bool) (rate time loop total : Z) : swav :=
  {| wType := wt; wLooped := looped; wRate := rate; wTime := time; wLoop := loop; wTotal := total; wData := data |}.

(** the two optional updates at the start of save (soundWave.py:103-107) *)
Definition swav_update (w : swav) (updateTime updateTotal : bool) : res swav :=
  w <- (if updateTime then
          if wRate w =? 0 then Err ZeroDivisionError
          else Ok {| wType := wType w; wLooped := wLooped w; wRate := wRate w; wTime := Z.quot 16756991 (wRate w);
                     wLoop := wLoop w; wTotal := wTotal w; wData := wData w |}
        else Ok w) ;;
  Ok (if updateTotal then
        {| wType := wType w; wLooped := wLooped w; wRate := wRate w; wTime := wTime w;
           wLoop := wLoop w; wTotal := zlen (wData w) / 4; wData := wData w |}
      else w).

(** save after the updates (soundWave.py:109-121) *)
Definition swav_save0 (w : swav) : res bytes :=
  _ <- guard (negb (wTotal w <? wLoop w)) ValueError ;;
  h <- std_pack (asc "SWAV") 0x100 (0x24 + zlen (wData w)) 1 ;;
  s <- pack_u 4 (0x14 + zlen (wData w)) ;;
  i <- pack_us [(1%nat, wt_val (wType w)); (1%nat, b2b (wLooped w)); (2%nat, wRate w); (2%nat, wTime w); (2%nat, wLoop w);
                (4%nat, wTotal w - wLoop w)] ;;
  Ok (h ++ (asc "DATA" ++ s) ++ i ++ wData w).
(** save (soundWave.py:98-121): the object after the call and the data *)
Definition swav_save (w : swav) (updateTime updateTotal : bool) : res (swav * bytes) :=
  w <- swav_update w updateTime updateTotal ;; d <- swav_save0 w ;; Ok (w, d).

(** ** SWAR (soundWaveArchive.py:28-41) *)
Record swar := { rWaves : list swav; rUnk02 : Z }.

(** one iteration of the loop (soundWaveArchive.py:64-85) *)
Definition swar_loadWave (data : bytes) (filesize count i : Z) : res swav :=
  swavOffset <- unpack_u 4 data (0x3C + 4 * i) ;;
  nextOffset <- unpack_u 4 data (0x3C + 4 * i + 4) ;;
  let nextOffset := if i =? count - 1 then filesize else nextOffset in
  let swavData := slice data swavOffset nextOffset in
  swav_info swavData 0 (slice_from swavData 0xC).
(** SWAR(file, unk02) (soundWaveArchive.py:37-85) *)
Definition swar_load (data : bytes) (unk02 : Z) : res swar :=
  _ <- guard (prefixb (asc "SWAR") data) ValueError ;;
  h <- std_unpack data ;;
  _ <- guard (hVersion h =? 0x100) ValueError ;;
  _ <- guard (beq (hMagic h) (asc "SWAR")) AssertionError ;;
  dataMagic <- rd data 0x10 4 ;;
  _ <- unpack_u 4 data 0x14 ;;
  count <- unpack_u 4 data 0x38 ;;
  _ <- guard (beq dataMagic (asc "DATA")) AssertionError ;;
  waves <- mapM (swar_loadWave data (hSize h) count) (range_z 0 (Z.to_nat count)) ;;
  Ok {| rWaves := waves; rUnk02 := unk02 |}.

(** SWAR.fromFile (soundWaveArchive.py:99-104), given the contents of the file *)
Definition swar_fromFile (contents : bytes) (unk02 : Z) : res swar := swar_load contents 0.

(** the loop of save (soundWaveArchive.py:125-130): offsets and swavsTable *)
Definition swar_addWave (base : Z) (st : list Z * bytes) (w : swav) : res (list Z * bytes) :=
  let '(offsets, table) := st in
  d <- swav_save0 w ;;
  Ok (offsets ++ [base + zlen table], table ++ slice_from d 0x18).
(** save (soundWaveArchive.py:107-135) *)
Definition swar_save (r : swar) : res (bytes * Z) :=
  let fileLen := 0x3C + fold_right Z.add 0 (map (fun s => 4 + 0xC + zlen (wData s)) (rWaves r)) in
  h <- std_pack (asc "SWAR") 0x100 fileLen 1 ;;
  s <- pack_u 4 (fileLen - 0x10) ;;
  n <- pack_u 4 (zlen (rWaves r)) ;;
  ' (offsets, table) <- foldM (swar_addWave (0x3C + 4 * zlen (rWaves r))) ([], []) (rWaves r) ;;
  o <- pack_us (map (fun v => (4%nat, v)) offsets) ;;
  Ok (h ++ (asc "DATA" ++ s ++ zeros 32 ++ n) ++ o ++ table, rUnk02 r).

(** ** STRM (soundStream.py:37-69) *)
Record strm := {
  sType : waveType; sLooped : bool; sChannels : list (list bytes); sUnk03 : Z; sRate : Z; sTime : Z; sLoop : Z;
  sPerBlock : Z; sInLast : Z; sUnks : list Z; (* unk28, unk2C, ..., unk44: eight values *)
  sInfo : Z * Z * Z * Z * Z (* unk02, volume, priority, playerID, unk07 *)
}.
Definition strm_new (info : Z * Z * Z * Z * Z) : strm :=
  {| sType := PCM8; sLooped := false; sChannels := []; sUnk03 := 0; sRate := 8000; sTime := 0; sLoop := 0;
     sPerBlock := 0; sInLast := 0; sUnks := rep 0 8; sInfo := info |}.

(** the inner loop over the channels (soundStream.py:149-151) *)
Fixpoint read_row (data : bytes) (blockSize : Z) (chans : list (list bytes)) (offs : Z) : list (list bytes) * Z :=
  match chans with
  | [] => ([], offs)
  | c :: r => let '(r', o) := read_row data blockSize r (offs + blockSize) in
              ((c ++ [slice data offs (offs + blockSize)]) :: r', o)
  end.
(** one block (soundStream.py:141-153); [while offs % 4: offs += 1] rounds up *)
Definition read_block (data : bytes) (numBlocks perBlock inLast : Z) (big : bool)
           (st : list (list bytes) * Z) (bn : Z) : list (list bytes) * Z :=
  let '(chans, offs) := st in
  let blockSize := if bn =? numBlocks - 1 then inLast else perBlock in
  let blockSize := if big then blockSize + 4 else blockSize in
  let '(chans, offs) := read_row data blockSize chans offs in
  (chans, offs + (- offs) mod 4).

(** STRM(file, ...) (soundStream.py:45-153) *)
Definition strm_load (file : bytes) (info : Z * Z * Z * Z * Z) : res strm :=
  _ <- guard (prefixb (asc "STRM") file) ValueError ;;
  h <- std_unpack file ;;
  _ <- guard (hVersion h =? 0x100) ValueError ;;
  _ <- guard (beq (hMagic h) (asc "STRM")) AssertionError ;;
  headMagic <- rd file 0x10 4 ;;
  headSize <- unpack_u 4 file 0x14 ;;
  _ <- guard (beq headMagic (asc "HEAD")) AssertionError ;;
  wt <- unpack_u 1 file 0x18 ;;
  looped <- unpack_u 1 file 0x19 ;;
  numChannels <- unpack_u 1 file 0x1A ;;
  unk03 <- unpack_u 1 file 0x1B ;;
  rate <- unpack_u 2 file 0x1C ;;
  time <- unpack_u 2 file 0x1E ;;
  loop <- unpack_u 4 file 0x20 ;;
  _ <- unpack_u 4 file 0x24 ;;
  dataOffset <- unpack_u 4 file 0x28 ;;
  numBlocks <- unpack_u 4 file 0x2C ;;
  perBlock <- unpack_u 4 file 0x30 ;;
  samplesPerBlock <- unpack_u 4 file 0x34 ;;
  inLast <- unpack_u 4 file 0x38 ;;
  samplesInLast <- unpack_u 4 file 0x3C ;;
  unks <- mapM (fun i => unpack_u 4 file (0x40 + 4 * i)) (range_z 0 8) ;;
  _ <- guard (dataOffset =? 0x68) AssertionError ;;
  ty <- wt_of wt ;;
  let dataOffs := 0x10 + headSize in
  dataMagic <- rd file dataOffs 4 ;;
  dataSize <- unpack_u 4 file (dataOffs + 4) ;;
  _ <- guard (beq dataMagic (asc "DATA")) AssertionError ;;
  let data := slice file (dataOffs + 8) (dataOffs + dataSize) in
  let big := (numBlocks =? 1) && (wt =? wt_val ADPCM) in
  let '(chans, _) := fold_left (read_block data numBlocks perBlock inLast big) (range_z 0 (Z.to_nat numBlocks))
                               (rep [] numChannels, 0) in
  Ok {| sType := ty; sLooped := negb (looped =? 0); sChannels := chans; sUnk03 := unk03; sRate := rate; sTime := time;
        sLoop := loop; sPerBlock := samplesPerBlock; sInLast := samplesInLast; sUnks := unks; sInfo := info |}.

(** [for j, b in enumerate(blocks[:-1])] and the last block (soundStream.py:186-199) *)
Definition check_channel (perBlock inLast : Z) (blocks : list bytes) : bool :=
  forallb (fun b => zlen b =? perBlock) (slice_to blocks (-1)) && (zlen (last blocks []) =? inLast).
(** the size checks (soundStream.py:167-199): (numBlocks, bytesPerBlock, bytesInLastBlock) *)
Definition strm_sizes (chans : list (list bytes)) : res (Z * Z * Z) :=
  match chans with
  | [] => Ok (0, 0, 0)
  | c0 :: _ =>
    let numBlocks := zlen c0 in
    _ <- guard (forallb (fun c => zlen c =? numBlocks) chans) ValueError ;;
    if 0 <? numBlocks then
      let perBlock := zlen (hd [] c0) in
      let inLast := zlen (last c0 []) in
      _ <- guard (forallb (check_channel perBlock inLast) chans) ValueError ;;
      Ok (numBlocks, perBlock, inLast)
    else Ok (numBlocks, 0, 0)
  end.
(** [zip( *channels )] for channels of equal length (soundStream.py:203) *)
Definition strm_rows (chans : list (list bytes)) (numBlocks : Z) : list (list bytes) :=
  map (fun j => map (fun c => nth (Z.to_nat j) c []) chans) (range_z 0 (Z.to_nat numBlocks)).
(** the wave data (soundStream.py:202-206); the padding loop is [pad_to] *)
Definition strm_waveData (rows : list (list bytes)) : bytes :=
  fold_left (fun d row => pad_to 4 0 (d ++ concat row)) rows [].

(** save after the optional update of the time (soundStream.py:164-252) *)
Definition strm_save0 (s : strm) : res (bytes * (Z * Z * Z * Z * Z)) :=
  ' sizes <- strm_sizes (sChannels s) ;;
  let '(numBlocks, perBlock, inLast) := sizes in
  let waveData := strm_waveData (strm_rows (sChannels s) numBlocks) in
  h <- std_pack (asc "STRM") 0x100 (0x68 + zlen waveData) 2 ;;
  let adjust := if (wt_val (sType s) =? wt_val ADPCM) && (numBlocks =? 1) then 4 else 0 in
  hs <- pack_u 4 0x50 ;;
  f <- pack_us ([(1%nat, wt_val (sType s)); (1%nat, b2b (sLooped s)); (1%nat, zlen (sChannels s)); (1%nat, sUnk03 s);
                 (2%nat, sRate s); (2%nat, sTime s); (4%nat, sLoop s);
                 (4%nat, (numBlocks - 1) * sPerBlock s + sInLast s); (4%nat, 0x68); (4%nat, numBlocks);
                 (4%nat, perBlock - adjust); (4%nat, sPerBlock s); (4%nat, inLast - adjust); (4%nat, sInLast s)]
                ++ map (fun v => (4%nat, v)) (sUnks s)) ;;
  ds <- pack_u 4 (8 + zlen waveData) ;;
  Ok (h ++ (asc "HEAD" ++ hs) ++ f ++ (asc "DATA" ++ ds) ++ waveData, sInfo s).
(** the update (soundStream.py:213-214); it happens after the size checks and the file header *)
Definition strm_update (s : strm) : res strm :=
  if sRate s =? 0 then Err ZeroDivisionError else
  Ok {| sType := sType s; sLooped := sLooped s; sChannels := sChannels s; sUnk03 := sUnk03 s; sRate := sRate s;
        sTime := Z.quot 16756991 (32 * sRate s); sLoop := sLoop s; sPerBlock := sPerBlock s; sInLast := sInLast s;
        sUnks := sUnks s; sInfo := sInfo s |}.

(** save (soundStream.py:156-252): the object after the call and the saved tuple *)
Definition strm_save (s : strm) (updateTime : bool) : res (strm * (bytes * (Z * Z * Z * Z * Z))) :=
  if updateTime then
    ' sizes <- strm_sizes (sChannels s) ;;
    _ <- std_pack (asc "STRM") 0x100 (0x68 + zlen (strm_waveData (strm_rows (sChannels s) (fst (fst sizes))))) 2 ;;
    s <- strm_update s ;; r <- strm_save0 s ;; Ok (s, r)
  else r <- strm_save0 s ;; Ok (s, r).

(** ** GroupEntry (soundGroup.py:45-99) *)
Record groupEntry := { gType : Z; gId : Z; gLoadSSEQ : bool; gSwarIds : bool; gLoadSWAR : bool; gLoadSSAR : bool }.
(** [GroupEntry(type, options, id)] (soundGroup.py:52-67); [gSwarIds] is
    [loadSBNKSWARsFrom == SWARLoadMethod.SWAR_IDS] *)
Definition group_new (type options id : Z) : res groupEntry :=
  _ <- guard ((0 <=? type) && (type <? 4)) ValueError ;;
  Ok {| gType := type; gId := id; gLoadSSEQ := negb (Z.land options 1 =? 0); gSwarIds := negb (Z.land options 2 =? 0);
        gLoadSWAR := negb (Z.land options 4 =? 0); gLoadSSAR := negb (Z.land options 8 =? 0) |}.
(** GroupEntry.fromFlags (soundGroup.py:69-83) *)
Definition group_fromFlags (type id : Z) (sseq swarIds swar ssar : bool) : res groupEntry :=
  g <- group_new type 0 id ;;
  Ok {| gType := gType g; gId := gId g; gLoadSSEQ := sseq; gSwarIds := swarIds; gLoadSWAR := swar; gLoadSSAR := ssar |}.
(** GroupEntry.save (soundGroup.py:86-99) *)
Definition group_save (g : groupEntry) : Z * Z * Z :=
  let o := 0 in
  let o := if gLoadSSEQ g then Z.lor o 1 else o in
  let o := if gSwarIds g then Z.lor o 2 else o in
  let o := if gLoadSWAR g then Z.lor o 4 else o in
  let o := if gLoadSSAR g then Z.lor o 8 else o in
  (gType g, o, gId g).

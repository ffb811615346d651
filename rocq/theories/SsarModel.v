(** * Model of the SSEQ class (ndspy/soundSequence.py:27-155) and of
      ndspy/soundSequenceArchive.py

    fromFile and saveToFile are in FilesModel, __str__ in SeqTextModel, __repr__ in
    ReprModel.  Not modelled: dataMergeOptimizationID (a plain attribute).
    A struct.unpack of several fields is written as consecutive reads; each raises
    the same exception when the data is too short.  As in SeqModel, an event
    object is named by an integer. *)
From Coq Require Import String.
From Verif Require Import PyBase WaveModel SeqModel.

(** ** SSEQ *)

(** unk02, bankID, volume, channelPressure, polyphonicPressure, playerID *)
Definition seqInfo : Type := (Z * Z * Z * Z * Z * Z)%type.
(** [_parsed], [_events], [_eventsData] and the parameters.  Where Python leaves
    [_eventsData] undefined (SSEQ without file) it is [[]] here; it is never read
    then. *)
Record sseq := { qParsed : bool; qEvents : list (Z * ev); qData : bytes; qInfo : seqInfo }.

(** SSEQ() (soundSequence.py:36-46, 62-65) and fromEvents (soundSequence.py:69-77) *)
Definition sseq_fromEvents (events : list (Z * ev)) (info : seqInfo) : sseq :=
  {| qParsed := true; qEvents := events; qData := []; qInfo := info |}.
Definition sseq_new (info : seqInfo) : sseq := sseq_fromEvents [] info.
(** SSEQ(file, ...) (soundSequence.py:48-60) *)
Definition sseq_load (file : bytes) (info : seqInfo) : res sseq :=
  _ <- guard (prefixb (asc "SSEQ") file) ValueError ;;
  version <- unpack_u 2 file 6 ;;
  totalFileLen <- unpack_u 4 file 8 ;;
  _ <- guard (version =? 0x100) ValueError ;;
  dataOffs <- unpack_u 4 file 0x18 ;;
  Ok {| qParsed := false; qEvents := []; qData := slice file dataOffs totalFileLen; qInfo := info |}.

(** the getters of events and eventsData (soundSequence.py:89-105) *)
Definition sseq_events (s : sseq) : res (list (Z * ev)) := if qParsed s then Ok (qEvents s) else Err ValueError.
Definition sseq_eventsData (s : sseq) : res bytes := if qParsed s then Err ValueError else Ok (qData s).

(** parse (soundSequence.py:119-126) *)
Definition sseq_parse (depth : nat) (s : sseq) : res sseq :=
  if qParsed s then Ok s else
  ' (events, _) <- readSequenceEvents depth (qData s) [] ;;
  Ok {| qParsed := true; qEvents := events; qData := qData s; qInfo := qInfo s |}.

(** save (soundSequence.py:129-155).  The two pack_into calls and the slice
    assignment fill exactly the bytes 0-0xF, 0x10-0x1B and 0x1C on. *)
Definition sseq_save (s : sseq) : res (bytes * seqInfo) :=
  seqEv <- (if qParsed s then ' (d, _) <- saveSequenceEvents (qEvents s) [] ;; Ok d else Ok (qData s)) ;;
  let len := 0x1C + zlen seqEv in
  h <- std_pack (asc "SSEQ") 0x100 len 1 ;;
  b <- pack_us [(4%nat, len - 0x10); (4%nat, 0x1C)] ;;
  Ok (h ++ (asc "DATA" ++ b) ++ seqEv, qInfo s).

(** ** SSARSequence (soundSequenceArchive.py:265-325) *)

(** [aFirst] is [_firstEvent] (an event object or None), [aOffset] is
    [_firstEventOffset], [aParams] are bankID, volume, channelPressure,
    polyphonicPressure and playerID *)
Definition seqParams : Type := (Z * Z * Z * Z * Z)%type.
Record aseq := { aParsed : bool; aFirst : ref; aOffset : option Z; aParams : seqParams }.
(** SSARSequence(firstEvent, ...) (soundSequenceArchive.py:270-288) *)
Definition aseq_parsed (first : ref) (params : seqParams) : aseq :=
  {| aParsed := true; aFirst := first; aOffset := Some 0; aParams := params |}.
(** SSARSequence(offset, ..., parsed=False) *)
Definition aseq_unparsed (offset : option Z) (params : seqParams) : aseq :=
  {| aParsed := false; aFirst := None;
     aOffset := match offset with Some o => if o =? -1 then None else Some o | None => None end;
     aParams := params |}.
(** the getters (soundSequenceArchive.py:291-307) *)
Definition aseq_firstEvent (s : aseq) : res ref := if aParsed s then Ok (aFirst s) else Err ValueError.
Definition aseq_firstEventOffset (s : aseq) : res (option Z) := if aParsed s then Err ValueError else Ok (aOffset s).

(** ** SSAR (soundSequenceArchive.py:27-228) *)

(** [sequences] is a list of pairs of a name (or None) and a sequence object; the
    objects are taken to be distinct.  [rData] is [_eventsData]; it is [[]] where
    Python has no such attribute. *)
Record ssar := { rParsed : bool; rEvents : list (Z * ev); rData : bytes;
                 rSeqs : list (option (list Z) * aseq); rUnk : Z }.

(** fromEventsAndSequences (soundSequenceArchive.py:91-99) *)
Definition ssar_fromEvents (events : list (Z * ev)) (seqs : list (option (list Z) * aseq)) (unk02 : Z) : ssar :=
  {| rParsed := true; rEvents := events; rData := []; rSeqs := seqs; rUnk := unk02 |}.

(** one iteration of the loop (soundSequenceArchive.py:72-82) *)
Definition ssar_loadSeq (file : bytes) (i : Z) : res aseq :=
  let pos := 0x20 + 0xC * i in
  sequenceOffset <- unpack_s 4 file pos ;;
  bankID <- unpack_u 2 file (pos + 4) ;;
  volume <- unpack_u 1 file (pos + 6) ;;
  channelPressure <- unpack_u 1 file (pos + 7) ;;
  polyphonicPressure <- unpack_u 1 file (pos + 8) ;;
  playerID <- unpack_u 1 file (pos + 9) ;;
  Ok (aseq_unparsed (Some sequenceOffset) (bankID, volume, channelPressure, polyphonicPressure, playerID)).
(** SSAR(file, unk02, names) (soundSequenceArchive.py:41-84); [names] is padded with
    None to the number of sequences, so [names[i]] is None past its end *)
Definition ssar_load (file : bytes) (unk02 : Z) (names : list (option (list Z))) : res ssar :=
  _ <- guard (prefixb (asc "SSAR") file) ValueError ;;
  h <- std_unpack file ;;
  _ <- guard (hVersion h =? 0x100) ValueError ;;
  _ <- guard (beq (hMagic h) (asc "SSAR")) AssertionError ;;
  dataMagic <- rd file 0x10 4 ;;
  _ <- unpack_u 4 file 0x14 ;;
  dataOffset <- unpack_u 4 file 0x18 ;;
  dataCount <- unpack_u 4 file 0x1C ;;
  _ <- guard (beq dataMagic (asc "DATA")) AssertionError ;;
  seqs <- mapM (fun i => s <- ssar_loadSeq file i ;; Ok (nth (Z.to_nat i) names None, s))
            (range_z 0 (Z.to_nat dataCount)) ;;
  Ok {| rParsed := false; rEvents := []; rData := slice file dataOffset (hSize h); rSeqs := seqs; rUnk := unk02 |}.

(** the first loop of _initFromData (soundSequenceArchive.py:149-159): startOffs.
    The dict startOffs2Seq gives the sequences with an offset again. *)
Definition usable (o : option Z) : option Z :=
  match o with Some o => if o =? -1 then None else Some o | None => None end.
Definition startOffs (seqs : list (option (list Z) * aseq)) : res (list Z) :=
  l <- mapM (fun p => aseq_firstEventOffset (snd p)) seqs ;;
  Ok (flat_map (fun o => match usable o with Some o => [o] | None => [] end) l).
(** the second loop (soundSequenceArchive.py:164-168): what it does to one sequence *)
Definition assign_first (z : list (Z * Z)) (s : aseq) : aseq :=
  match usable (aOffset s) with
  | None => s
  | Some o => fold_left (fun s (p : Z * Z) => if snd p =? o
                           then {| aParsed := true; aFirst := Some (fst p); aOffset := aOffset s; aParams := aParams s |}
                           else s) z s
  end.
(** parse (soundSequenceArchive.py:133-168) *)
Definition ssar_parse (depth : nat) (r : ssar) : res ssar :=
  if rParsed r then Ok r else
  offs <- startOffs (rSeqs r) ;;
  ' (events, startEvents) <- readSequenceEvents depth (rData r) offs ;;
  Ok {| rParsed := true; rEvents := events; rData := [];
        rSeqs := map (fun p => (fst p, assign_first (combine startEvents offs) (snd p))) (rSeqs r);
        rUnk := rUnk r |}.

(** one row of the table, struct '<iH4B2x' (soundSequenceArchive.py:199-200, 211-212) *)
Definition ssar_row (off : Z) (p : seqParams) : res bytes :=
  let '(bankID, volume, channelPressure, polyphonicPressure, playerID) := p in
  o <- pack_s 4 off ;;
  r <- pack_us [(2%nat, bankID); (1%nat, volume); (1%nat, channelPressure); (1%nat, polyphonicPressure); (1%nat, playerID)] ;;
  Ok (o ++ r ++ [0; 0]).
(** [l.index(v)] *)
Fixpoint list_index (l : list Z) (v : Z) : res Z :=
  match l with
  | [] => Err ValueError
  | x :: r => if x =? v then Ok 0 else i <- list_index r v ;; Ok (i + 1)
  end.
(** the table and the events data (soundSequenceArchive.py:178-212) *)
Definition ssar_body (r : ssar) : res (bytes * bytes) :=
  if rParsed r then
    firsts <- mapM (fun p => aseq_firstEvent (snd p)) (rSeqs r) ;;
    let startEvents := flat_map (fun f => match f with Some i => [i] | None => [] end) firsts in
    ' (eventsData, offs) <- saveSequenceEvents (rEvents r) startEvents ;;
    rows <- mapM (fun p : option (list Z) * aseq =>
                    off <- match aFirst (snd p) with
                           | Some i => k <- list_index startEvents i ;; get offs k
                           | None => Ok (-1)
                           end ;;
                    ssar_row off (aParams (snd p))) (rSeqs r) ;;
    Ok (concat rows, eventsData)
  else
    rows <- mapM (fun p => o <- aseq_firstEventOffset (snd p) ;;
                           ssar_row (match o with Some o => o | None => -1 end) (aParams (snd p))) (rSeqs r) ;;
    Ok (concat rows, rData r).
(** save (soundSequenceArchive.py:171-228) *)
Definition ssar_save (r : ssar) : res (bytes * Z * list (option (list Z))) :=
  ' (tableData, eventsData) <- ssar_body r ;;
  let dataOffset := 0x20 + zlen (rSeqs r) * 0xC in
  let fileLen := dataOffset + zlen eventsData in
  h <- std_pack (asc "SSAR") 0x100 fileLen 1 ;;
  b <- pack_us [(4%nat, fileLen - 0x10); (4%nat, dataOffset); (4%nat, zlen (rSeqs r))] ;;
  Ok (h ++ (asc "DATA" ++ b) ++ tableData ++ eventsData, rUnk r, map fst (rSeqs r)).

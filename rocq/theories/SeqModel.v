(** * Model of sequence events (ndspy/soundSequence.py:201-1428)

    Events are Python objects compared by identity: jump destinations and the
    keys of [events2Offsets] are references to event objects.  Here an event
    object is named by an integer (its identity), an event list is a list of
    pairs of a name and the contents of the event, and a reference is
    [Some name] or [None].  Python compares the objects by identity only since
    no event class defines [__eq__] or [__hash__]. *)
From Verif Require Import PyBase.

(** ** Variable-length integers *)

(** the loop of [_readVariableLengthInt] (soundSequence.py:258-266).
    [left] is fuel: at most [limit + 1] = 5 iterations are entered before
    ValueError is raised, so 6 is enough (shown in SeqLemmas). *)
Fixpoint vl_loop (fuel : nat) (data : bytes) (offset value length : Z) : res Z :=
  match fuel with
  | O => Err OutOfFuel
  | S k =>
    c <- get data (offset - 1) ;;
    if Z.land c 0x80 =? 0 then Ok value else
    b <- get data offset ;;
    let value := Z.lor (Z.shiftl value 7) (Z.land b 0x7F) in
    if 4 <? length + 1 then Err ValueError else
    vl_loop k data (offset + 1) value (length + 1)
  end.
(** [_readVariableLengthInt] (soundSequence.py:242-266) with its default limit *)
Definition vl_read (data : bytes) (off : Z) : res Z :=
  b <- get data off ;;
  vl_loop 6 data (off + 1) (Z.land b 0x7F) 0.

(** [int.bit_length] of a non-negative integer *)
Definition bit_length (x : Z) : Z := if x =? 0 then 0 else Z.log2 x + 1.

(** the counting loop of [_lengthOfVariableLengthInt] (soundSequence.py:279-281);
    the fuel is the number of bits *)
Fixpoint vl_count (fuel : nat) (bits length : Z) : Z :=
  match fuel with
  | O => length
  | S k => if 0 <? bits then vl_count k (bits - 7) (length + 1) else length
  end.
(** [_lengthOfVariableLengthInt] (soundSequence.py:269-282) *)
Definition vl_length (x : Z) : res Z :=
  if x <? 0 then Err ValueError else
  Ok (Z.max 1 (vl_count (Z.to_nat (bit_length x)) (bit_length x) 0)).

(** the loop of [_writeVariableLengthInt] (soundSequence.py:296-300): the 7-bit
    groups, lowest first.  The fuel is the number of bits plus one. *)
Fixpoint vl_groups (fuel : nat) (x : Z) : list Z :=
  match fuel with
  | O => []
  | S k =>
    Z.land x 0x7F :: (if Z.shiftr x 7 =? 0 then [] else vl_groups k (Z.shiftr x 7))
  end.
(** [_writeVariableLengthInt] (soundSequence.py:285-307) *)
Definition vl_write (x : Z) : res bytes :=
  if x <? 0 then Err ValueError else
  let ret := rev (vl_groups (S (Z.to_nat (bit_length x))) x) in
  to_bytes (map (fun v => Z.lor v 0x80) (slice_to ret (-1)) ++ slice_from ret (-1)).

(** ** Events *)

(** a reference to an event object, or [None] *)
Notation ref := (option Z).

(** The event classes, by shape.  [Note]: 0x00-0x7F; [Arith]: 0xB0-0xBD;
    [Byte1]: the classes with a one-byte [value] (0xC0-0xD6, 0xE0), among them
    MonoPoly (0xC7) and VibratoType (0xCC) whose value is an enum member and
    Tie (0xC8) and PortamentoOnOff (0xCE) whose value is normalised to a bool
    when 0 or 1 (which is the same integer in Python); [Word1]: Tempo (0xE1) and
    SweepPitch (0xE3); [Bare]: If (0xA2), EndLoop (0xFC), Return (0xFD) and
    EndTrack (0xFF).  [DefTracks] holds a set of track numbers, listed in
    increasing order when it was read from data. *)
Inductive ev : Type :=
| Note (type velocity : Z) (unknownFlag : bool) (duration : Z)
| Rest (duration : Z)
| Instr (bankID instrumentID : Z)
| BeginTrack (trackNumber : Z) (firstEvent : ref)
| Jump (destination : ref)
| Call (destination : ref)
| Random (subType : Z) (args : list Z) (randMin randMax : Z)
| FromVar (subType variableID : Z) (unknown : option Z)
| Arith (type variableID value : Z)
| Byte1 (type value : Z)
| Word1 (type value : Z)
| Bare (type : Z)
| DefTracks (trackNumbers : list Z)
| Raw (data : bytes).

(** [event.type] ([None] for RawDataSequenceEvent) *)
Definition ev_type (e : ev) : option Z :=
  match e with
  | Note t _ _ _ => Some t
  | Rest _ => Some 0x80
  | Instr _ _ => Some 0x81
  | BeginTrack _ _ => Some 0x93
  | Jump _ => Some 0x94
  | Call _ => Some 0x95
  | Random _ _ _ _ => Some 0xA0
  | FromVar _ _ _ => Some 0xA1
  | Arith t _ _ => Some t
  | Byte1 t _ => Some t
  | Word1 t _ => Some t
  | Bare t => Some t
  | DefTracks _ => Some 0xFE
  | Raw _ => None
  end.

(** the keys of [_EVENT_TYPES] (soundSequence.py:1196-1249), by shape *)
Definition is_arith (t : Z) : bool := (0xB0 <=? t) && (t <=? 0xBD).
Definition is_byte1 (t : Z) : bool := ((0xC0 <=? t) && (t <=? 0xD6)) || (t =? 0xE0).
Definition is_word1 (t : Z) : bool := (t =? 0xE1) || (t =? 0xE3).
Definition is_bare (t : Z) : bool :=
  (t =? 0xA2) || (t =? 0xFC) || (t =? 0xFD) || (t =? 0xFF).

(** [RandomSequenceEvent._dataLength_for_subtype] (soundSequence.py:519-533).
    The code builds a sub-event with 1, 2, ... 5 zero arguments until the
    constructor accepts them and returns 4 plus its [dataLength]; the lengths of
    these all-zero sub-events are tabulated here.  The constructors without
    arguments (0xA2, 0xFC, 0xFD, 0xFF) never accept them: ValueError; an unknown
    sub-type is a KeyError. *)
Definition random_length (subType : Z) : res Z :=
  if subType <=? 0x7F then Ok 7
  else if subType =? 0x80 then Ok (4 + 2)
  else if subType =? 0x81 then Ok (4 + 2)
  else if subType =? 0x93 then Ok (4 + 5)
  else if (subType =? 0x94) || (subType =? 0x95) then Ok (4 + 4)
  else if subType =? 0xA0 then Ok (4 + 7)
  else if subType =? 0xA1 then Ok (4 + 3)
  else if is_arith subType then Ok (4 + 4)
  else if is_byte1 subType then Ok (4 + 2)
  else if is_word1 subType then Ok (4 + 3)
  else if subType =? 0xFE then Ok (4 + 3)
  else if is_bare subType then Err ValueError
  else Err KeyError.

(** [event.dataLength] (soundSequence.py:206, 327-329, 378-380, 409-412, 438, 462,
    485, 515-517, 577-585, 674, 767, 802, ..., 1125, 1178-1180) *)
Definition dataLength (e : ev) : res Z :=
  match e with
  | Note _ _ _ d => n <- vl_length d ;; Ok (2 + n)
  | Rest d => n <- vl_length d ;; Ok (1 + n)
  | Instr b i => n <- vl_length (Z.lor (Z.shiftl b 7) i) ;; Ok (1 + n)
  | BeginTrack _ _ => Ok 5
  | Jump _ => Ok 4
  | Call _ => Ok 4
  | Random s _ _ _ => random_length s
  | FromVar s _ _ => Ok (if is_arith s then 4 else 3)
  | Arith _ _ _ => Ok 4
  | Byte1 _ _ => Ok 2
  | Word1 _ _ => Ok 3
  | Bare _ => Ok 1
  | DefTracks _ => Ok 3
  | Raw d => Ok (zlen d)
  end.

(** [int.to_bytes(n, 'little')] *)
Definition int_bytes (n : nat) (v : Z) : res bytes :=
  if (0 <=? v) && (v <? 256 ^ Z.of_nat n) then Ok (le n v) else Err OverflowError.

(** [eventsToOffsets[event]]: [None] is not a key *)
Definition e2o_get (e2o : list (Z * Z)) (r : ref) : res Z :=
  match r with
  | None => Err KeyError
  | Some i => match find (fun p => fst p =? i) e2o with
              | Some (_, o) => Ok o
              | None => Err KeyError
              end
  end.

(** the bit field of DefineTracksSequenceEvent.save (soundSequence.py:1132-1135) *)
Definition tracks_bits (ts : list Z) : Z :=
  fold_left (fun acc i => if existsb (Z.eqb i) ts then Z.lor acc (Z.shiftl 1 i) else acc)
            (range_z 0 16) 0.

(** [event.save(eventsToOffsets)] (soundSequence.py:213-221, 338-351, 382-383,
    414-416, 445-448, 468-470, 491-493, 535-538, 587-599, 651-653, 746-747, ...,
    1131-1136, 1186-1187) *)
Definition ev_save (e : ev) (e2o : list (Z * Z)) : res bytes :=
  match e with
  | Note t v f d =>
    _ <- guard (negb (t <? 0)) ValueError ;;
    _ <- guard (negb (127 <? t)) ValueError ;;
    _ <- guard (negb (127 <? v)) ValueError ;;
    let vv := Z.lor v (if f then 0x80 else 0) in
    tb <- int_bytes 1 t ;; vb <- int_bytes 1 vv ;; db <- vl_write d ;;
    Ok (tb ++ vb ++ db)
  | Rest d => db <- vl_write d ;; Ok (0x80 :: db)
  | Instr b i =>
    vb <- vl_write (Z.lor (Z.land i 0x7F) (Z.shiftl b 7)) ;; Ok (0x81 :: vb)
  | BeginTrack n r =>
    nb <- int_bytes 1 n ;; o <- e2o_get e2o r ;; ob <- int_bytes 3 o ;;
    Ok (0x93 :: nb ++ ob)
  | Jump r => o <- e2o_get e2o r ;; ob <- int_bytes 3 o ;; Ok (0x94 :: ob)
  | Call r => o <- e2o_get e2o r ;; ob <- int_bytes 3 o ;; Ok (0x95 :: ob)
  | Random s args lo hi =>
    ab <- to_bytes (s :: args) ;; l <- pack_s 2 lo ;; h <- pack_s 2 hi ;;
    Ok (0xA0 :: ab ++ l ++ h)
  | FromVar s v unk =>
    if negb (is_arith s) then
      sb <- pack_u 1 s ;; vb <- pack_s 2 v ;; Ok (0xA1 :: sb ++ vb)
    else
      match unk with
      | None => Err ValueError
      | Some u => sb <- pack_u 1 s ;; ub <- pack_s 1 u ;; vb <- pack_s 1 v ;;
                  Ok (0xA1 :: sb ++ ub ++ vb ++ [0; 0])
      end
  | Arith t v w => tb <- int_bytes 1 t ;; vb <- pack_u 1 v ;; wb <- pack_s 2 w ;;
                   Ok (tb ++ vb ++ wb)
  | Byte1 t v => tb <- int_bytes 1 t ;; vb <- int_bytes 1 v ;; Ok (tb ++ vb)
  | Word1 t v => tb <- int_bytes 1 t ;; vb <- pack_u 2 v ;; Ok (tb ++ vb)
  | Bare t => int_bytes 1 t
  | DefTracks ts => vb <- pack_u 2 (tracks_bits ts) ;; Ok (0xFE :: vb)
  | Raw d => Ok d
  end.

(** [eventCls.fromData(type, data, off)] for the classes that parse themselves,
    with the choice of the class (soundSequence.py:1362-1369 and the fromData
    methods of each class).  The enum constructors of MonoPoly and VibratoType
    raise ValueError for other values; an unrecognised type is a ValueError. *)
Definition fromData (type : Z) (data : bytes) (off : Z) : res ev :=
  if type <=? 0x7F then
    v <- get data (off + 1) ;; d <- vl_read data (off + 2) ;;
    Ok (Note type (Z.land v 0x7F) (negb (Z.land v 0x80 =? 0)) d)
  else if type =? 0x80 then d <- vl_read data (off + 1) ;; Ok (Rest d)
  else if type =? 0x81 then
    v <- vl_read data (off + 1) ;; Ok (Instr (Z.shiftr v 7) (Z.land v 0x7F))
  else if type =? 0xA0 then
    s <- get data (off + 1) ;;
    n <- random_length s ;;
    args <- mapM (fun i => get data (off + 2 + i)) (range_z 0 (Z.to_nat (n - 6))) ;;
    lo <- unpack_s 2 data (off + 2 + (n - 6)) ;;
    hi <- unpack_s 2 data (off + 2 + (n - 6) + 2) ;;
    Ok (Random s args lo hi)
  else if type =? 0xA1 then
    s <- get data (off + 1) ;;
    if is_arith s then
      u <- unpack_s 1 data (off + 2) ;; v <- unpack_s 1 data (off + 3) ;;
      Ok (FromVar s v (Some u))
    else
      v <- unpack_s 2 data (off + 2) ;; Ok (FromVar s v None)
  else if is_arith type then
    v <- unpack_u 1 data (off + 1) ;; w <- unpack_s 2 data (off + 2) ;;
    Ok (Arith type v w)
  else if is_byte1 type then
    v <- get data (off + 1) ;;
    _ <- guard (negb ((type =? 0xC7) && (1 <? v))) ValueError ;;
    _ <- guard (negb ((type =? 0xCC) && (2 <? v))) ValueError ;;
    Ok (Byte1 type v)
  else if is_word1 type then v <- unpack_u 2 data (off + 1) ;; Ok (Word1 type v)
  else if is_bare type then Ok (Bare type)
  else if type =? 0xFE then
    v <- unpack_u 2 data (off + 1) ;;
    Ok (DefTracks (filter (fun i => negb (Z.land v (Z.shiftl 1 i) =? 0)) (range_z 0 16)))
  else Err ValueError.

(** ** readSequenceEvents *)

(** the dicts [events] and [fates] (soundSequence.py:1264, 1270): association
    lists, the most recent binding first.  The event object created for offset
    [off] is named [off]. *)
Record pstate : Type := { psEvents : list (Z * ev); psFates : list (Z * Z) }.

Definition lookup {A} (k : Z) (l : list (Z * A)) : option A :=
  match find (fun p => fst p =? k) l with Some (_, v) => Some v | None => None end.
Definition set_event (off : Z) (e : ev) (st : pstate) : pstate :=
  {| psEvents := (off, e) :: psEvents st; psFates := psFates st |}.
Definition set_fate (off fate : Z) (st : pstate) : pstate :=
  {| psEvents := psEvents st; psFates := (off, fate) :: psFates st |}.
(** [for off_ in offsetsOfMySequentialEvents: fates[off_] = fate] *)
Definition set_fates (mine : list Z) (fate : Z) (st : pstate) : pstate :=
  fold_left (fun st o => set_fate o fate st) mine st.

(** FATE_* (soundSequence.py:1266-1269) *)
Definition INPROGRESS := 0.
Definition RETURN := 1.
Definition LOOP := 2.
Definition EOT := 3.

(** [events[off]] *)
Definition ev_at (st : pstate) (off : Z) : res ev :=
  match lookup off (psEvents st) with Some e => Ok e | None => Err KeyError end.

(** the downward search of soundSequence.py:1313-1319 from [n - 1]:
    the nearest event before offset [n] *)
Fixpoint prev_event (evs : list (Z * ev)) (n : nat) : option ev :=
  match n with
  | O => None
  | S m => match lookup (Z.of_nat m) evs with
           | Some e => Some e
           | None => prev_event evs m
           end
  end.
Definition part_of_if (st : pstate) (off : Z) : bool :=
  match prev_event (psEvents st) (Z.to_nat off) with
  | Some e => match ev_type e with Some t => t =? 0xA2 | None => false end
  | None => false
  end.

(** [except (struct.error, IndexError): raise EOFError] (soundSequence.py:1376-1377) *)
Definition eof {A} (r : res A) : res A :=
  match r with
  | Err StructError => Err EOFError
  | Err IndexError => Err EOFError
  | _ => r
  end.

(** the body of the [try] (soundSequence.py:1286-1372): either the function
    returns a fate ([inl]) or the loop goes on, having appended [off] to the
    sequential events, at the offset given by [inr].  [rec] is the recursive call. *)
Definition parse_step (rec : pstate -> Z -> res (pstate * Z)) (data : bytes)
           (st : pstate) (off : Z) (mine : list Z) : res (pstate * (Z + Z)) :=
  type <- get data off ;;
  if type =? 0x93 then
    trackNumber <- get data (off + 1) ;;
    let firstEventOff := unle (slice data (off + 2) (off + 5)) in
    let st := set_fate off INPROGRESS (set_event off (BeginTrack trackNumber None) st) in
    ' (st, _) <- rec st firstEventOff ;;
    _ <- ev_at st firstEventOff ;;
    let st := set_event off (BeginTrack trackNumber (Some firstEventOff)) st in
    Ok (st, inr (off + 5))
  else if type =? 0x94 then
    let destination := unle (slice data (off + 1) (off + 4)) in
    let st := set_fate off INPROGRESS (set_event off (Jump None) st) in
    ' (st, fate) <- rec st destination ;;
    _ <- ev_at st destination ;;
    let st := set_event off (Jump (Some destination)) st in
    let st := set_fates mine fate st in
    if part_of_if st off then Ok (st, inr (off + 4)) else Ok (st, inl fate)
  else if type =? 0x95 then
    let destination := unle (slice data (off + 1) (off + 4)) in
    let st := set_fate off INPROGRESS (set_event off (Call None) st) in
    ' (st, fate) <- rec st destination ;;
    _ <- ev_at st destination ;;
    let st := set_event off (Call (Some destination)) st in
    if fate =? EOT then Ok (set_fates mine fate (set_fate off fate st), inl fate)
    else if fate =? RETURN then Ok (st, inr (off + 4))
    else if fate =? LOOP then Ok (set_fates mine fate (set_fate off fate st), inl fate)
    else Ok (st, inr (off + 4))
  else if type =? 0xFD then
    Ok (set_fates mine RETURN (set_fate off RETURN (set_event off (Bare 0xFD) st)), inl RETURN)
  else if type =? 0xFF then
    Ok (set_fates mine EOT (set_fate off EOT (set_event off (Bare 0xFF) st)), inl EOT)
  else
    event <- fromData type data off ;;
    let st := set_fate off INPROGRESS (set_event off event st) in
    n <- dataLength event ;;
    Ok (st, inr (off + n)).

(** the [while] loop of [parse_at] (soundSequence.py:1275-1377).  The fuel bounds
    the number of bytes between [off] and the end of the data: every event has a
    positive length, so it does not run out (shown in SeqTotal). *)
Fixpoint parse_loop (rec : pstate -> Z -> res (pstate * Z)) (data : bytes) (fuel : nat)
         (st : pstate) (off : Z) (mine : list Z) : res (pstate * Z) :=
  match fuel with
  | O => Err OutOfFuel
  | S k =>
    if negb (off <? zlen data) then Err EOFError else
    match lookup off (psFates st) with
    | Some fate =>
      let fate := if fate =? INPROGRESS then LOOP else fate in
      Ok (set_fates mine fate st, fate)
    | None =>
      ' (st, next) <- eof (parse_step rec data st off mine) ;;
      match next with
      | inl fate => Ok (st, fate)
      | inr off' => parse_loop rec data k st off' (mine ++ [off])
      end
    end
  end.

(** [parse_at] (soundSequence.py:1272-1378).  [depth] is the number of nested
    calls Python allows before it raises RecursionError. *)
Fixpoint parse_at (depth : nat) (data : bytes) (st : pstate) (off : Z) : res (pstate * Z) :=
  match depth with
  | O => Err RecursionError
  | S d => parse_loop (parse_at d data) data (S (Z.to_nat (zlen data - off))) st off []
  end.

(** the loop over [starts] (soundSequence.py:1380-1384) *)
Definition parse_starts (depth : nat) (data : bytes) (starts : list Z) : res pstate :=
  foldM (fun st start =>
           ' (st, fate) <- parse_at depth data st start ;;
           _ <- guard ((fate =? EOT) || (fate =? LOOP)) AssertionError ;;
           Ok st)
        {| psEvents := []; psFates := [] |} starts.

(** [while j not in events and j < len(data): j += 1] (soundSequence.py:1393-1395) *)
Fixpoint next_event (evs : list (Z * ev)) (fuel : nat) (j : Z) : Z :=
  match fuel with
  | O => j
  | S k => match lookup j evs with Some _ => j | None => next_event evs k (j + 1) end
  end.

(** the loop building [eventsList] (soundSequence.py:1386-1397).  The raw data
    object of a gap is named after its offset. *)
Fixpoint walk (evs : list (Z * ev)) (data : bytes) (fuel : nat) (i : Z) : res (list (Z * ev)) :=
  match fuel with
  | O => Err OutOfFuel
  | S k =>
    if negb (i <? zlen data) then Ok [] else
    match lookup i evs with
    | Some e => n <- dataLength e ;; r <- walk evs data k (i + n) ;; Ok ((i, e) :: r)
    | None =>
      let j := next_event evs (Z.to_nat (zlen data - i)) i in
      r <- walk evs data k j ;; Ok ((i, Raw (slice data i j)) :: r)
    end
  end.

(** [readSequenceEvents(data, notableOffsets)] (soundSequence.py:1252-1401), for
    non-negative notable offsets: the event list and the names of the notable
    events *)
Definition readSequenceEvents (depth : nat) (data : bytes) (notableOffsets : list Z)
  : res (list (Z * ev) * list Z) :=
  let starts := match notableOffsets with [] => [0] | _ => notableOffsets end in
  st <- parse_starts depth data starts ;;
  eventsList <- walk (psEvents st) data (S (length data)) 0 ;;
  notable <- mapM (fun off => _ <- ev_at st off ;; Ok off) notableOffsets ;;
  Ok (eventsList, notable).

(** ** saveSequenceEvents *)

(** [d[k] = v]: an existing key keeps its place *)
Fixpoint dict_set {A} (d : list (Z * A)) (k : Z) (v : A) : list (Z * A) :=
  match d with
  | [] => [(k, v)]
  | (k', v') :: r => if k' =? k then (k', v) :: r else (k', v') :: dict_set r k v
  end.

(** the first loop (soundSequence.py:1416-1419): the items of [events2Offsets]
    with the contents of the key, and the total length *)
Definition layout (evs : list (Z * ev)) : res (list (Z * (ev * Z)) * Z) :=
  foldM (fun acc p =>
           let '(d, off) := acc in
           n <- dataLength (snd p) ;;
           Ok (dict_set d (fst p) (snd p, off), off + n)) ([], 0) evs.

(** [saveSequenceEvents(events, notableEvents)] (soundSequence.py:1404-1428) *)
Definition saveSequenceEvents (evs : list (Z * ev)) (notableEvents : list Z)
  : res (bytes * list Z) :=
  ' (items, total) <- layout evs ;;
  let e2o := map (fun it => (fst it, snd (snd it))) items in
  data <- foldM (fun data it =>
                   let '(_, (e, offset)) := it in
                   eData <- ev_save e e2o ;;
                   Ok (slice_set data offset (offset + zlen eData) eData))
                (zeros total) items ;;
  notableOffsets <- mapM (fun i => e2o_get e2o (Some i)) notableEvents ;;
  Ok (data, notableOffsets).

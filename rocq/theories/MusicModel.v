(** * Model of ndspy/extras/music.py, lines 194-809 (minification is in MinifyModel)

    As in SeqModel an event object is named by an integer and an event list is
    a list of names with contents.  Assigning to an attribute of an event
    changes every occurrence of that object.  Names for objects created by a
    call ([new], [new + 1], ...) are given by the caller. *)
From Verif Require Import PyBase SeqModel SsarModel SbnkModel.

Notation evs := (list (Z * ev)).

(** MonoPolySequenceEvent.Value (soundSequence.py:804-806, music.py:8-9).
    [monoPolyMode is _MONO] compares with the enum member, so a plain integer 1
    assigned to [value] by hand is not modelled. *)
Definition MONO := 1.

(** [l.insert(i, x)] *)
Definition insert {A} (l : list A) (i : Z) (x : A) : list A :=
  let k := Z.to_nat (clamp (zlen l) i) in firstn k l ++ x :: skipn k l.
(** [del l[i]] *)
Definition del {A} (l : list A) (i : Z) : res (list A) :=
  let j := if i <? 0 then i + zlen l else i in
  if (j <? 0) || (zlen l <=? j) then Err IndexError
  else Ok (firstn (Z.to_nat j) l ++ skipn (S (Z.to_nat j)) l).
(** the object named [n] now has the contents [e] *)
Definition assign (n : Z) (e : ev) (l : evs) : evs :=
  map (fun p => if fst p =? n then (n, e) else p) l.

(** ** Time (music.py:194-311) *)

(** [durationOfEvent] (music.py:204-213): the new mode and the duration *)
Definition durationOfEvent (mode : Z) (e : ev) : Z * Z :=
  match e with
  | Rest d => (mode, d)
  | Note _ _ _ d => (mode, if mode =? MONO then d else 0)
  | Byte1 t v => (if t =? 0xC7 then v else mode, 0)
  | _ => (mode, 0)
  end.
(** [durationOf] (music.py:194-215) *)
Fixpoint durationOf (events : evs) (mode : Z) : Z :=
  match events with
  | [] => 0
  | p :: r => let '(mode', d) := durationOfEvent mode (snd p) in d + durationOf r mode'
  end.

(** the loop of moveInTime and what follows it (music.py:268-311).  [todo] are
    the events the remaining indices denote.  Returned are the event list, the
    index, the time and the mode. *)
Fixpoint move_loop (events : evs) (new target : Z) (cut append : bool)
    (todo : evs) (idx elapsed mode : Z) : evs * (Z * Z * Z) :=
  match todo with
  | [] =>
    if append then (events ++ [(new, Rest (target - elapsed))], (zlen events + 1, target, mode))
    else (events, (zlen events, elapsed, mode))
  | (n, e) :: r =>
    let d := durationOf [(n, e)] mode in
    let mode := match e with Byte1 t v => if t =? 0xC7 then v else mode | _ => mode end in
    if elapsed + d =? target then (events, (idx + 1, elapsed + d, mode))
    else if target <=? elapsed + d then
      match e, cut with
      | Rest full, true =>
        let firstHalf := target - elapsed in
        (insert (assign n (Rest firstHalf) events) (idx + 1) (new, Rest (full - firstHalf)),
         (idx + 1, target, mode))
      | _, _ => (events, (idx, elapsed, mode))
      end
    else move_loop events new target cut append r (idx + 1) (elapsed + d) mode
  end.
(** [moveInTime] (music.py:218-311).  A negative [startIndex] counts through
    the end of the list and goes on from its beginning. *)
Definition moveInTime (events : evs) (new startIndex time mode : Z) (cut append : bool)
    : res (evs * (Z * Z * Z)) :=
  if time <? 0 then Err ValueError
  else if time =? 0 then Ok (events, (startIndex, 0, mode))
  else if zlen events <? startIndex then Err ValueError
  else if startIndex <? - zlen events then Err IndexError
  else
    let todo := if startIndex <? 0 then skipn (Z.to_nat (startIndex + zlen events)) events ++ events
                else skipn (Z.to_nat startIndex) events in
    Ok (move_loop events new time cut append todo startIndex 0 mode).

(** ** SimultaneousEventsModifier (music.py:327-391) *)

Section Modifier.
Context {A : Type}.
(** the recorded calls insert, __setitem__ and __delitem__ *)
Inductive edit : Type :=
| Insert (index : Z) (item : A)
| Replace (index : Z) (item : A)
| Delete (index : Z).
(** an entry of the log: additions, replace, delete; a missing key is an empty
    list, [None] or [false] *)
Record entry := { eAdd : list A; eRep : option A; eDel : bool }.
Definition no_entry : entry := {| eAdd := []; eRep := None; eDel := false |}.
Definition entry_at (log : list (Z * entry)) (i : Z) : entry :=
  match lookup i log with Some e => e | None => no_entry end.
(** LogCreator (music.py:360-375) *)
Definition record (log : list (Z * entry)) (e : edit) : list (Z * entry) :=
  match e with
  | Insert i x => let t := entry_at log i in dict_set log i {| eAdd := eAdd t ++ [x]; eRep := eRep t; eDel := eDel t |}
  | Replace i x => let t := entry_at log i in dict_set log i {| eAdd := eAdd t; eRep := Some x; eDel := eDel t |}
  | Delete i => let t := entry_at log i in dict_set log i {| eAdd := eAdd t; eRep := eRep t; eDel := true |}
  end.
(** one index of the log (music.py:385-391) *)
Definition apply_entry (events : list A) (idx : Z) (t : entry) : res (list A) :=
  l <- match eRep t with
       | Some x => setl events idx x
       | None => if eDel t then del events idx else Ok events
       end ;;
  Ok (fold_left (fun l x => insert l idx x) (rev (eAdd t)) l).
(** leaving the context after the given calls (music.py:378-391) *)
Definition modify (events : list A) (edits : list edit) : res (list A) :=
  let log := fold_left record edits [] in
  foldM (fun l idx => apply_entry l idx (entry_at log idx)) events (rev (sort_by (fun i => i) (map fst log))).
End Modifier.
Arguments edit : clear implicits.

(** ** SSEQMusic.Track (music.py:411-640); a track is its event list *)

Definition is_end (e : ev) : bool := match e with Bare t => t =? 0xFF | _ => false end.
Definition is_jump (e : ev) : bool := match e with Jump _ => true | _ => false end.
Definition is_begin (e : ev) : bool := match e with BeginTrack _ _ => true | _ => false end.

(** Track() (music.py:415-419) *)
Definition track_new (events : evs) : evs :=
  match rev events with
  | (_, e) :: r => if is_end e then rev r else events
  | [] => events
  end.
(** looped (music.py:422-425) *)
Definition looped (events : evs) : bool := existsb (fun p => is_jump (snd p)) events.
(** loop (music.py:428-461): all the events (line 458) and those kept (line 461).
    What an exception leaves behind is not modelled. *)
Definition track_loop_all (events : evs) (new start end_ : Z) (clearTrailing : bool) : res (evs * evs) :=
  if looped events then Err RuntimeError else
  ' (events1, (loopStartIdx, actualStart, _)) <- moveInTime events new 0 start MONO true true ;;
  _ <- guard (actualStart =? start) RuntimeError ;;
  ' (events2, (loopEndIdx, actualEnd, _)) <- moveInTime events1 (new + 1) 0 end_ MONO true true ;;
  _ <- guard (actualEnd =? end_) RuntimeError ;;
  target <- get events2 loopStartIdx ;;
  let events3 := insert events2 loopEndIdx (new + 2, Jump (Some (fst target))) in
  Ok (events3, if clearTrailing then slice_to events3 (loopEndIdx + 1) else events3).
Definition track_loop (events : evs) (new start end_ : Z) (clearTrailing : bool) : res evs :=
  ' (_, l) <- track_loop_all events new start end_ clearTrailing ;; Ok l.

(** _modifyNoteVelocities (music.py:464-476); [f] is [int(func(velocity))].  The
    velocity is read from the object as it is at that moment. *)
Definition modifyVelocities (f : Z -> Z) (clamp : bool) (events : evs) : res evs :=
  foldM (fun l n =>
           match lookup n l with
           | Some (Note t v u d) =>
             let w := f v in
             if (0 <=? w) && (w <=? 127) then Ok (assign n (Note t w u d) l)
             else if clamp then Ok (assign n (Note t (Z.min (Z.max w 0) 127) u d) l)
             else Err ValueError
           | _ => Ok l
           end) events (map fst events).
(** addToNoteVelocities (music.py:479-482) *)
Definition addToVelocities (amount : Z) (clamp : bool) (events : evs) : res evs :=
  modifyVelocities (fun v => v + amount) clamp events.

(** the properties initialInstrument ... initialTempo (music.py:541-640), named
    by the type byte of their event class (soundSequence.py:1196-1249) *)
Definition initial_classes : list Z :=
  [0x81; 0xC0; 0xC1; 0xC3; 0xC6; 0xC7; 0xD0; 0xD1; 0xD2; 0xD3; 0xE1].
(** isinstance(e, type); the classes below 0x80 are all NoteSequenceEvent and
    are not among these *)
Definition of_class (c : Z) (e : ev) : bool := match ev_type e with Some t => t =? c | None => false end.
(** _findControlEventAtBeginning (music.py:494-500) *)
Fixpoint findControl (c : Z) (events : evs) : option (Z * ev) :=
  match events with
  | [] => None
  | (n, e) :: r =>
    if of_class c e then Some (n, e)
    else match e with Note _ _ _ _ | Rest _ => None | _ => findControl c r end
  end.
(** a value: bankID and instrumentID, or an integer *)
Inductive ival : Type := IInstr (bankID instrumentID : Z) | IVal (value : Z).
(** the value of an event (music.py:505-508) *)
Definition ev_value (e : ev) : option ival :=
  match e with
  | Instr b i => Some (IInstr b i)
  | Byte1 _ v | Word1 _ v => Some (IVal v)
  | _ => None
  end.
(** _handleInitialValueGet (music.py:502-508) *)
Definition getInitial (c : Z) (events : evs) : option ival :=
  match findControl c events with Some (_, e) => ev_value e | None => None end.
(** a new event of class [c] (music.py:522-525); MonoPoly converts its value to
    an enum member (soundSequence.py:808-810).  A value of the other shape would
    be a TypeError. *)
Definition make_event (c : Z) (v : ival) : res ev :=
  match v with
  | IInstr b i => if c =? 0x81 then Ok (Instr b i) else Err TypeError
  | IVal x => if c =? 0x81 then Err TypeError
              else if c =? 0xC7 then (if (x =? 0) || (x =? 1) then Ok (Byte1 c x) else Err ValueError)
              else if c =? 0xE1 then Ok (Word1 c x) else Ok (Byte1 c x)
  end.
(** the existing event gets a new value (music.py:535-539) *)
Definition set_value (e : ev) (v : ival) : res ev :=
  match e, v with
  | Instr _ _, IInstr b i => Ok (Instr b i)
  | Byte1 t _, IVal x => Ok (Byte1 t x)
  | Word1 t _, IVal x => Ok (Word1 t x)
  | _, _ => Err TypeError
  end.
(** [events.remove(event)]: the first occurrence *)
Fixpoint remove_first (n : Z) (l : evs) : evs :=
  match l with [] => [] | p :: r => if fst p =? n then r else p :: remove_first n r end.
(** _handleInitialValueSet (music.py:510-539) *)
Definition setInitial (c : Z) (new : Z) (v : option ival) (events : evs) : res evs :=
  match findControl c events, v with
  | None, None => Ok events
  | None, Some v => e <- make_event c v ;; Ok (insert events 0 (new, e))
  | Some (n, _), None => Ok (remove_first n events)
  | Some (n, e), Some v => e' <- set_value e v ;; Ok (assign n e' events)
  end.

(** ** SSEQMusic (music.py:655-809) *)

(** the tracks: a dictionary from track number to event list *)
Notation tracks := (list (Z * evs)).
Definition is_define (e : ev) : bool := match e with DefTracks _ => true | _ => false end.

(** [x in trackStarts] for an event object *)
Definition in_refs (n : Z) (l : list ref) : bool :=
  existsb (fun r => match r with Some m => m =? n | None => false end) l.
(** the BeginTrack events from index 1 (music.py:679-684): IndexError when the
    list ends with them *)
Fixpoint begins (l : evs) : res (list (Z * ref)) :=
  match l with
  | [] => Err IndexError
  | (_, BeginTrack t f) :: r => b <- begins r ;; Ok ((t, f) :: b)
  | _ => Ok []
  end.
(** [endIdx] as a number of events after [startIdx] (music.py:693-696, 707-710);
    [l] are the events from [startIdx + 1] on *)
Fixpoint track_length (starts : list ref) (l : evs) : Z :=
  match l with
  | [] => 1
  | (n, _) :: r => if in_refs n starts then 1 else 1 + track_length starts r
  end.
(** sseq.events[startIdx : endIdx] *)
Definition track_at (events : evs) (starts : list ref) (startIdx : Z) : evs :=
  slice events startIdx (startIdx + track_length starts (skipn (Z.to_nat (startIdx + 1)) events)).
(** sseq.events.index(event) *)
Fixpoint index_of (events : evs) (r : ref) (i : Z) : res Z :=
  match events, r with
  | [], _ | _, None => Err ValueError
  | (n, _) :: l, Some m => if n =? m then Ok i else index_of l r (i + 1)
  end.
(** the tracks of an event list (music.py:671-717) *)
Definition tracks_of (events : evs) : res tracks :=
  ' (_, e0) <- get events 0 ;;
  match e0 with
  | DefTracks numbers =>
    bs <- begins (skipn 1 events) ;;
    let starts := map snd bs in
    let t0 := if inb 0 numbers then [(0, track_new (track_at events starts (1 + zlen bs)))] else [] in
    foldM (fun d b => i <- index_of events (snd b) 0 ;; Ok (dict_set d (fst b) (track_new (track_at events starts i))))
      t0 bs
  | _ => Ok [(0, track_new events)]
  end.
(** SSEQMusic() (music.py:655-717); [swars] is [None] or a list.  [depth] is the
    recursion limit for parse (as in SeqModel). *)
Definition music_new {W} (depth : nat) (s : sseq) (swars : option (list W)) : res (sseq * tracks) :=
  match swars with
  | None => Err TypeError
  | Some _ =>
    s <- (if qParsed s then Ok s else sseq_parse depth s) ;;
    t <- tracks_of (qEvents s) ;;
    Ok (s, t)
  end.

(** loop (music.py:720-728).  An event object that occurs in several tracks is
    changed in all of them (a rest cut in two): the other tracks are refreshed. *)
Definition refresh (from to : evs) : evs :=
  map (fun p => match lookup (fst p) from with Some e => (fst p, e) | None => p end) to.
Definition music_loop_one (new start end_ : Z) (clearTrailing : bool) (t : tracks) (i : Z) : res tracks :=
  ' (k, l) <- get t i ;;
  ' (all, l') <- track_loop_all l (new + 3 * i) start end_ clearTrailing ;;
  setl (map (fun t : Z * evs => (fst t, refresh all (snd t))) t) i (k, l').
Definition music_loop (new start end_ : Z) (clearTrailing : bool) (t : tracks) : res tracks :=
  foldM (music_loop_one new start end_ clearTrailing) t (range_z 0 (length t)).

(** collapseTrackIDs (music.py:751-762) *)
Definition collapse (t : tracks) : tracks :=
  enumerate_from 0 (map snd (sort_by fst t)).

(** a track's events, with an EndTrack unless they end with EndTrack or Jump
    (music.py:776-781, 800-805) *)
Definition ended (new : Z) (events : evs) : evs :=
  match rev events with
  | (_, e) :: _ => if is_end e || is_jump e then events else events ++ [(new, Bare 0xFF)]
  | [] => events
  end.
(** the tracks in the order of their numbers (music.py:790-805): the BeginTrack
    events and the contents.  [contents[-1]] is the last event of this track. *)
Fixpoint save_tracks (new : Z) (l : tracks) : evs * evs :=
  match l with
  | [] => ([], [])
  | (k, []) :: r => save_tracks (new + 2) r
  | (k, (n, e) :: es) :: r =>
    let '(b, c) := save_tracks (new + 2) r in
    ((if k =? 0 then b else (new, BeginTrack k (Some n)) :: b), ended (new + 1) ((n, e) :: es) ++ c)
  end.
(** save (music.py:765-809): the new events of the SSEQ *)
Definition music_save (new : Z) (t : tracks) : res evs :=
  match t with
  | [(0, [])] => Err IndexError
  | [(0, events)] => Ok (ended new events)
  | _ =>
    let '(b, c) := save_tracks (new + 1) (sort_by fst t) in
    Ok ((new, DefTracks (sort_by (fun k => k) (map fst t))) :: b ++ c)
  end.

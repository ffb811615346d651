(** * Model of the printing of sequence events (ndspy/soundSequence.py: the methods
    [__str__] and [__repr__] of the event classes, printSequenceEventList and
    SSEQ.__str__; ndspy/soundSequenceArchive.py: SSAR.__str__)

    A [str] is the list of its code points (TextModel).  The builtin [id] is a
    parameter [ids]; objects outside the printed list are found through a parameter
    [heap], which gives the contents of every named event. *)
From Coq Require Import String.
From Verif Require Import PyBase TextModel SeqModel SsarModel.

(** [hex(n)] *)
Fixpoint hexdigits (fuel : nat) (n : Z) : text :=
  match fuel with
  | O => []
  | S k => if n <? 16 then [hex_digit n] else hexdigits k (n / 16) ++ [hex_digit (n mod 16)]
  end.
Definition hex_nat (n : Z) : text := asc "0x" ++ hexdigits (S (Z.to_nat (Z.log2 n))) n.
Definition hex (n : Z) : text := if n <? 0 then 45 :: hex_nat (- n) else hex_nat n.

(** [sep.join(l)] *)
Fixpoint joined (sep : text) (l : list text) : text :=
  match l with
  | [] => []
  | [x] => x
  | x :: r => x ++ sep ++ joined sep r
  end.

(** [repr] of a [bytes]: in double quotes when it holds apostrophes and no double quotes *)
Definition quote_of (d : bytes) : Z :=
  if existsb (Z.eqb 39) d && negb (existsb (Z.eqb 34) d) then 34 else 39.
Definition quoted_byte (q b : Z) : text := if b =? q then [92; q] else repr_byte b.
Definition repr_bytes (d : bytes) : text :=
  let q := quote_of d in asc "b" ++ [q] ++ flat_map (quoted_byte q) d ++ [q].

(** [sorted(s)] of a set of integers that is given as a list *)
Fixpoint insert_z (x : Z) (l : list Z) : list Z :=
  match l with
  | [] => [x]
  | y :: r => if x <? y then x :: l else if x =? y then l else y :: insert_z x r
  end.
Definition sorted_set (l : list Z) : list Z := fold_right insert_z [] l.

(** the [symbol] of the arithmetic classes (soundSequence.py:677-731) *)
Definition symbol (t : Z) : text :=
  if t =? 0xB0 then asc "=" else if t =? 0xB1 then asc "+=" else if t =? 0xB2 then asc "-="
  else if t =? 0xB3 then asc "*=" else if t =? 0xB4 then asc "/=" else if t =? 0xB5 then asc "<<="
  else if t =? 0xB6 then asc "[rand]" else if t =? 0xB7 then asc "[nop]" else if t =? 0xB8 then asc "=="
  else if t =? 0xB9 then asc ">=" else if t =? 0xBA then asc ">" else if t =? 0xBB then asc "<="
  else if t =? 0xBC then asc "<" else asc "!=".
(** [shortName.lower()] of the simple classes (soundSequence.py:770-794, 887-893,
    937-939, 973-991, 1021-1029), and the word for BeginLoop (soundSequence.py:1014) *)
Definition shortName (t : Z) : text :=
  if t =? 0xC0 then asc "pan" else if t =? 0xC1 then asc "track volume" else if t =? 0xC2 then asc "global volume"
  else if t =? 0xC3 then asc "transpose" else if t =? 0xC4 then asc "portamento" else if t =? 0xC5 then asc "portamento range"
  else if t =? 0xC6 then asc "track priority" else if t =? 0xCA then asc "vibrato depth" else if t =? 0xCB then asc "vibrato speed"
  else if t =? 0xCD then asc "vibrato range" else if t =? 0xCF then asc "portamento duration" else if t =? 0xD0 then asc "attack rate"
  else if t =? 0xD1 then asc "decay rate" else if t =? 0xD2 then asc "sustain rate" else if t =? 0xD3 then asc "release rate"
  else if t =? 0xD4 then asc "begin loop" else if t =? 0xD5 then asc "expression" else if t =? 0xD6 then asc "print variable"
  else asc "vibrato delay".
(** the value of Tie and PortamentoOnOff events (soundSequence.py:851-856, 962-967) *)
Definition on_off (v : Z) : text := if v =? 0 then asc "off" else if v =? 1 then asc "on" else str_int v.

(** [str(event)] (soundSequence.py:235, 359, 390, 425, 450, 472, 495, 555, 613, 633,
    660, 753, 819, 851, 880, 925, 962, 1014, 1050, 1074, 1093, 1113, 1147, 1166, 1189).
    [id(None)] is [ids None]. *)
Definition ev_str (ids : ref -> Z) (e : ev) : res text :=
  match e with
  | Note t v flag d =>
      n <- noteName t ;;
      Ok (asc "<" ++ n ++ asc " velocity=" ++ str_int v ++ asc " duration=" ++ str_int d ++ (if flag then asc " unknown-flag" else []) ++ asc ">")
  | Rest d => Ok (asc "<rest " ++ str_int d ++ asc ">")
  | Instr b i => Ok (asc "<instrument " ++ str_int b ++ asc "/" ++ str_int i ++ asc ">")
  | BeginTrack n r => Ok (asc "<begin track " ++ str_int n ++ asc " id=" ++ str_int (ids r) ++ asc ">")
  | Jump r => Ok (asc "<jump id=" ++ str_int (ids r) ++ asc ">")
  | Call r => Ok (asc "<call id=" ++ str_int (ids r) ++ asc ">")
  | Random t args a b =>
      Ok (asc "<random " ++ hex t ++ asc " " ++ joined (asc " ") (map str_int args) ++ (match args with [] => [] | _ => asc " " end)
          ++ asc "(" ++ str_int a ++ asc ", " ++ str_int b ++ asc ")" ++ asc ">")
  | FromVar t v u =>
      Ok (asc "<from variable " ++ hex t ++ asc " " ++ str_int v ++ (match u with Some x => asc " " ++ str_int x | None => [] end) ++ asc ">")
  | Arith t v x => Ok (asc "<(var " ++ str_int v ++ asc ") " ++ symbol t ++ asc " " ++ str_int x ++ asc ">")
  | Byte1 t v =>
      if t =? 0xC7 then Ok (if v =? 0 then asc "<poly>" else asc "<mono>")
      else if t =? 0xC8 then Ok (asc "<tie " ++ on_off v ++ asc ">")
      else if t =? 0xC9 then n <- noteName v ;; Ok (asc "<portamento from " ++ n ++ asc ">")
      else if t =? 0xCC then Ok (asc "<vibrato type " ++ (if v =? 0 then asc "pitch" else if v =? 1 then asc "volume" else if v =? 2 then asc "pan" else str_int v) ++ asc ">")
      else if t =? 0xCE then Ok (asc "<portamento " ++ on_off v ++ asc ">")
      else Ok (asc "<" ++ shortName t ++ asc " " ++ str_int v ++ asc ">")
  | Word1 t v => Ok ((if t =? 0xE1 then asc "<tempo " else asc "<sweep pitch ") ++ str_int v ++ asc ">")
  | Bare t => Ok (if t =? 0xA2 then asc "<if>" else if t =? 0xFC then asc "<end loop>" else if t =? 0xFD then asc "<return>" else asc "<end track>")
  | DefTracks l => Ok (asc "<define tracks " ++ joined (asc " ") (map str_int (sorted_set l)) ++ asc ">")
  | Raw d => Ok (asc "<raw data " ++ repr_bytes d ++ asc ">")
  end.

(** [type(event).__name__] *)
Definition arith_class (t : Z) : text :=
  (if t =? 0xB0 then asc "VariableAssignment" else if t =? 0xB1 then asc "VariableAddition" else if t =? 0xB2 then asc "VariableSubtraction"
   else if t =? 0xB3 then asc "VariableMultiplication" else if t =? 0xB4 then asc "VariableDivision" else if t =? 0xB5 then asc "VariableShift"
   else if t =? 0xB6 then asc "VariableRand" else if t =? 0xB7 then asc "VariableUnknownB7" else if t =? 0xB8 then asc "VariableEqual"
   else if t =? 0xB9 then asc "VariableGreaterThanOrEqual" else if t =? 0xBA then asc "VariableGreaterThan" else if t =? 0xBB then asc "VariableLessThanOrEqual"
   else if t =? 0xBC then asc "VariableLessThan" else asc "VariableNotEqual") ++ asc "SequenceEvent".
Definition byte_class (t : Z) : text :=
  (if t =? 0xC0 then asc "Pan" else if t =? 0xC1 then asc "TrackVolume" else if t =? 0xC2 then asc "GlobalVolume"
   else if t =? 0xC3 then asc "Transpose" else if t =? 0xC4 then asc "Portamento" else if t =? 0xC5 then asc "PortamentoRange"
   else if t =? 0xC6 then asc "TrackPriority" else if t =? 0xC7 then asc "MonoPoly" else if t =? 0xC8 then asc "Tie"
   else if t =? 0xC9 then asc "PortamentoFrom" else if t =? 0xCA then asc "VibratoDepth" else if t =? 0xCB then asc "VibratoSpeed"
   else if t =? 0xCC then asc "VibratoType" else if t =? 0xCD then asc "VibratoRange" else if t =? 0xCE then asc "PortamentoOnOff"
   else if t =? 0xCF then asc "PortamentoDuration" else if t =? 0xD0 then asc "AttackRate"
   else if t =? 0xD1 then asc "DecayRate" else if t =? 0xD2 then asc "SustainRate" else if t =? 0xD3 then asc "ReleaseRate"
   else if t =? 0xD4 then asc "BeginLoop" else if t =? 0xD5 then asc "Expression" else if t =? 0xD6 then asc "PrintVariable"
   else asc "VibratoDelay") ++ asc "SequenceEvent".
(** [repr] of the value: bools for Tie and PortamentoOnOff (the constructor turns 0 and
    1 into them), enumeration members for MonoPoly and VibratoType, whose class names
    soundSequence.py:827 and 933 set *)
Definition byte_value (t v : Z) : text :=
  if (t =? 0xC8) || (t =? 0xCE) then if v =? 0 then asc "False" else if v =? 1 then asc "True" else str_int v
  else if t =? 0xC7 then asc "<MonoPolySequenceEvent.Value." ++ (if v =? 0 then asc "POLY" else asc "MONO") ++ asc ": " ++ str_int v ++ asc ">"
  else if t =? 0xCC then asc "<VibratoTypeSequenceEvent.Value." ++ (if v =? 0 then asc "PITCH" else if v =? 1 then asc "VOLUME" else asc "PAN") ++ asc ": " ++ str_int v ++ asc ">"
  else str_int v.

(** [repr(event)] (soundSequence.py:238, 363, 393, 428, 453, 475, 498, 561, 617, 635,
    663, 756, 822, 858, 883, 928, 969, 1017, 1053, ...).  The representation of a jump
    holds that of its destination; [depth] is what is left of the recursion limit,
    counted in calls of these methods.  The set of DefineTracks is shown in the order
    of the list. *)
Fixpoint ev_repr (ids : ref -> Z) (heap : Z -> ev) (depth : nat) (e : ev) : res text :=
  match depth with
  | O => Err RecursionError
  | S depth =>
    let at_ r := (s <- match r with None => Ok (asc "None") | Some n => ev_repr ids heap depth (heap n) end ;;
                  Ok (s ++ asc " at " ++ str_int (ids r))) in
    match e with
    | Note t v flag d => Ok (asc "NoteSequenceEvent(" ++ str_int t ++ asc ", " ++ str_int (Z.lor v (if flag then 0x80 else 0)) ++ asc ", " ++ str_int d ++ asc ")")
    | Rest d => Ok (asc "RestSequenceEvent(" ++ str_int d ++ asc ")")
    | Instr b i => Ok (asc "InstrumentSwitchSequenceEvent(" ++ str_int b ++ asc ", " ++ str_int i ++ asc ")")
    | BeginTrack n r => s <- at_ r ;; Ok (asc "BeginTrackSequenceEvent(" ++ str_int n ++ asc ", " ++ s ++ asc ")")
    | Jump r => s <- at_ r ;; Ok (asc "JumpSequenceEvent(" ++ s ++ asc ")")
    | Call r => s <- at_ r ;; Ok (asc "CallSequenceEvent(" ++ s ++ asc ")")
    | Random t args a b => Ok (asc "RandomSequenceEvent(" ++ hex t ++ asc ", [" ++ joined (asc ", ") (map str_int args) ++ asc "], " ++ str_int a ++ asc ", " ++ str_int b ++ asc ")")
    | FromVar t v u => Ok (asc "FromVariableSequenceEvent(" ++ hex t ++ asc ", " ++ str_int v ++ (match u with Some x => asc ", " ++ str_int x | None => [] end) ++ asc ")")
    | Arith t v x => Ok (arith_class t ++ asc "(" ++ str_int v ++ asc ", " ++ str_int x ++ asc ")")
    | Byte1 t v => Ok (byte_class t ++ asc "(" ++ byte_value t v ++ asc ")")
    | Word1 t v => Ok ((if t =? 0xE1 then asc "Tempo" else asc "SweepPitch") ++ asc "SequenceEvent(" ++ str_int v ++ asc ")")
    | Bare t => Ok ((if t =? 0xA2 then asc "If" else if t =? 0xFC then asc "EndLoop" else if t =? 0xFD then asc "Return" else asc "EndTrack") ++ asc "SequenceEvent()")
    | DefTracks l => Ok (asc "DefineTracksSequenceEvent(" ++ (match l with [] => asc "set()" | _ => asc "{" ++ joined (asc ", ") (map str_int l) ++ asc "}" end) ++ asc ")")
    | Raw d => Ok (asc "RawDataSequenceEvent(" ++ repr_bytes d ++ asc ")")
    end
  end.

(** ** printSequenceEventList (soundSequence.py:1431-1501) *)

Definition events_t : Type := list (Z * ev).
(** [events.index(event)], for an event object or [None] *)
Fixpoint index_of (i : Z) (l : events_t) (r : ref) : option Z :=
  match r, l with
  | Some n, (m, _) :: t => if m =? n then Some i else index_of (i + 1) t r
  | _, _ => None
  end.
(** [f'{name}'] of a name that may be None *)
Definition str_name (n : option text) : text := match n with Some t => t | None => asc "None" end.
(** [i2SfxName[i] = name], or [+= ', ' + name] *)
Fixpoint add_name (l : list (Z * text)) (i : Z) (name : text) : list (Z * text) :=
  match l with
  | [] => [(i, name)]
  | (j, t) :: r => if j =? i then (j, t ++ asc ", " ++ name) :: r else (j, t) :: add_name r i name
  end.
Fixpoint name_at (l : list (Z * text)) (i : Z) : option text :=
  match l with
  | [] => None
  | (j, t) :: r => if j =? i then Some t else name_at r i
  end.
(** [label] cut into pieces of [n] characters (soundSequence.py:1474-1476); the fuel is
    the length of the label *)
Fixpoint pieces (fuel : nat) (n : Z) (label : text) : list text :=
  match fuel with
  | O => []
  | S k => match label with [] => [] | _ => slice label 0 n :: pieces k n (slice_from label n) end
  end.
(** [f'{s:{n}}'] of a str *)
Definition pad_right (s : text) (n : Z) : text := s ++ rep 32 (n - zlen s).
(** the last piece padded (soundSequence.py:1477-1480) *)
Fixpoint pad_last (n : Z) (l : list text) : list text :=
  match l with
  | [] => []
  | [x] => [pad_right x n]
  | x :: r => x :: pad_last n r
  end.

Section Print.
Context (ids : ref -> Z) (heap : Z -> ev) (depth : nat).

Definition repr_ref (r : ref) : res text := match r with None => Ok (asc "None") | Some n => ev_repr ids heap depth (heap n) end.

(** one turn of the loop over the labels (soundSequence.py:1444-1458) *)
Definition label_step (events : events_t) (prefix : text) (st : list text * list text * Z * list (Z * text)) (p : option text * ref)
  : res (list text * list text * Z * list (Z * text)) :=
  let '(warnings, lines, maxNameLen, names) := st in
  let '(name, event) := p in
  match index_of 0 events event with
  | Some i =>
      let names := add_name names i (match name with Some t => t | None => str_int i end) in
      Ok (warnings, lines, Z.max maxNameLen (match name_at names i with Some t => zlen t | None => 0 end), names)
  | None =>
      match event with
      | None => Ok (warnings, lines ++ [prefix ++ str_name name ++ asc ": (none)"], maxNameLen, names)
      | Some n =>
          t <- repr_ref event ;;
          Ok (warnings ++ [prefix ++ asc "(WARNING: " ++ t ++ asc " (" ++ str_name name ++ asc ") not in events list!)"], lines, maxNameLen, names)
      end
  end.
(** getDestinationStr (soundSequence.py:1464-1469): the text, and the warning if any *)
Definition dest_str (events : events_t) (prefix : text) (n : Z) (dest : ref) : res (text * list text) :=
  match index_of 0 events dest with
  | Some i => Ok (str_int i, [])
  | None =>
      d <- repr_ref dest ;; e <- ev_repr ids heap depth (heap n) ;;
      Ok (asc "NOWHERE", [prefix ++ asc "(WARNING: " ++ d ++ asc " (target of " ++ e ++ asc ") not in events list!)"])
  end.
(** the label column of event [i] (soundSequence.py:1472-1481) *)
Definition label_text (prefix : text) (maxNameLen : Z) (names : list (Z * text)) (i : Z) : text :=
  let label := match name_at names i with Some t => t ++ asc ":" | None => [] end in
  match pad_last maxNameLen (pieces (length label) maxNameLen label) with
  | [] => rep 32 maxNameLen
  | l => joined (10 :: prefix) l
  end.
(** printEvent (soundSequence.py:1471-1492), for the event object [n] with contents [e] *)
Definition print_event (events : events_t) (prefix : text) (maxNameLen maxNumLen : Z) (names : list (Z * text)) (i n : Z) (e : ev) : res (text * list text) :=
  let label := label_text prefix maxNameLen names i in
  b <- match e with
       | Jump r => d <- dest_str events prefix n r ;; Ok (asc "<jump @" ++ fst d ++ asc ">", snd d)
       | Call r => d <- dest_str events prefix n r ;; Ok (asc "<call @" ++ fst d ++ asc ">", snd d)
       | BeginTrack t r => d <- dest_str events prefix n r ;; Ok (asc "<begin track " ++ str_int t ++ asc " @" ++ fst d ++ asc ">", snd d)
       | _ => s <- ev_str ids e ;; Ok (s, [])
       end ;;
  Ok (prefix ++ label ++ asc "  [" ++ fmt_width i maxNumLen ++ asc "] " ++ fst b ++ asc ",", snd b).
(** the loop over the events (soundSequence.py:1494-1495) *)
Fixpoint print_events (events : events_t) (prefix : text) (maxNameLen maxNumLen : Z) (names : list (Z * text)) (i : Z) (l : events_t) : res (list text * list text) :=
  match l with
  | [] => Ok ([], [])
  | (n, e) :: r =>
      p <- print_event events prefix maxNameLen maxNumLen names i n e ;;
      q <- print_events events prefix maxNameLen maxNumLen names (i + 1) r ;;
      Ok (snd p ++ fst q, fst p :: snd q)
  end.
(** the last comma removed (soundSequence.py:1497-1499) *)
Fixpoint drop_comma (l : list text) : list text :=
  match l with
  | [] => []
  | [x] => [slice_to x (-1)]
  | x :: r => x :: drop_comma r
  end.
Definition printSequenceEventList (events : events_t) (labels : list (option text * ref)) (prefix : text) : res text :=
  st <- foldM (label_step events prefix) ([], [], 0, []) labels ;;
  let '(warnings, lines, maxNameLen, names) := st in
  let maxNumLen := zlen (str_int (zlen events - 1)) in
  p <- print_events events prefix (Z.min maxNameLen 48 + 1) maxNumLen names 0 events ;;
  Ok (join_lines ((warnings ++ fst p) ++ match events with [] => lines | _ => drop_comma (lines ++ snd p) end)).

(** SSEQ.__str__ (soundSequence.py:168-179) *)
Definition sseq_str (events : option events_t) (info : Z * Z * Z * Z * Z * Z) : res text :=
  let '(_, bank, volume, cp, pp, player) := info in
  let fields := asc "bankID=" ++ str_int bank ++ asc " volume=" ++ str_int volume ++ asc " channelPressure=" ++ str_int cp
                ++ asc " polyphonicPressure=" ++ str_int pp ++ asc " playerID=" ++ str_int player in
  match events with
  | None => Ok (asc "<sseq unparsed " ++ fields ++ asc ">")
  | Some events => t <- printSequenceEventList events [] (rep 32 2) ;; Ok (join_lines [asc "<sseq " ++ fields; t; asc ">"])
  end.

(** [{seqName: seq.firstEvent for ...}] (soundSequenceArchive.py:249): a later sequence of
    the same name (or without a name) replaces the value of an earlier one *)
Fixpoint set_label (l : list (option text * ref)) (name : option text) (r : ref) : list (option text * ref) :=
  match l with
  | [] => [(name, r)]
  | (m, s) :: t => if match m, name with Some a, Some b => beq a b | None, None => true | _, _ => false end then (m, r) :: t else (m, s) :: set_label t name r
  end.
(** SSAR.__str__ (soundSequenceArchive.py:241-252) of a parsed archive *)
Definition ssar_str (events : events_t) (seqs : list (option text * ref)) : res text :=
  t <- printSequenceEventList events (fold_left (fun l p => set_label l (fst p) (snd p)) seqs []) (rep 32 4) ;;
  Ok (join_lines [asc "<ssar"; t; asc ">"]).
End Print.

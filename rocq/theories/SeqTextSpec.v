(** * A reader of printed sequence events, written independently of the printer

    It gives the event a text describes; destinations are read as numbers. *)
From Coq Require Import String.
From Verif Require Import PyBase SeqModel TextSpec.

(** the parts of a text between the separators [sep] *)
Fixpoint split (sep : Z) (s : list Z) : list (list Z) :=
  match s with
  | [] => [[]]
  | c :: r => if c =? sep then [] :: split sep r
              else match split sep r with w :: ws => (c :: w) :: ws | [] => [[c]] end
  end.

(** a decimal integer *)
Definition digit (c : Z) : bool := (48 <=? c) && (c <? 58).
Definition numeral (s : list Z) : option Z :=
  match s with [] => None | _ => if forallb digit s then Some (undec s) else None end.
Definition number (s : list Z) : option Z :=
  match s with 45 :: r => option_map Z.opp (numeral r) | _ => numeral s end.
(** a hexadecimal integer, after 0x *)
Fixpoint hexes (v : Z) (s : list Z) : option Z :=
  match s with
  | [] => Some v
  | c :: r => match hexval c with Some d => hexes (16 * v + d) r | None => None end
  end.
Definition hexnumber (s : list Z) : option Z :=
  match s with
  | 45 :: 48 :: 120 :: r => option_map Z.opp (hexes 0 r)
  | 48 :: 120 :: r => hexes 0 r
  | _ => None
  end.

(** the rest of [s] after [p] *)
Fixpoint after (p s : list Z) : option (list Z) :=
  match p, s with
  | [], _ => Some s
  | a :: p, b :: s => if a =? b then after p s else None
  | _, [] => None
  end.
(** [s] without its last character, which must be [c] *)
Fixpoint before_last (c : Z) (s : list Z) : option (list Z) :=
  match s with
  | [] => None
  | [d] => if d =? c then Some [] else None
  | d :: r => option_map (cons d) (before_last c r)
  end.

Definition obind {A B} (o : option A) (f : A -> option B) : option B := match o with Some a => f a | None => None end.
Fixpoint all_some {A} (l : list (option A)) : option (list A) :=
  match l with [] => Some [] | x :: r => obind x (fun a => obind (all_some r) (fun t => Some (a :: t))) end.
Fixpoint find_text {A} (s : list Z) (table : list (list Z * A)) : option A :=
  match table with [] => None | (t, a) :: r => if beq t s then Some a else find_text s r end.

(** events that are one fixed text *)
Definition fixed : list (list Z * ev) :=
  [(asc "if", Bare 0xA2); (asc "end loop", Bare 0xFC); (asc "return", Bare 0xFD); (asc "end track", Bare 0xFF);
   (asc "poly", Byte1 0xC7 0); (asc "mono", Byte1 0xC7 1); (asc "tie off", Byte1 0xC8 0); (asc "tie on", Byte1 0xC8 1);
   (asc "portamento off", Byte1 0xCE 0); (asc "portamento on", Byte1 0xCE 1);
   (asc "vibrato type pitch", Byte1 0xCC 0); (asc "vibrato type volume", Byte1 0xCC 1); (asc "vibrato type pan", Byte1 0xCC 2)].
(** the operators, by type *)
Definition operators : list (list Z * Z) :=
  [(asc "=", 0xB0); (asc "+=", 0xB1); (asc "-=", 0xB2); (asc "*=", 0xB3); (asc "/=", 0xB4); (asc "<<=", 0xB5); (asc "[rand]", 0xB6);
   (asc "[nop]", 0xB7); (asc "==", 0xB8); (asc ">=", 0xB9); (asc ">", 0xBA); (asc "<=", 0xBB); (asc "<", 0xBC); (asc "!=", 0xBD)].
(** events with one number, by the words before it *)
Definition one_word : list (list Z * (Z -> ev)) :=
  [(asc "rest", Rest); (asc "tempo", Word1 0xE1); (asc "pan", Byte1 0xC0); (asc "transpose", Byte1 0xC3); (asc "portamento", Byte1 0xC4);
   (asc "expression", Byte1 0xD5); (asc "tie", Byte1 0xC8)].
Definition two_words : list (list Z * (Z -> ev)) :=
  [(asc "track volume", Byte1 0xC1); (asc "global volume", Byte1 0xC2); (asc "portamento range", Byte1 0xC5); (asc "track priority", Byte1 0xC6);
   (asc "vibrato depth", Byte1 0xCA); (asc "vibrato speed", Byte1 0xCB); (asc "vibrato range", Byte1 0xCD); (asc "portamento duration", Byte1 0xCF);
   (asc "attack rate", Byte1 0xD0); (asc "decay rate", Byte1 0xD1); (asc "sustain rate", Byte1 0xD2); (asc "release rate", Byte1 0xD3);
   (asc "begin loop", Byte1 0xD4); (asc "print variable", Byte1 0xD6); (asc "vibrato delay", Byte1 0xE0); (asc "sweep pitch", Word1 0xE3)].

(** a destination: the number of an event after @, or none *)
Definition place (s : list Z) : option ref :=
  obind (after (asc "@") s) (fun n => if beq n (asc "NOWHERE") then Some None else option_map Some (number n)).

(** the number at the end of a parenthesised pair, and the one at its start *)
Definition pair_first (s : list Z) : option Z := obind (after (asc "(") s) (fun s => obind (before_last 44 s) number).
Definition pair_second (s : list Z) : option Z := obind (before_last 41 s) number.

(** an event from its words *)
Definition read_note (n v d : list Z) (flag : bool) : option ev :=
  obind (helmholtz n) (fun t => obind (obind (after (asc "velocity=") v) number) (fun v => obind (obind (after (asc "duration=") d) number) (fun d => Some (Note t v flag d)))).
Definition read_random (t : list Z) (ws : list (list Z)) : option ev :=
  match rev ws with
  | b :: a :: args => obind (hexnumber t) (fun t => obind (all_some (map number (rev args))) (fun args => obind (pair_first a) (fun a => obind (pair_second b) (fun b => Some (Random t args a b)))))
  | _ => None
  end.
Definition read_arith (v o x : list Z) : option ev :=
  obind (obind (before_last 41 v) number) (fun v => obind (find_text o operators) (fun t => obind (number x) (fun x => Some (Arith t v x)))).
Definition read_instr (s : list Z) : option ev :=
  match split 47 s with
  | [b; i] => obind (number b) (fun b => obind (number i) (fun i => Some (Instr b i)))
  | _ => None
  end.
Definition read_words (ws : list (list Z)) : option ev :=
  match ws with
  | a :: b :: r =>
    if beq a (asc "random") then read_random b r
    else if beq a (asc "(var") then match r with [o; x] => read_arith b o x | _ => None end
    else if beq a (asc "define") then match r with [[]] => Some (DefTracks []) | _ => option_map DefTracks (all_some (map number r)) end
    else match r with
    | [] =>
        if beq a (asc "instrument") then read_instr b
        else if beq a (asc "jump") then option_map Jump (place b)
        else if beq a (asc "call") then option_map Call (place b)
        else obind (find_text a one_word) (fun f => option_map f (number b))
    | [c] =>
        if match after (asc "velocity=") b with Some _ => true | None => false end then read_note a b c false
        else if beq b (asc "from") then option_map (Byte1 0xC9) (helmholtz c)
        else obind (find_text (a ++ 32 :: b) two_words) (fun f => option_map f (number c))
    | [c; d] =>
        if beq b (asc "variable") then obind (hexnumber c) (fun t => obind (number d) (fun v => Some (FromVar t v None)))
        else if beq b (asc "track") then obind (number c) (fun n => option_map (BeginTrack n) (place d))
        else read_note a b c true
    | [c; d; e] => obind (hexnumber c) (fun t => obind (number d) (fun v => obind (number e) (fun u => Some (FromVar t v (Some u)))))
    | _ => None
    end
  | _ => None
  end.
(** an event from its text *)
Definition read_event (s : list Z) : option ev :=
  obind (after (asc "<") s) (fun s => obind (before_last 62 s) (fun s =>
    match find_text s fixed with
    | Some e => Some e
    | None => match after (asc "raw data ") s with
              | Some d => option_map Raw (literal d)
              | None => read_words (split 32 s)
              end
    end)).

(** an event of one of the classes, with values its class accepts.  (The values of
    MonoPoly and VibratoType events are enumeration members, DefineTracks holds a set.) *)
Definition proper (e : ev) : Prop :=
  match e with
  | Arith t _ _ => is_arith t = true
  | Byte1 t v => is_byte1 t = true /\ (t = 0xC7 -> v = 0 \/ v = 1) /\ (t = 0xCC -> v = 0 \/ v = 1 \/ v = 2)
  | Word1 t _ => is_word1 t = true
  | Bare t => is_bare t = true
  | Raw d => is_bytes d
  | _ => True
  end.
(** the one case in which two events look alike: PortamentoOnOff with a value other than 0 and 1 *)
Definition ambiguous (e : ev) : Prop := exists v, e = Byte1 0xCE v /\ v <> 0 /\ v <> 1.
(** the same events, sets of track numbers being compared as sets *)
Definition same_event (e f : ev) : Prop :=
  match e, f with
  | DefTracks l, DefTracks m => forall x, In x l <-> In x m
  | _, _ => e = f
  end.
(** no destination *)
Definition plain (e : ev) : Prop := match e with Jump _ | Call _ | BeginTrack _ _ => False | _ => True end.

(** ** lists of events *)

(** position [k] is that of the first event object [r] in the list; [None]: it is not there *)
Definition points (events : list (Z * ev)) (r k : ref) : Prop :=
  match k with
  | Some i => 0 <= i /\ exists n, r = Some n /\ nth_error (map fst events) (Z.to_nat i) = Some n /\ forall j, (j < Z.to_nat i)%nat -> nth_error (map fst events) j <> Some n
  | None => forall n, r = Some n -> ~ In n (map fst events)
  end.
(** the event [f] is [e], with positions in the place of event objects *)
Definition same_line (events : list (Z * ev)) (e f : ev) : Prop :=
  match e, f with
  | Jump r, Jump k => points events r k
  | Call r, Call k => points events r k
  | BeginTrack n r, BeginTrack m k => n = m /\ points events r k
  | _, _ => same_event e f
  end.
(** the destinations of an event *)
Definition dest (e : ev) : list ref := match e with Jump r | Call r | BeginTrack _ r => [r] | _ => [] end.
(** the destinations of all events are in the list *)
Definition closed (events : list (Z * ev)) : Prop :=
  forall e r, In e (map snd events) -> In r (dest e) -> exists n, r = Some n /\ In n (map fst events).

Fixpoint drop_spaces (s : list Z) : list Z := match s with 32 :: r => drop_spaces r | _ => s end.
(** a line: the prefix, three spaces, the number in brackets, the event, and perhaps a comma *)
Definition read_line (prefix s : list Z) : option (Z * ev) :=
  obind (after (prefix ++ asc "   [") s) (fun s =>
    match split 93 s with
    | n :: _ =>
        obind (number (drop_spaces n)) (fun i => obind (after (n ++ asc "] ") s) (fun s =>
          option_map (pair i) (read_event (match before_last 44 s with Some x => x | None => s end))))
    | [] => None
    end).
Definition read_list (prefix s : list Z) : option (list (Z * ev)) := all_some (map (read_line prefix) (split 10 s)).

(** ** labels *)
(** the position of the first [n] *)
Fixpoint position (n : Z) (l : list Z) : option Z :=
  match l with
  | [] => None
  | m :: r => if m =? n then Some 0 else option_map (Z.add 1) (position n r)
  end.
(** the names of the labels at event [i]; a label without a name is shown as the number
    of the event, which is given *)
Definition names_at (events : list (Z * ev)) (labels : list (option (list Z) * ref)) (i : Z) (numeral : list Z) : list (list Z) :=
  flat_map (fun p => match snd p with
                     | Some n => match position n (map fst events) with
                                 | Some j => if j =? i then [match fst p with Some t => t | None => numeral end] else []
                                 | None => []
                                 end
                     | None => []
                     end) labels.
(** names separated by a comma and a space, then a colon *)
Fixpoint label_of (l : list (list Z)) : list Z :=
  match l with
  | [] => []
  | [x] => x ++ [58]
  | x :: r => x ++ [44; 32] ++ label_of r
  end.
(** [s] is the text [label] in a column of width [w], continued on further lines, each
    with the prefix, when it is longer *)
Fixpoint in_column (prefix : list Z) (w : Z) (label s : list Z) (lines : nat) : Prop :=
  match lines with
  | O => zlen label <= w /\ s = label ++ spaces (w - zlen label)
  | S k => exists a b t, label = a ++ b /\ zlen a = w /\ b <> [] /\ s = a ++ 10 :: prefix ++ t /\ in_column prefix w b t k
  end.
(** the destinations of the labels are in the list *)
Definition labels_closed (events : list (Z * ev)) (labels : list (option (list Z) * ref)) : Prop :=
  forall name n, In (name, Some n) labels -> In n (map fst events).
(** the lines for labels that mark no event *)
Definition unset_lines (prefix : list Z) (labels : list (option (list Z) * ref)) : list (list Z) :=
  flat_map (fun p => match snd p with None => [prefix ++ (match fst p with Some t => t | None => asc "None" end) ++ asc ": (none)"] | Some _ => [] end) labels.
(** the width of the column: one more than the longest label without its colon, at most 49 *)
Definition width_of (events : list (Z * ev)) (labels : list (option (list Z) * ref)) (number_text : Z -> list Z) (w : Z) : Prop :=
  1 <= w <= 49 /\ (forall i, zlen (label_of (names_at events labels i (number_text i))) <= w \/ w = 49) /\
  (w = 1 \/ exists i, w <= zlen (label_of (names_at events labels i (number_text i)))).
(** an event with a destination that is not in the list *)
Definition dangling (events : list (Z * ev)) (e : ev) : bool :=
  existsb (fun r => match r with Some n => negb (existsb (Z.eqb n) (map fst events)) | None => true end) (dest e).

(** ** representations: the value of a constructor call *)

(** the text before the first [c], and after it *)
Fixpoint cut (c : Z) (s : list Z) : option (list Z * list Z) :=
  match s with
  | [] => None
  | d :: r => if d =? c then Some ([], r) else option_map (fun p => (d :: fst p, snd p)) (cut c r)
  end.
(** an int or bool literal *)
Definition integer (s : list Z) : option Z :=
  if beq s (asc "True") then Some 1 else if beq s (asc "False") then Some 0
  else match hexnumber s with Some n => Some n | None => number s end.
(** the arguments, separated by commas and spaces *)
Definition strip_space (s : list Z) : list Z := match s with 32 :: r => r | _ => s end.
Definition arguments (s : list Z) : list (list Z) := match s with [] => [] | _ => map strip_space (split 44 s) end.
Definition integers (s : list Z) : option (list Z) := all_some (map integer (arguments s)).

Definition classes0 : list (list Z * ev) :=
  [(asc "IfSequenceEvent", Bare 0xA2); (asc "EndLoopSequenceEvent", Bare 0xFC); (asc "ReturnSequenceEvent", Bare 0xFD); (asc "EndTrackSequenceEvent", Bare 0xFF)].
Definition classes1 : list (list Z * (Z -> ev)) :=
  [(asc "RestSequenceEvent", Rest); (asc "PanSequenceEvent", Byte1 0xC0); (asc "TrackVolumeSequenceEvent", Byte1 0xC1); (asc "GlobalVolumeSequenceEvent", Byte1 0xC2);
   (asc "TransposeSequenceEvent", Byte1 0xC3); (asc "PortamentoSequenceEvent", Byte1 0xC4); (asc "PortamentoRangeSequenceEvent", Byte1 0xC5); (asc "TrackPrioritySequenceEvent", Byte1 0xC6);
   (asc "MonoPolySequenceEvent", Byte1 0xC7); (asc "TieSequenceEvent", Byte1 0xC8); (asc "PortamentoFromSequenceEvent", Byte1 0xC9); (asc "VibratoDepthSequenceEvent", Byte1 0xCA);
   (asc "VibratoSpeedSequenceEvent", Byte1 0xCB); (asc "VibratoTypeSequenceEvent", Byte1 0xCC); (asc "VibratoRangeSequenceEvent", Byte1 0xCD); (asc "PortamentoOnOffSequenceEvent", Byte1 0xCE);
   (asc "PortamentoDurationSequenceEvent", Byte1 0xCF); (asc "AttackRateSequenceEvent", Byte1 0xD0); (asc "DecayRateSequenceEvent", Byte1 0xD1); (asc "SustainRateSequenceEvent", Byte1 0xD2);
   (asc "ReleaseRateSequenceEvent", Byte1 0xD3); (asc "BeginLoopSequenceEvent", Byte1 0xD4); (asc "ExpressionSequenceEvent", Byte1 0xD5); (asc "PrintVariableSequenceEvent", Byte1 0xD6);
   (asc "VibratoDelaySequenceEvent", Byte1 0xE0); (asc "TempoSequenceEvent", Word1 0xE1); (asc "SweepPitchSequenceEvent", Word1 0xE3)].
Definition classes2 : list (list Z * (Z -> Z -> ev)) :=
  [(asc "InstrumentSwitchSequenceEvent", Instr); (asc "FromVariableSequenceEvent", fun t v => FromVar t v None);
   (asc "VariableAssignmentSequenceEvent", Arith 0xB0); (asc "VariableAdditionSequenceEvent", Arith 0xB1); (asc "VariableSubtractionSequenceEvent", Arith 0xB2); (asc "VariableMultiplicationSequenceEvent", Arith 0xB3);
   (asc "VariableDivisionSequenceEvent", Arith 0xB4); (asc "VariableShiftSequenceEvent", Arith 0xB5); (asc "VariableRandSequenceEvent", Arith 0xB6); (asc "VariableUnknownB7SequenceEvent", Arith 0xB7);
   (asc "VariableEqualSequenceEvent", Arith 0xB8); (asc "VariableGreaterThanOrEqualSequenceEvent", Arith 0xB9); (asc "VariableGreaterThanSequenceEvent", Arith 0xBA); (asc "VariableLessThanOrEqualSequenceEvent", Arith 0xBB);
   (asc "VariableLessThanSequenceEvent", Arith 0xBC); (asc "VariableNotEqualSequenceEvent", Arith 0xBD)].
(** a note event takes the velocity and the flag in one number *)
Definition classes3 : list (list Z * (Z -> Z -> Z -> ev)) :=
  [(asc "NoteSequenceEvent", fun t v d => Note t (v mod 128) (v / 128 mod 2 =? 1) d); (asc "FromVariableSequenceEvent", fun t v u => FromVar t v (Some u))].
Definition construct (name : list Z) (l : list Z) : option ev :=
  match l with
  | [] => find_text name classes0
  | [x] => option_map (fun f => f x) (find_text name classes1)
  | [x; y] => option_map (fun f => f x y) (find_text name classes2)
  | [x; y; z] => option_map (fun f => f x y z) (find_text name classes3)
  | _ => None
  end.
(** RandomSequenceEvent(subType, [args], min, max) *)
Definition eval_random (s : list Z) : option ev :=
  obind (cut 91 s) (fun p => obind (cut 93 (snd p)) (fun q =>
    match arguments (fst p), integers (fst q), arguments (snd q) with
    | [t; []], Some args, [[]; a; b] => obind (integer t) (fun t => obind (integer a) (fun a => obind (integer b) (fun b => Some (Random t args a b))))
    | _, _, _ => None
    end)).
Definition eval_set (s : list Z) : option (list Z) :=
  if beq s (asc "set()") then Some [] else obind (after (asc "{") s) (fun s => obind (before_last 125 s) integers).
Definition eval_event (s : list Z) : option ev :=
  obind (cut 40 s) (fun p => obind (before_last 41 (snd p)) (fun a =>
    if beq (fst p) (asc "RawDataSequenceEvent") then option_map Raw (literal a)
    else if beq (fst p) (asc "DefineTracksSequenceEvent") then option_map DefTracks (eval_set a)
    else if beq (fst p) (asc "RandomSequenceEvent") then eval_random a
    else obind (integers a) (construct (fst p)))).
(** following the destinations from [e], an event without one, or with None, is reached in [k] steps *)
Fixpoint ends (heap : Z -> ev) (k : nat) (e : ev) : Prop :=
  match dest e with
  | [Some n] => match k with O => False | S k => ends heap k (heap n) end
  | _ => True
  end.
(** no enumeration member, and a velocity of seven bits *)
Definition evaluable (e : ev) : Prop :=
  match e with Note _ v _ _ => 0 <= v < 128 | Byte1 t _ => t <> 0xC7 /\ t <> 0xCC | _ => True end.

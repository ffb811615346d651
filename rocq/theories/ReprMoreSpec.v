(** * What the representations of banks, sequences and sequence archives denote *)
From Coq Require Import String.
From Verif Require Import PyBase SeqModel SeqTextSpec ReprSpec.
From Verif Require SbnkModel SsarModel.

(** ** soundBank.py *)

(** NoteDefinition(waveID, waveArchiveID, pitch, attack, decay, sustain, release, pan, type) *)
Definition eval_note (v : value) : option SbnkModel.note :=
  obind (call_of (asc "NoteDefinition") v) (fun args =>
  match args with
  | [VInt w; VInt a; VInt p; VInt t; VInt d; VInt s; VInt r; VInt n; VInt y] =>
      Some {| SbnkModel.nWave := w; SbnkModel.nArch := a; SbnkModel.nPitch := p; SbnkModel.nAttack := t; SbnkModel.nDecay := d;
              SbnkModel.nSustain := s; SbnkModel.nRelease := r; SbnkModel.nPan := n; SbnkModel.nType := y |}
  | _ => None
  end).
(** Region(lastPitch, noteDefinition), a class inside RegionalInstrument *)
Definition eval_region (v : value) : option (Z * SbnkModel.note) :=
  obind (call_of (asc "Region") v) (fun args => match args with [VInt p; n] => option_map (pair p) (eval_note n) | _ => None end).
(** SingleNoteInstrument(noteDefinition), RangeInstrument(firstPitch, noteDefinitions),
    RegionalInstrument(regions) *)
Definition eval_inst (v : value) : option SbnkModel.ibody :=
  match v with
  | VCall f args =>
      if beq f (asc "SingleNoteInstrument") then match args with [n] => option_map SbnkModel.Single (eval_note n) | _ => None end
      else if beq f (asc "RangeInstrument") then match args with [VInt p; l] => option_map (SbnkModel.Ranged p) (as_list eval_note l) | _ => None end
      else if beq f (asc "RegionalInstrument") then match args with [l] => option_map SbnkModel.Regional (as_list eval_region l) | _ => None end
      else None
  | _ => None
  end.
Definition is_none (v : value) : bool := match v with VWord w => beq w (asc "None") | _ => false end.
Definition or_none {A} (f : value -> option A) (v : value) : option (option A) := if is_none v then Some None else option_map Some (f v).
(** SBNK.fromInstruments(instruments, unk02=0, waveArchiveIDs=None): the instruments,
    the number and the IDs as they are given (the constructor drops Nones at their end) *)
Definition eval_bank (v : value) : option (list (option SbnkModel.ibody) * Z * list (option Z)) :=
  obind (call_of (asc "SBNK.fromInstruments") v) (fun args =>
  obind (bind_args 3 [asc "instruments"; asc "unk02"; asc "waveArchiveIDs"] args) (fun a =>
  match a with
  | [Some l; u; w] =>
      obind (as_list (or_none eval_inst) l) (fun l => obind (or_else 0 as_int u) (fun u =>
        option_map (fun w => (l, u, w)) (or_else [] (as_list (or_none as_int)) w)))
  | _ => None
  end)).

(** the notes of an instrument, and of a bank *)
Definition body_notes (b : SbnkModel.ibody) : list SbnkModel.note :=
  match b with SbnkModel.Single n => [n] | SbnkModel.Ranged _ l => l | SbnkModel.Regional l => map snd l end.
Definition bank_notes (b : SbnkModel.sbnk) : list SbnkModel.note :=
  flat_map (fun o => match o with Some i => body_notes (SbnkModel.iBody i) | None => [] end) (SbnkModel.bInsts b).
(** a note whose type is a number without a name *)
Definition unnamed_type (n : SbnkModel.note) : Prop := ~ 1 <= SbnkModel.nType n <= 3.

(** ** soundSequence.py *)

(** an int or bool *)
Definition as_number (v : value) : option Z := match as_bool v with Some b => Some (Z.b2z b) | None => as_int v end.
(** the call of the constructor of an event *)
Definition eval_ev (v : value) : option ev :=
  match v with
  | VCall f args =>
      if beq f (asc "RawDataSequenceEvent") then match args with [VBytes d] => Some (Raw d) | _ => None end
      else if beq f (asc "DefineTracksSequenceEvent") then match args with [s] => option_map DefTracks (as_set s) | _ => None end
      else if beq f (asc "RandomSequenceEvent") then
        match args with [VInt t; l; VInt a; VInt b] => option_map (fun l => Random t l a b) (as_list as_int l) | _ => None end
      else obind (all_some (map as_number args)) (construct f)
  | _ => None
  end.
(** events whose representation holds neither a destination nor an enumeration member *)
Definition readable (e : ev) : Prop :=
  match e with Jump _ | Call _ | BeginTrack _ _ => False | Byte1 t _ => t <> 0xC7 /\ t <> 0xCC | _ => True end.

(** SSEQ.fromEvents(events, unk02=0, bankID=0, volume=127, channelPressure=64,
    polyphonicPressure=50, playerID=0): the events and the six numbers *)
Definition eval_sseq (v : value) : option (list ev * list Z) :=
  obind (call_of (asc "SSEQ.fromEvents") v) (fun args =>
  obind (bind_args 7 [asc "events"; asc "unk02"; asc "bankID"; asc "volume"; asc "channelPressure"; asc "polyphonicPressure"; asc "playerID"] args) (fun a =>
  match a with
  | [Some l; u; b; v; c; p; y] =>
      obind (as_list eval_ev l) (fun l => option_map (pair l)
        (all_some [or_else 0 as_int u; or_else 0 as_int b; or_else 127 as_int v; or_else 64 as_int c; or_else 50 as_int p; or_else 0 as_int y]))
  | _ => None
  end)).

(** ** soundSequenceArchive.py *)

(** SSARSequence(firstEvent_firstEventOffset, bankID=0, volume=127, channelPressure=64,
    polyphonicPressure=50, playerID=0, *, parsed=True), parsed: the first event and the five numbers *)
Definition eval_aseq_parsed (v : value) : option (option ev * list Z) :=
  obind (call_of (asc "SSARSequence") v) (fun args =>
  obind (bind_args 6 [asc "firstEvent_firstEventOffset"; asc "bankID"; asc "volume"; asc "channelPressure"; asc "polyphonicPressure"; asc "playerID"; asc "parsed"] args) (fun a =>
  match a with
  | [Some f; b; v; c; p; y; parsed] =>
      obind (or_else true as_bool parsed) (fun parsed => if (parsed : bool) then
      obind (or_none eval_ev f) (fun f => option_map (pair f)
        (all_some [or_else 0 as_int b; or_else 127 as_int v; or_else 64 as_int c; or_else 50 as_int p; or_else 0 as_int y]))
      else None)
  | _ => None
  end)).
Definition eval_named {A} (f : value -> option A) (v : value) : option (option (list Z) * A) :=
  match v with VTuple [n; s] => obind (or_none as_str n) (fun n => option_map (pair n) (f s)) | _ => None end.
(** SSAR.fromEventsAndSequences(events, sequences, unk02=0) *)
Definition eval_ssar (v : value) : option (list ev * list (option (list Z) * (option ev * list Z)) * Z) :=
  obind (call_of (asc "SSAR.fromEventsAndSequences") v) (fun args =>
  obind (bind_args 3 [asc "events"; asc "sequences"; asc "unk02"] args) (fun a =>
  match a with
  | [Some l; Some s; u] =>
      obind (as_list eval_ev l) (fun l => obind (as_list (eval_named eval_aseq_parsed) s) (fun s => option_map (pair (l, s)) (or_else 0 as_int u)))
  | _ => None
  end)).
(** SSAR(file=None, unk02=0, names=None): the file, the number and the names *)
Definition eval_ssar_file (v : value) : option (bytes * Z * list (list Z)) :=
  obind (call_of (asc "SSAR") v) (fun args =>
  obind (bind_args 3 [asc "file"; asc "unk02"; asc "names"] args) (fun a =>
  match a with
  | [Some f; u; n] => obind (as_bytes f) (fun f => obind (or_else 0 as_int u) (fun u => option_map (pair (f, u)) (or_else [] (as_list as_str) n)))
  | _ => None
  end)).

(** ** extras/music.py *)

(** Track(events) *)
Definition eval_track (v : value) : option (list ev) :=
  obind (call_of (asc "Track") v) (fun args => match args with [l] => as_list eval_ev l | _ => None end).
(** SSEQMusic(sseq, sbnk=None, swars=None), with a sequence only *)
Definition eval_music (v : value) : option (list ev * list Z) :=
  obind (call_of (asc "SSEQMusic") v) (fun args => match args with [s] => eval_sseq s | _ => None end).
(** SWAR.fromWaves(waves), without waves *)
Definition is_empty_archive (v : value) : bool :=
  match call_of (asc "SWAR.fromWaves") v with Some [VList []] => true | _ => false end.

(** ** what can be printed in full *)

(** events whose representation is the call that makes them *)
Definition shown (e : ev) : Prop := proper e /\ plain e /\ evaluable e.
(** the six numbers of a sequence, and the five of an archived one *)
Definition info_list (i : SsarModel.seqInfo) : list Z := let '(a, b, c, d, e, f) := i in [a; b; c; d; e; f].
Definition params_list (p : SsarModel.seqParams) : list Z := let '(a, b, c, d, e) := p in [a; b; c; d; e].
(** the first event of an archived sequence *)
Definition first_event (heap : Z -> ev) (s : SsarModel.aseq) : option ev := option_map heap (SsarModel.aFirst s).
(** an archived sequence that is parsed, whose name is a text and whose first event is shown *)
Definition sequence_shown (heap : Z -> ev) (p : option (list Z) * SsarModel.aseq) : Prop :=
  SsarModel.aParsed (snd p) = true /\ match fst p with Some n => is_text n | None => True end /\ match SsarModel.aFirst (snd p) with Some n => shown (heap n) | None => True end.
(** the text before the first opening parenthesis *)
Definition head_of (s : list Z) : option (list Z) := option_map fst (cut 40 s).

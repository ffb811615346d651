(** Model of using SSEQ and SSAR objects through their properties
    (ndspy/soundSequence.py: SSEQ; ndspy/soundSequenceArchive.py: SSAR, SSARSequence):
    one step per property access or method call.

    Each step gives the object afterwards and what the caller sees.  [depth] is the
    recursion limit of readSequenceEvents (see SeqModel).  Not modelled: assigning to
    [SSAR.parsed] and [SSARSequence.parsed], which are ordinary attributes, and
    changing an event or a list of events in place. *)
From Verif Require Import PyBase SeqModel SsarModel.

(** what the caller sees *)
Inductive seen := SEvents (l : list (Z * ev)) | SData (d : bytes) | SBool (b : bool) | SDone
| SFile (f : bytes) (info : seqInfo) | SArchive (f : bytes) (unk02 : Z) (names : list (option (list Z)))
| SFirst (r : ref) | SOffset (o : option Z).

(** ** SSEQ *)
Inductive qop := QEvents | QSetEvents (l : list (Z * ev)) | QData | QSetData (d : bytes) | QParsed | QSetParsed (b : bool) | QParse | QSave.
(** the setters of events, eventsData and parsed (soundSequence.py:95-97, 106-108, 114-116) *)
Definition sseq_setEvents (s : sseq) (l : list (Z * ev)) : sseq := {| qParsed := qParsed s; qEvents := l; qData := qData s; qInfo := qInfo s |}.
Definition sseq_setData (s : sseq) (d : bytes) : sseq := {| qParsed := qParsed s; qEvents := qEvents s; qData := d; qInfo := qInfo s |}.
Definition sseq_setParsed (s : sseq) (b : bool) : res sseq := Err RuntimeError.
(** One access (soundSequence.py:89-155).  parse assigns [_events] and [_parsed] only
    once readSequenceEvents has returned. *)
Definition qstep (depth : nat) (s : sseq) (o : qop) : sseq * res seen :=
  match o with
  | QEvents => (s, l <- sseq_events s ;; Ok (SEvents l))
  | QSetEvents l => (sseq_setEvents s l, Ok SDone)
  | QData => (s, d <- sseq_eventsData s ;; Ok (SData d))
  | QSetData d => (sseq_setData s d, Ok SDone)
  | QParsed => (s, Ok (SBool (qParsed s)))
  | QSetParsed b => match sseq_setParsed s b with Ok s' => (s', Ok SDone) | Err k => (s, Err k) end
  | QParse => match sseq_parse depth s with Ok s' => (s', Ok SDone) | Err k => (s, Err k) end
  | QSave => (s, ' (f, i) <- sseq_save s ;; Ok (SFile f i))
  end.
Fixpoint qrun (depth : nat) (s : sseq) (l : list qop) : list (res seen) :=
  match l with
  | [] => []
  | o :: r => let '(s', x) := qstep depth s o in x :: qrun depth s' r
  end.

(** ** SSAR *)
Inductive rop := REvents | RSetEvents (l : list (Z * ev)) | RData | RSetData (d : bytes) | RParsed | RParse | RSave
| RFirst (i : nat) | RSetFirst (i : nat) (v : ref) | ROffset (i : nat) | RSetOffset (i : nat) (o : option Z).
(** the getters of events and eventsData (soundSequenceArchive.py:111-130) *)
Definition ssar_events (r : ssar) : res (list (Z * ev)) := if rParsed r then Ok (rEvents r) else Err ValueError.
Definition ssar_eventsData (r : ssar) : res bytes := if rParsed r then Err ValueError else Ok (rData r).
(** their setters (soundSequenceArchive.py:117-119, 128-130) *)
Definition ssar_setEvents (r : ssar) (l : list (Z * ev)) : ssar := {| rParsed := rParsed r; rEvents := l; rData := rData r; rSeqs := rSeqs r; rUnk := rUnk r |}.
Definition ssar_setData (r : ssar) (d : bytes) : ssar := {| rParsed := rParsed r; rEvents := rEvents r; rData := d; rSeqs := rSeqs r; rUnk := rUnk r |}.
Definition ssar_setSeqs (r : ssar) (q : list (option (list Z) * aseq)) : ssar := {| rParsed := rParsed r; rEvents := rEvents r; rData := rData r; rSeqs := q; rUnk := rUnk r |}.
(** the setters of firstEvent and firstEventOffset (soundSequenceArchive.py:297-299, 308-310) *)
Definition aseq_setFirst (s : aseq) (v : ref) : aseq := {| aParsed := aParsed s; aFirst := v; aOffset := aOffset s; aParams := aParams s |}.
Definition aseq_setOffset (s : aseq) (o : option Z) : aseq := {| aParsed := aParsed s; aFirst := aFirst s; aOffset := o; aParams := aParams s |}.
(** the sequence object at [sequences[i][1]], and assigning to one of its properties *)
Definition seq_at (r : ssar) (i : nat) : res aseq := match nth_error (rSeqs r) i with Some p => Ok (snd p) | None => Err IndexError end.
Fixpoint on_seq (f : aseq -> aseq) (i : nat) (l : list (option (list Z) * aseq)) : list (option (list Z) * aseq) :=
  match i, l with
  | _, [] => []
  | O, (n, s) :: r => (n, f s) :: r
  | S i, p :: r => p :: on_seq f i r
  end.
Definition set_seq (r : ssar) (i : nat) (f : aseq -> aseq) : ssar * res seen :=
  match seq_at r i with Ok _ => (ssar_setSeqs r (on_seq f i (rSeqs r)), Ok SDone) | Err k => (r, Err k) end.
(** one access (soundSequenceArchive.py:111-228, 291-310) *)
Definition rstep (depth : nat) (r : ssar) (o : rop) : ssar * res seen :=
  match o with
  | REvents => (r, l <- ssar_events r ;; Ok (SEvents l))
  | RSetEvents l => (ssar_setEvents r l, Ok SDone)
  | RData => (r, d <- ssar_eventsData r ;; Ok (SData d))
  | RSetData d => (ssar_setData r d, Ok SDone)
  | RParsed => (r, Ok (SBool (rParsed r)))
  | RParse => match ssar_parse depth r with Ok r' => (r', Ok SDone) | Err k => (r, Err k) end
  | RSave => (r, ' (f, u, n) <- ssar_save r ;; Ok (SArchive f u n))
  | RFirst i => (r, s <- seq_at r i ;; v <- aseq_firstEvent s ;; Ok (SFirst v))
  | RSetFirst i v => set_seq r i (fun s => aseq_setFirst s v)
  | ROffset i => (r, s <- seq_at r i ;; o <- aseq_firstEventOffset s ;; Ok (SOffset o))
  | RSetOffset i o => set_seq r i (fun s => aseq_setOffset s o)
  end.
Fixpoint rrun (depth : nat) (r : ssar) (l : list rop) : list (res seen) :=
  match l with
  | [] => []
  | o :: t => let '(r', x) := rstep depth r o in x :: rrun depth r' t
  end.

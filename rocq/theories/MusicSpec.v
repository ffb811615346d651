(** * Independent statements about music: time and simultaneous edits *)
From Verif Require Import PyBase SeqModel MusicModel.

(** the mono/poly value an event sets *)
Definition sets_mode (e : ev) : option Z := match e with Byte1 t v => if t =? 0xC7 then Some v else None | _ => None end.
(** the mode after some events: the value of the last MonoPoly event *)
Fixpoint last_mode (l : evs) (default : Z) : Z :=
  match l with
  | [] => default
  | (_, e) :: r => last_mode r (match sets_mode e with Some v => v | None => default end)
  end.
(** the time one event takes in a mode: rests always, notes in mono mode only *)
Definition cost (mode : Z) (e : ev) : Z :=
  match e with Rest d => d | Note _ _ _ d => if mode =? 1 then d else 0 | _ => 0 end.
(** the time of the events [l]: each event is taken in the mode left by those before it *)
Definition total (l : evs) (mode : Z) : Z :=
  fold_right Z.add 0 (map (fun i => cost (last_mode (firstn i l) mode) (nth i (map snd l) (Bare 0))) (seq 0 (length l))).

(** the events that are not rests, with the time they start and the time they take *)
Fixpoint timeline (l : evs) (mode time : Z) : list (Z * Z * (Z * ev)) :=
  match l with
  | [] => []
  | (n, e) :: r =>
    let rest := timeline r (match sets_mode e with Some v => v | None => mode end) (time + cost mode e) in
    match e with Rest _ => rest | _ => (time, cost mode e, (n, e)) :: rest end
  end.
(** rests and notes do not take negative time *)
Definition timed (p : Z * ev) : Prop := match snd p with Rest d => 0 <= d | Note _ _ _ d => 0 <= d | _ => True end.
(** a note of a track goes on at time [t] *)
Definition straddled (l : evs) (t : Z) : Prop := exists s d x, In (s, d, x) (timeline l 1 0) /\ s < t < s + d.

(** ** Simultaneous edits *)
Section Edits.
Context {A : Type}.
(** what was inserted before index [i], in order *)
Fixpoint inserted (i : Z) (l : list (edit A)) : list A :=
  match l with
  | Insert j x :: r => if i =? j then x :: inserted i r else inserted i r
  | _ :: r => inserted i r
  | [] => []
  end.
(** the last replacement of index [i] *)
Fixpoint replaced (i : Z) (l : list (edit A)) (default : option A) : option A :=
  match l with
  | Replace j x :: r => replaced i r (if i =? j then Some x else default)
  | _ :: r => replaced i r default
  | [] => default
  end.
Fixpoint deletedb (i : Z) (l : list (edit A)) : bool :=
  match l with
  | Delete j :: r => (i =? j) || deletedb i r
  | _ :: r => deletedb i r
  | [] => false
  end.
(** what stands in the result for the item [x] at index [i] *)
Definition image (l : list (edit A)) (i : Z) (x : A) : list A :=
  inserted i l ++
  match replaced i l None with
  | Some y => [y]
  | None => if deletedb i l then [] else [x]
  end.
Definition edited (events : list A) (l : list (edit A)) : list A :=
  flat_map (fun p => image l (fst p) (snd p)) (combine (range_z 0 (length events)) events) ++ inserted (zlen events) l.
(** the index of an edit, and the edits that make sense for a list of length [n] *)
Definition edit_index (e : edit A) : Z := match e with Insert i _ => i | Replace i _ => i | Delete i => i end.
Definition in_bounds (n : Z) (e : edit A) : Prop :=
  match e with Insert i _ => 0 <= i <= n | Replace i _ => 0 <= i < n | Delete i => 0 <= i < n end.
End Edits.

(** ** Initial values *)
(** the event objects there are: the type byte fits the class *)
Definition class_ok (e : ev) : Prop :=
  match e with
  | Note t _ _ _ => 0 <= t <= 0x7F
  | Arith t _ _ => 0xB0 <= t <= 0xBD
  | Byte1 t _ => 0xC0 <= t <= 0xD6 \/ t = 0xE0
  | Word1 t _ => t = 0xE1 \/ t = 0xE3
  | Bare t => t = 0xA2 \/ t = 0xFC \/ t = 0xFD \/ t = 0xFF
  | _ => True
  end.
Definition is_time (e : ev) : Prop := match e with Note _ _ _ _ | Rest _ => True | _ => False end.
(** [(n, e)] is the first event of class [c], and no note or rest comes before it *)
Definition initial (c : Z) (l : evs) (a : evs) (n : Z) (e : ev) (b : evs) : Prop :=
  l = a ++ (n, e) :: b /\ ev_type e = Some c /\ Forall (fun p => ev_type (snd p) <> Some c /\ ~ is_time (snd p)) a.
(** a value of the right shape for class [c] *)
Definition fits (c : Z) (v : ival) : Prop := match v with IInstr _ _ => c = 0x81 | IVal _ => c <> 0x81 end.
(** the event of class [c] with value [v] *)
Definition event_of (c : Z) (v : ival) : ev :=
  match v with IInstr b i => Instr b i | IVal x => if c =? 0xE1 then Word1 c x else Byte1 c x end.

(** ** Whole sequences *)
(** the objects of all tracks *)
Definition names (t : tracks) : list Z := flat_map (fun x => map fst (snd x)) t.
(** a track that can be told from its events: not empty, not ending with EndTrack *)
Definition proper (l : evs) : Prop := exists a n e, l = a ++ [(n, e)] /\ e <> Bare 0xFF.
Definition first_not (P : ev -> Prop) (l : evs) : Prop := match l with (_, e) :: _ => ~ P e | [] => True end.
(** what is written for a track: EndTrack follows unless it ends with a jump *)
Definition ends_with_jump (l : evs) : Prop := exists a n d, l = a ++ [(n, Jump d)].
Definition written (l c : evs) : Prop := (ends_with_jump l /\ c = l) \/ (~ ends_with_jump l /\ exists n, c = l ++ [(n, Bare 0xFF)]).
Definition opening (x : Z * evs) : ev := BeginTrack (fst x) (match snd x with (n, _) :: _ => Some n | [] => None end).

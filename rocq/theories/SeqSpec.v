(** Vocabulary of the sequence theorems, independent of the functions of the model *)
From Verif Require Import PyBase SeqModel.

(** the event refers to no other event object *)
Definition ev_ref (e : ev) : ref :=
  match e with BeginTrack _ r => r | Jump r => r | Call r => r | _ => None end.
Definition has_ref (e : ev) : bool :=
  match e with BeginTrack _ _ | Jump _ | Call _ => true | _ => false end.

(** number of argument bytes a [Random] event carries for a sub-type: what the
    sub-event would store, without its type byte and without its last argument
    (a whole variable-length integer, a 24-bit offset's last byte, ...) *)
Definition sub_args (s : Z) : option Z :=
  if s <? 0 then None
  else if s <? 0x80 then Some 1
  else if (s =? 0x80) || (s =? 0x81) || (0xC0 <=? s) && (s <=? 0xD6) || (s =? 0xE0) then Some 0
  else if (s =? 0xA1) || (s =? 0xE1) || (s =? 0xE3) || (s =? 0xFE) then Some 1
  else if (s =? 0x94) || (s =? 0x95) || (0xB0 <=? s) && (s <=? 0xBD) then Some 2
  else if s =? 0x93 then Some 3
  else if s =? 0xA0 then Some 5
  else None.

(** strictly increasing *)
Fixpoint ascending (l : list Z) : Prop :=
  match l with
  | [] => True
  | x :: r => match r with [] => True | y :: _ => x < y end /\ ascending r
  end.

Definition i16 (v : Z) : Prop := -32768 <= v < 32768.
Definition i8 (v : Z) : Prop := -128 <= v < 128.

(** the fields of the event are in the range of the format *)
Definition ev_fits (e : ev) : Prop :=
  match e with
  | Note t v _ d => 0 <= t < 128 /\ 0 <= v < 128 /\ 0 <= d
  | Rest d => 0 <= d
  | Instr b i => 0 <= b /\ 0 <= i < 128
  | BeginTrack n _ => 0 <= n < 256
  | Jump _ => True
  | Call _ => True
  | Random s args lo hi =>
    s < 256 /\ sub_args s = Some (zlen args) /\ is_bytes args /\ i16 lo /\ i16 hi
  | FromVar s v u =>
    0 <= s < 256 /\
    match u with
    | Some u => 0xB0 <= s <= 0xBD /\ i8 u /\ i8 v
    | None => (s < 0xB0 \/ 0xBD < s) /\ i16 v
    end
  | Arith t v w => 0xB0 <= t <= 0xBD /\ 0 <= v < 256 /\ i16 w
  | Byte1 t v => (0xC0 <= t <= 0xD6 \/ t = 0xE0) /\ 0 <= v < 256 /\
                 (t = 0xC7 -> v <= 1) /\ (t = 0xCC -> v <= 2)
  | Word1 t v => (t = 0xE1 \/ t = 0xE3) /\ 0 <= v < 65536
  | Bare t => In t [0xA2; 0xFC; 0xFD; 0xFF]
  | DefTracks ts => ascending ts /\ Forall (fun t => 0 <= t < 16) ts
  | Raw d => is_bytes d
  end.

(** durations and instrument numbers that the reader accepts *)
Definition ev_small (e : ev) : Prop :=
  match e with
  | Note _ _ _ d => d < 2 ^ 35
  | Rest d => d < 2 ^ 35
  | Instr b _ => b < 2 ^ 28
  | _ => True
  end.

Definition is_fromvar (e : ev) : bool := match e with FromVar _ _ _ => true | _ => false end.
Definition is_raw (e : ev) : bool := match e with Raw _ => true | _ => false end.

(** ** Whole event lists *)

(** an event with its reference replaced *)
Definition map_ref (f : ref -> ref) (e : ev) : ev :=
  match e with
  | BeginTrack n r => BeginTrack n (f r)
  | Jump r => Jump (f r)
  | Call r => Call (f r)
  | _ => e
  end.

(** an offset table: the position of each event object in the data *)
Definition pos_of (pos : list (Z * Z)) (r : ref) : ref :=
  match r with
  | None => None
  | Some i => match find (fun p => fst p =? i) pos with Some (_, o) => Some o | None => None end
  end.

(** [placed pos off evs P]: [P] is the event list laid out from offset [off] on:
    for every event its offset, its contents with its reference turned into an
    offset, and its bytes *)
Inductive placed (pos : list (Z * Z)) : Z -> list (Z * ev) -> list (Z * ev * bytes) -> Prop :=
| placed_nil off : placed pos off [] []
| placed_cons off i e b r r' :
    pos_of pos (Some i) = Some off -> ev_save e pos = Ok b ->
    placed pos (off + zlen b) r r' ->
    placed pos off ((i, e) :: r) ((off, map_ref (pos_of pos) e, b) :: r').

(** event lists of in-range events, each object once, all destinations in the
    list, and without the kinds that do not have their announced length *)
Definition seq_ok (evs : list (Z * ev)) : Prop :=
  NoDup (map fst evs) /\
  Forall (fun p => ev_fits (snd p) /\ ev_small (snd p) /\
                   is_fromvar (snd p) = false /\ is_raw (snd p) = false /\
                   (has_ref (snd p) = true ->
                    exists d, ev_ref (snd p) = Some d /\ In d (map fst evs))) evs.

(** [collapsed vis P evs]: [evs] is the list of placed events in which every
    maximal run of events outside [vis] is replaced by one raw data event
    holding the bytes of the run; the objects are named by their offsets *)
Inductive collapsed (vis : Z -> Prop) : list (Z * ev * bytes) -> list (Z * ev) -> Prop :=
| col_nil : collapsed vis [] []
| col_keep o e b r r' : vis o -> collapsed vis r r' ->
    collapsed vis ((o, e, b) :: r) ((o, e) :: r')
| col_raw o e b run r r' :
    (forall x, In x ((o, e, b) :: run) -> ~ vis (fst (fst x))) ->
    match r with [] => True | x :: _ => vis (fst (fst x)) end ->
    collapsed vis r r' ->
    collapsed vis ((o, e, b) :: run ++ r)
              ((o, Raw (concat (map snd ((o, e, b) :: run)))) :: r').

(** ** Reachability in placed events *)

(** control leaves the list after these *)
Definition is_end (e : ev) : bool :=
  match e with Bare t => (t =? 0xFD) || (t =? 0xFF) | _ => false end.
Definition is_control (e : ev) : bool := has_ref e || is_end e.

(** from [o] on there are only plain events up to a Return *)
Inductive returns (P : list (Z * ev * bytes)) : Z -> Prop :=
| ret_here o b : In (o, Bare 0xFD, b) P -> returns P o
| ret_plain o e b : In (o, e, b) P -> is_control e = false -> returns P (o + zlen b) -> returns P o.

(** [o] is a start or the destination of some event *)
Definition entered (starts : list Z) (P : list (Z * ev * bytes)) (o : Z) : Prop :=
  In o starts \/ exists p e b, In (p, e, b) P /\ ev_ref e = Some o.

(** one step of control flow: to the following event (after a plain event, a
    BeginTrack, a Jump that an If may skip, a Call of a plain subroutine) or to
    the destination *)
Inductive flows (starts : list Z) (P : list (Z * ev * bytes)) : Z -> Z -> Prop :=
| fl_plain o e b : In (o, e, b) P -> is_control e = false -> flows starts P o (o + zlen b)
| fl_track o n r b : In (o, BeginTrack n r, b) P -> flows starts P o (o + zlen b)
| fl_dest o e b d : In (o, e, b) P -> ev_ref e = Some d -> flows starts P o d
| fl_if p b0 r b : In (p, Bare 0xA2, b0) P -> In (p + 1, Jump r, b) P ->
    ~ entered starts P (p + 1) -> flows starts P (p + 1) (p + 1 + zlen b)
| fl_call o d b : In (o, Call (Some d), b) P -> returns P d -> flows starts P o (o + zlen b).

Inductive reachable (starts : list Z) (P : list (Z * ev * bytes)) : Z -> Prop :=
| re_start o : In o starts -> reachable starts P o
| re_flow o o' : reachable starts P o -> flows starts P o o' -> reachable starts P o'.

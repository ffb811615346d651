(** * What is heard of an event list, a bank and its wave archives *)
From Verif Require Import PyBase SeqModel SbnkModel MusicModel.

(** the definition a note of pitch [p] uses: the only one; the one numbered from
    firstPitch; the first region that reaches [p] *)
Fixpoint region_for (rs : list (Z * note)) (p : Z) : option note :=
  match rs with
  | [] => None
  | (last, d) :: r => if p <=? last then Some d else region_for r p
  end.
Definition definition_for (b : ibody) (p : Z) : option note :=
  match b with
  | Single d => Some d
  | Ranged first ds => if p <? first then None else nth_error ds (Z.to_nat (p - first))
  | Regional rs => region_for rs p
  end.
(** the instrument in force after some events: the last one switched to *)
Fixpoint in_force_from (c : option Z) (l : evs) : option Z :=
  match l with
  | [] => c
  | (_, Instr _ i) :: r => in_force_from (Some i) r
  | _ :: r => in_force_from c r
  end.
Definition in_force (l : evs) : option Z := in_force_from None l.
(** a note of pitch [p] is played with instrument [i] *)
Definition plays (l : evs) (i p : Z) : Prop :=
  exists a n v u d b, l = a ++ (n, Note p v u d) :: b /\ in_force a = Some i.
(** instrument [i] is switched to *)
Definition switched (l : evs) (i : Z) : Prop := exists n b, In (n, Instr b i) l.
(** the instrument numbered [i], if there is one *)
Definition instrument (insts : list (option inst)) (i : Z) : option ibody :=
  if i <? 0 then None else match nth_error insts (Z.to_nat i) with Some (Some x) => Some (iBody x) | _ => None end.
(** a definition is wanted if a note played uses it, or if it is the only one of an
    instrument switched to *)
Definition wanted (l : evs) (insts : list (option inst)) (d : note) : Prop :=
  exists i b, switched l i /\ instrument insts i = Some b /\
  (b = Single d \/ exists p, plays l i p /\ definition_for b p = Some d).
(** all of a definition but the wave number *)
Definition timbre (d : note) := (nArch d, nPitch d, nAttack d, nDecay d, nSustain d, nRelease d, nPan d, nType d).
(** the wave a definition names *)
Definition recording {W} (swars : list (list W)) (d : note) : option W :=
  match nth_error swars (Z.to_nat (nArch d)) with Some ws => nth_error ws (Z.to_nat (nWave d)) | None => None end.
(** what is heard when instrument [i] plays pitch [p] *)
Definition heard {W} (insts : list (option inst)) (swars : list (list W)) (i p : Z) :=
  match instrument insts i with
  | None => None
  | Some b => match definition_for b p with None => None | Some d => Some (timbre d, recording swars d) end
  end.
(** the instruments in use exist and none is an empty range, and the waves wanted
    of the archives given exist *)
Definition complete {W} (l : evs) (insts : list (option inst)) (swars : list (list W)) : Prop :=
  (forall i, switched l i -> 0 <= i < zlen insts /\ forall first, instrument insts i <> Some (Ranged first [])) /\
  (forall d, wanted l insts d -> 0 <= nArch d /\ 0 <= nWave d /\ forall ws, nth_error swars (Z.to_nat (nArch d)) = Some ws -> nWave d < zlen ws).
(** the pitches are those a note event can have *)
Definition pitched (l : evs) : Prop := forall n p v u d, In (n, Note p v u d) l -> 0 <= p <= 127.

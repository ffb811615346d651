(** * What arbitrary sound banks mean (for C110)

    [word], [half], [byte] and [part] are the numbers and bytes at a place of the file. *)
From Coq Require Import String.
From Verif Require Import PyBase SbnkModel RomSpec ViewSpec.

(** the note definition at [o], without a type, and with its type before it *)
Definition note_at (d : bytes) (o t : Z) : note :=
  {| nWave := half d o; nArch := half d (o + 2); nPitch := byte d (o + 4); nAttack := byte d (o + 5); nDecay := byte d (o + 6);
     nSustain := byte d (o + 7); nRelease := byte d (o + 8); nPan := byte d (o + 9); nType := t |}.
Definition typed_note_at (d : bytes) (o : Z) : note := note_at d (o + 2) (half d o).
(** a regional instrument has one region, and one more for each further end up to the
    first that is zero *)
Fixpoint nonzero (l : bytes) : nat := match l with [] => 0%nat | e :: r => if e =? 0 then 0%nat else S (nonzero r) end.
Definition region_count (d : bytes) (o : Z) : nat := S (nonzero (part d (o + 1) 7)).
Definition range_count (d : bytes) (o : Z) : nat := Z.to_nat (byte d (o + 1) - byte d o + 1).

(** the instrument of type [t] at [o] *)
Definition body_at (d : bytes) (t o : Z) : ibody :=
  if t =? 16 then Ranged (byte d o) (map (fun i => typed_note_at d (o + 2 + 12 * Z.of_nat i)) (seq 0 (range_count d o)))
  else if t =? 17 then Regional (map (fun i => (byte d (o + Z.of_nat i), typed_note_at d (o + 8 + 12 * Z.of_nat i))) (seq 0 (region_count d o)))
  else Single (note_at d o t).
Definition body_size (d : bytes) (t o : Z) : Z :=
  if t =? 16 then 2 + 12 * Z.of_nat (range_count d o) else if t =? 17 then 8 + 12 * Z.of_nat (region_count d o) else 10.
Definition body_fits (d : bytes) (t o : Z) : Prop :=
  0 < t <= 17 /\ (t = 16 -> o + 2 <= zlen d) /\ (t = 17 -> o + 8 <= zlen d) /\ o + body_size d t o <= zlen d.

(** row [j] of the table *)
Definition row_type (d : bytes) (j : nat) : Z := byte d (0x3C + 4 * Z.of_nat j).
Definition row_offset (d : bytes) (j : nat) : Z := half d (0x3D + 4 * Z.of_nat j).
Definition instrument_at (d : bytes) (j : nat) : option inst :=
  if row_type d j =? 0 then None
  else Some {| iBody := body_at d (row_type d j) (row_offset d j); iKey := row_offset d j; iMerge := row_offset d j |}.
Definition bank_shape (d : bytes) : Prop :=
  sound_head d "SBNK" "DATA" /\ 0x3C + 4 * word d 0x38 <= zlen d /\ 0x3C <= zlen d /\
  forall j, Z.of_nat j < word d 0x38 -> row_type d j <> 0 -> body_fits d (row_type d j) (row_offset d j).

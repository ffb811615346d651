(** * What arbitrary model files mean (for C112) *)
From Coq Require Import String.
From Verif Require Import PyBase ColorModel TexModel NsbmdModel RomSpec ViewSpec ViewTexSpec.

(** ** tables: a count, a pair of unknown values, a word and a name for each entry *)
Definition table_count (d : bytes) (o : Z) : nat := Z.to_nat (byte d (o + 1)).
Definition table_word (d : bytes) (o : Z) (i : nat) : Z := word d (o + 16 + 4 * Z.of_nat (table_count d o) + 4 * Z.of_nat i).
Definition table_name (d : bytes) (o : Z) (i : nat) : bytes := rstrip 0 (part d (o + 16 + 8 * Z.of_nat (table_count d o) + 16 * Z.of_nat i) 16).
Definition table_end (d : bytes) (o : Z) : Z := o + 16 + 24 * Z.of_nat (table_count d o).
(** the names need not be there *)
Definition table_frame (d : bytes) (o : Z) : Prop :=
  o + 16 + 8 * Z.of_nat (table_count d o) <= zlen d /\ half d (o + 4) = 8 /\ word d (o + 8) = 0x17F.
Definition table_shape (d : bytes) (o : Z) : Prop := table_frame d o /\ half d (o + 12 + 4 * Z.of_nat (table_count d o)) = 4.

(** ** models: three tables in a row and, elsewhere, one of the polygons *)
Definition model_shape (d : bytes) (m : Z) : Prop :=
  let materials := m + word d (m + 8) + 4 in
  let textures := table_end d materials in
  let palettes := table_end d textures in
  let polygons := m + word d (m + 12) in
  m + 64 <= zlen d /\ table_shape d materials /\ table_shape d textures /\ table_shape d palettes /\ table_shape d polygons /\
  forall i, (i < table_count d polygons)%nat -> polygons + table_word d polygons i + 16 <= zlen d.
Definition mdl0_shape (d : bytes) : Prop :=
  part d 0 4 = asc "MDL0" /\ table_frame d 8 /\ forall i, (i < table_count d 8)%nat -> model_shape d (table_word d 8 i).
Definition model_names (d : bytes) : list bytes := map (table_name d 8) (seq 0 (table_count d 8)).

(** ** files *)
Definition block_count (d : bytes) : nat := Z.to_nat (half d 14).
Definition block_place (d : bytes) (j : nat) : Z := word d (0x10 + 4 * Z.of_nat j).
Definition block_kind (d : bytes) (j : nat) : bytes := part d (block_place d j) 4.
(** the bytes of a block, as far as they exist *)
Definition block_of (d : bytes) (j : nat) : bytes := part d (block_place d j) (word d (block_place d j + 4)).
Definition block_ok (d : bytes) (j : nat) : Prop :=
  block_place d j + 8 <= zlen d /\
  ((block_kind d j = asc "MDL0" /\ mdl0_shape (block_of d j)) \/
   (block_kind d j = asc "TEX0" /\ tex0_shape (block_of d j) /\ exists x, tex0_view (block_of d j) x)).
Definition nsbmd_shape (d : bytes) : Prop :=
  part d 0 4 = asc "BMD0" /\ half d 6 = 2 /\ 16 + 4 * Z.of_nat (block_count d) <= zlen d /\ forall j, (j < block_count d)%nat -> block_ok d j.
(** [j] is the last of the first [n] blocks that are of the kind *)
Definition last_of (d : bytes) (n : nat) (kind : bytes) (j : nat) : Prop :=
  (j < n)%nat /\ block_kind d j = kind /\ forall k, (j < k < n)%nat -> block_kind d k <> kind.
Record nsbmd_view (d : bytes) (n : nat) (m : nsbmd) : Prop := {
  vm_mdl0 : forall j, last_of d n (asc "MDL0") j -> nMDL0 m = Some (block_of d j) /\ nModels m = Some (model_names (block_of d j));
  vm_no_mdl0 : (forall j, (j < n)%nat -> block_kind d j <> asc "MDL0") -> nMDL0 m = None /\ nModels m = None;
  vm_tex0 : forall j, last_of d n (asc "TEX0") j -> tex0_view (block_of d j) (nTex m);
  vm_no_tex0 : (forall j, (j < n)%nat -> block_kind d j <> asc "TEX0") -> nTex m = {| x08 := 0; x10 := 0; x18 := 0; x20 := 0; x2C := 0; x32 := 0; xTextures := []; xPalettes := [] |}
}.

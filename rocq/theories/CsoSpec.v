(** * Where the settings of a main code file are found, and what its sections are,
    stated without the code's loops *)
From Verif Require Import PyBase.

(** the eight bytes that follow the settings of an ARM9 code file, at a multiple
    of four below 0x8000 *)
Definition magic_at (d : bytes) (i : Z) : Prop :=
  0 <= i < 0x8000 /\ i mod 4 = 0 /\ slice d i (i + 8) = [0x21; 0x06; 0xC0; 0xDE; 0xDE; 0xC0; 0x06; 0x21].
Definition no_magic (d : bytes) : Prop := forall i, ~ magic_at d i.
(** the address of the end of the file, stored at [m] *)
Definition end_at (ram : Z) (d : bytes) (m : Z) : Prop :=
  0 <= m /\ m + 4 <= zlen d /\ unle (slice d m (m + 4)) = ram + zlen d.
(** the word before position [m]; before position 0 stands the last word *)
Definition word_before (d : bytes) (m : Z) : Z :=
  if m =? 0 then unle (slice d (zlen d - 4) (zlen d)) else unle (slice d (m - 4) m).
(** the word before [m] can be the address of the start of a table of rows of 12
    bytes that ends at the end of the file *)
Definition table_before (ram : Z) (d : bytes) (m : Z) : Prop :=
  (m = 0 \/ 4 <= m) /\ word_before d m mod 4 = 0 /\ (12 | ram + zlen d - word_before d m) /\
  ram + zlen d - word_before d m < 256.
Definition settings_at (ram : Z) (d : bytes) (m : Z) : Prop := end_at ram d m /\ table_before ram d m.

(** a pointer to the settings: the word before the address [p] holds their address *)
Definition points_to (ram : Z) (d : bytes) (p o : Z) : Prop :=
  p <> 0 /\ (4 <= p - ram <= zlen d \/ - zlen d <= p - ram - 4 <= -4) /\
  let q := if p - ram <? 4 then p - ram + zlen d else p - ram in
  unle (slice d (q - 4) q) = ram + o /\ 0 <= o < zlen d - 4.

(** row [i] of the table of sections at offset [t]: address, size, size of the
    zero-initialised part *)
Definition row (d : bytes) (t i : Z) (j : Z) : Z := unle (slice d (t + 12 * i + 4 * j) (t + 12 * i + 4 * j + 4)).
(** the sizes of the first [i] rows together *)
Fixpoint sizes (d : bytes) (t : Z) (i : nat) : Z :=
  match i with O => 0 | S i => sizes d t i + row d t (Z.of_nat i) 1 end.
(** an offset counted from the end when negative *)
Definition from_end (d : bytes) (o : Z) : Z := if o <? 0 then o + zlen d else o.
(** the three words of the settings at [o]: addresses of the table, of its end and
    of the data of the sections *)
Definition setting (d : bytes) (o j : Z) : Z := unle (slice d (from_end d o + 4 * j) (from_end d o + 4 * j + 4)).

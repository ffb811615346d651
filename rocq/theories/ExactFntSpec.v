(** * Filename tables in the form the library writes (statements, C124) *)
From Verif Require Import PyBase FntModel RomSpec ViewSpec.

(** where the list of folder [k] of [N] begins; the last one ends with the table *)
Definition list_start (d : bytes) (N k : Z) : Z := if k =? N then zlen d else word d (8 * k).
(** only files are listed from [o] to [o'] *)
Inductive files_to (d : bytes) : Z -> Z -> Prop :=
| fs_none o : files_to d o o
| fs_file o o' : 0 < byte d o < 128 -> files_to d (o + 1 + byte d o) o' -> files_to d o o'.
(** [laid d N n p m]: folder [n] of the [N] has the parent number [p], and the numbers
    from [n] to [m - 1] are those of the folders in it at any depth, in the order of
    reading; its list has the files first and the folders then, and ends where the
    list of the next number begins.  [dirs d N n o k e m]: the list of folder [n] has
    only folders from [o] to [e], and these have the numbers from [k] to [m - 1]. *)
Inductive laid (d : bytes) (N : Z) : Z -> Z -> Z -> Prop :=
| la_folder n p m o e : n < N -> half d (8 * n + 6) = p -> files_to d (word d (8 * n)) o -> dirs d N n o (n + 1) e m ->
    e < zlen d -> byte d e = 0 -> e + 1 = list_start d N (n + 1) -> laid d N n p m
with dirs (d : bytes) (N : Z) : Z -> Z -> Z -> Z -> Z -> Prop :=
| di_none n o k : dirs d N n o k o k
| di_folder n o k len m1 e m : byte d o = 128 + len -> 0 <= len < 128 -> half d (o + 1 + len) = 0xF000 + k ->
    laid d N k (0xF000 + n) m1 -> dirs d N n (o + 1 + len + 2) m1 e m -> dirs d N n o k e m.
Scheme laid_ind2 := Induction for laid Sort Prop with dirs_ind2 := Induction for dirs Sort Prop.
Combined Scheme laid_mutind from laid_ind2, dirs_ind2.
(** the root has the number of folders as its parent, and its list follows the rows *)
Definition exact_names (d : bytes) : Prop :=
  let N := half d 6 in N <= 4096 /\ 8 * N <= zlen d /\ word d 0 = 8 * N /\ laid d N 0 N N.

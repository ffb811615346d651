(** * Specification vocabulary for filename tables (independent of fnt.py's code) *)
From Verif Require Import PyBase FntModel.

(** [folder_in g r]: [g] is [r] or a folder at any depth below it *)
Inductive folder_in (g : folder) : folder -> Prop :=
| fin_here : folder_in g g
| fin_below : forall r n f, In (n, f) (fFolders r) -> folder_in g f -> folder_in g r.

(** [file_at r p id]: following the names [p] from [r] leads to a file with this ID *)
Inductive file_at : folder -> list (list Z) -> Z -> Prop :=
| fat_here : forall r n i, nth_error (fFiles r) i = Some n -> file_at r [n] (fFirst r + Z.of_nat i)
| fat_below : forall r n f p id, In (n, f) (fFolders r) -> file_at f p id -> file_at r (n :: p) id.

(** [dir_at r p g]: following the folder names [p] from [r] leads to [g] *)
Inductive dir_at : folder -> list (list Z) -> folder -> Prop :=
| dat_here : forall r n f, In (n, f) (fFolders r) -> dir_at r [n] f
| dat_below : forall r n f p g, In (n, f) (fFolders r) -> dir_at f p g -> dir_at r (n :: p) g.

(** number of folders, nesting depth and encoded size of a tree *)
Fixpoint folder_count (f : folder) : Z :=
  let 'Folder l _ _ := f in 1 + fold_right Z.add 0 (map (fun p => folder_count (snd p)) l).
Fixpoint height (f : folder) : nat :=
  let 'Folder l _ _ := f in S (fold_right Nat.max O (map (fun p => height (snd p)) l)).
Fixpoint table_size (f : folder) : Z :=
  let 'Folder l files _ := f in
  9 + fold_right Z.add 0 (map (fun n => 1 + zlen n) files)
    + fold_right Z.add 0 (map (fun p => 3 + zlen (fst p) + table_size (snd p)) l).

(** what the format can hold: names of at most 127 latin-1 characters, 16-bit first IDs *)
Definition name_ok (n : list Z) : Prop := zlen n <= 127 /\ is_bytes n.
Definition folder_ok (g : folder) : Prop :=
  Forall name_ok (fFiles g) /\ Forall (fun p => name_ok (fst p)) (fFolders g) /\ 0 <= fFirst g < 65536.
Definition tree_ok (r : folder) : Prop := forall g, folder_in g r -> folder_ok g.
(** an empty file name would be read back as the end-of-table mark *)
Definition files_named (r : folder) : Prop := forall g, folder_in g r -> Forall (fun n => n <> []) (fFiles g).

(** names usable as path components *)
Definition path_name (n : list Z) : Prop := n <> [] /\ ~ In 47 n.
Definition paths_ok (r : folder) : Prop := forall g, folder_in g r ->
  Forall path_name (fFiles g) /\ Forall (fun p => path_name (fst p)) (fFolders g).
(** no duplicate names among siblings *)
Definition names_unique (r : folder) : Prop := forall g, folder_in g r ->
  NoDup (fFiles g) /\ NoDup (map fst (fFolders g)).
(** no two files share an ID *)
Definition ids_unique (r : folder) : Prop := forall p p' id, file_at r p id -> file_at r p' id -> p = p'.

(** * Files, overlays and code of an arbitrary ROM (for C118) *)
From Verif Require Import PyBase FntModel CodeModel RomSpec ViewSpec ViewLzSpec ViewProps CsoSpec.

(** ** A name in a filename table [t]: entries are read from place [o] on *)
Section Names.
  Variables (t : bytes) (s : list Z).
  Definition file_entry (o : Z) : Prop := 0 <= o < zlen t /\ 0 < byte t o < 128.
  Definition dir_entry (o len : Z) : Prop := 0 <= o < zlen t /\ byte t o = 128 + len /\ 0 <= len < 128 /\ o + len + 3 <= zlen t.
  (** the first file with the name [s] is the one after [k] other files *)
  Inductive first_file : Z -> nat -> Prop :=
  | ff_here o : file_entry o -> part t (o + 1) (byte t o) = s -> first_file o 0
  | ff_file o k : file_entry o -> part t (o + 1) (byte t o) <> s -> first_file (o + 1 + byte t o) k -> first_file o (S k)
  | ff_dir o len k : dir_entry o len -> first_file (o + len + 3) k -> first_file o k.
  (** the first folder with the name [s] is folder number [m] of the table *)
  Inductive first_dir : Z -> Z -> Prop :=
  | fd_here o len : dir_entry o len -> part t (o + 1) len = s -> first_dir o (half t (o + 1 + len) mod 4096)
  | fd_file o m : file_entry o -> first_dir (o + 1 + byte t o) m -> first_dir o m
  | fd_dir o len m : dir_entry o len -> part t (o + 1) len <> s -> first_dir (o + len + 3) m -> first_dir o m.
End Names.
(** the names [p], followed from folder number [n] on, lead to the file [id] *)
Inductive found (t : bytes) : Z -> list (list Z) -> Z -> Prop :=
| found_file n s k : first_file t s (word t (8 * n)) k -> found t n [s] (half t (8 * n + 4) + Z.of_nat k)
| found_below n s m p id : first_dir t s (word t (8 * n)) m -> found t m p id -> found t n (s :: p) id.
(** names that can be written with slashes between them *)
Definition writable_path (p : list (list Z)) : Prop := hd [] p <> [] /\ last p [] <> [] /\ Forall (fun n => ~ In 47 n) p.

(** ** The files *)
Definition has_file (d : bytes) (id : Z) : Prop := 8 * id + 8 <= zlen (fat_part d).
Definition rom_file (d : bytes) (id : Z) : bytes :=
  let start := word (fat_part d) (8 * id) in part d start (word (fat_part d) (8 * id + 4) - start).

(** ** Code: what it is when it is not compressed any more (C114) *)
Definition unpacked (d r : bytes) : Prop :=
  (plain d /\ r = d) \/
  exists a, appended d a /\
    ((extra_len d a = 0 /\ r = part d 0 (zlen d - a)) \/ (extra_len d a <> 0 /\ exists r', code_means (part d 0 (zlen d - a)) r' /\ r = r' ++ part d (zlen d - a) a)).
(** row [i] of the overlay table [t] *)
Definition rom_overlay (d t : bytes) (i : nat) (ov : overlay) : Prop :=
  let fid := ViewSpec.row t i 6 in
  has_file d fid /\ (if Z.odd (oFlags ov) then unpacked (rom_file d fid) (oData ov) else oData ov = rom_file d fid) /\
  [oRamAddress ov; oRamSize ov; oBssSize ov; oSiStart ov; oSiEnd ov; oFileID ov] = map (ViewSpec.row t i) [1; 2; 3; 4; 5; 6] /\
  oCompressedSize ov = ViewSpec.row t i 7 mod 2 ^ 24 /\ oFlags ov = ViewSpec.row t i 7 / 2 ^ 24.
(** the settings of main code [c] loaded at [ram], with the pointer [p]: where the
    pointer points, otherwise before the first marker, otherwise the first words
    that can be settings *)
Definition settings_found (ram : Z) (c : bytes) (p : Z) (o : option Z) : Prop :=
  match o with
  | Some o => points_to ram c p o \/
      (forall x, ~ points_to ram c p x) /\
      ((exists i, magic_at c i /\ o = i - 0x1C /\ forall j, j < i -> ~ magic_at c j) \/
       (no_magic c /\ exists k, settings_at ram c k /\ o = k - 4 /\ forall j, j < k -> ~ settings_at ram c j))
  | None => (forall x, ~ points_to ram c p x) /\ no_magic c /\ forall k, ~ settings_at ram c k
  end.
Definition sections_of (ram : Z) (c : bytes) (o : option Z) (l : list section) : Prop :=
  match o with
  | None => l = [{| sData := c; sRam := ram; sBss := 0; sImplicit := true |}]
  | Some o =>
    let t := setting c o 0 - ram in let e := setting c o 1 - ram in let b := setting c o 2 - ram in
    0 <= t ->
    exists rest, l = {| sData := slice c 0 b; sRam := ram; sBss := 0; sImplicit := true |} :: rest /\
      zlen rest = Z.max 0 ((e - t + 11) / 12) /\
      forall i, (i < length rest)%nat -> nth_error rest i =
        Some {| sData := slice c (b + sizes c t i) (b + sizes c t (S i)); sRam := CsoSpec.row c t (Z.of_nat i) 0;
                sBss := CsoSpec.row c t (Z.of_nat i) 2; sImplicit := false |}
  end.

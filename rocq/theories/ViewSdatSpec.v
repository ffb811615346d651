(** * What arbitrary sequence files, sequence archives and sound archives mean
    (for C108 and C109)

    [word], [half], [byte] and [part] are the numbers and bytes at a place of the file. *)
From Coq Require Import String.
From Verif Require Import PyBase SeqModel SsarModel WaveModel SbnkModel SdatModel RomSpec SdatSpec ViewSpec.

Notation byte := ViewSpec.byte.
(** the two's complement number with [w] bits *)
Definition signed (w v : Z) : Z := if v <? 2 ^ (w - 1) then v else v - 2 ^ w.

(** ** SSAR: row [i] of the table *)
Definition archive_row (d : bytes) (i : nat) : aseq :=
  let p := 0x20 + 12 * Z.of_nat i in
  let o := signed 32 (word d p) in
  {| aParsed := false; aFirst := None; aOffset := if o =? -1 then None else Some o;
     aParams := (half d (p + 4), byte d (p + 6), byte d (p + 7), byte d (p + 8), byte d (p + 9)) |}.

(** ** SDAT *)
(** the bytes up to the next NUL; without one, all but the last *)
Fixpoint before_nul (l : bytes) : option bytes :=
  match l with [] => None | x :: r => if x =? 0 then Some [] else option_map (cons x) (before_nul r) end.
Definition text_at (d : bytes) (o : Z) : bytes :=
  let r := skipn (Z.to_nat o) d in match before_nul r with Some s => s | None => removelast r end.
(** the names block *)
Definition symb (d : bytes) : Z := word d 0x10.
Definition symb_part (d : bytes) (k : nat) : Z := symb d + word d (symb d + 8 + 4 * Z.of_nat k).
(** the name whose offset stands at [a] *)
Definition name_at (d : bytes) (a : Z) : name := if word d a =? 0 then None else Some (text_at d (symb d + word d a)).
(** the places of the offsets of a list of names that starts at [t] *)
Definition places (d : bytes) (t : Z) : list Z := map (fun j => t + 4 + 4 * Z.of_nat j) (seq 0 (Z.to_nat (word d t))).
Definition in_file (d : bytes) (t : Z) : Prop := t + 4 + 4 * word d t <= zlen d.
(** the lists of names of an archive: a place for its name, then for the offset of
    the list of the names of its sequences *)
Definition nested_places (d : bytes) (t : Z) : list Z := map (fun j => t + 4 + 8 * Z.of_nat j) (seq 0 (Z.to_nat (word d t))).
Definition sub_places (d : bytes) (a : Z) : list Z := if word d (a + 4) =? 0 then [] else places d (symb d + word d (a + 4)).
Definition sub_names (d : bytes) (a : Z) : list name := map (name_at d) (sub_places d a).
(** all names of part [k]; none if there is no names block *)
Definition part_names (d : bytes) (k : nat) : list name :=
  if symb d =? 0 then [] else map (name_at d) (if (k =? 1)%nat then nested_places d (symb_part d k) else places d (symb_part d k)).
Definition archive_names (d : bytes) (j : nat) : list name :=
  if symb d =? 0 then [] else match nth_error (nested_places d (symb_part d 1)) j with Some a => sub_names d a | None => [] end.
(** the places of all offsets of names, in the order they are looked at *)
Definition all_places (d : bytes) : list Z :=
  if symb d =? 0 then [] else
  places d (symb_part d 0) ++ flat_map (fun a => a :: sub_places d a) (nested_places d (symb_part d 1))
  ++ flat_map (fun k => places d (symb_part d k)) (seq 2 6).
(** where the last name looked at ends *)
Definition names_end (d : bytes) : Z :=
  fold_left (fun e a => match name_at d a with None => e | Some s => word d a + zlen s + 1 end) (all_places d) 0.

Definition symb_shape (d : bytes) : Prop :=
  symb d + 0x28 <= zlen d /\ part d (symb d) 4 = asc "SYMB" /\
  (forall k, (k < 8)%nat -> k <> 1%nat -> in_file d (symb_part d k)) /\
  symb_part d 1 + 4 + 8 * word d (symb_part d 1) <= zlen d /\
  (forall a, In a (nested_places d (symb_part d 1)) -> word d (a + 4) <> 0 -> in_file d (symb d + word d (a + 4))).
Definition sdat_shape (d : bytes) : Prop :=
  0x30 <= zlen d /\ part d 0 4 = asc "SDAT" /\ half d 6 = 0x100 /\
  symb d + 8 <= zlen d /\ (symb d <> 0 -> symb_shape d) /\
  (let fat := word d 0x20 in fat + 12 <= zlen d /\ part d fat 4 = asc "FAT " /\ (file_count d = 0 \/ fat + 4 + 16 * file_count d <= zlen d)) /\
  (let info := word d 0x18 in info + 0x28 <= zlen d /\ part d info 4 = asc "INFO" /\ forall k, (k < 8)%nat -> in_file d (info_part d k)).

(** a list of the object: as many entries as the longer one of the two lists of the
    file; missing names and entries are None *)
Definition listed {A} (d : bytes) (k : nat) (R : nat -> Z -> A -> Prop) (l : list (name * option A)) : Prop :=
  zlen l = Z.max (entry_count d k) (zlen (part_names d k)) /\
  forall j n x, nth_error l j = Some (n, x) -> n = nth j (part_names d k) None /\
    match x with
    | None => entry_count d k <= Z.of_nat j \/ entry_offset d k j = 0
    | Some y => Z.of_nat j < entry_count d k /\ entry_offset d k j <> 0 /\ R j (entry d k j) y
    end.
(** an object with a file: its merge ID is the number of the file *)
Definition filed {A} (d : bytes) (p size : Z) (load : bytes -> res A) (y : merged A) : Prop :=
  p + size <= zlen d /\ fst y = half d p /\ half d p < file_count d /\ load (file_view d (half d p)) = Ok (snd y).

Record sdat_view (order : list Z) (d : bytes) (s : sdat) : Prop := {
  vi_seqs : listed d 0 (fun _ p => filed d p 10 (fun f => sseq_load f (half d (p + 2), half d (p + 4), byte d (p + 6), byte d (p + 7), byte d (p + 8), byte d (p + 9)))) (dSeqs s);
  vi_archs : listed d 1 (fun j p => filed d p 4 (fun f => ssar_load f (half d (p + 2)) (archive_names d j))) (dArchs s);
  vi_banks : listed d 2 (fun _ p => filed d p 12 (fun f => sbnk_load order f (half d (p + 2))
               (Some (map (fun i => let w := signed 16 (half d (p + 4 + 2 * Z.of_nat i)) in if w =? -1 then None else Some w) (seq 0 4))))) (dBanks s);
  vi_wars : listed d 3 (fun _ p => filed d p 4 (fun f => swar_load f (half d (p + 2)))) (dWars s);
  vi_players : listed d 4 (fun _ p y => p + 8 <= zlen d /\ y = (half d p, filter (Z.testbit (half d (p + 2))) (range_z 0 16), word d (p + 4))) (dPlayers s);
  vi_groups : listed d 5 (fun _ p y => p + 4 <= zlen d /\ zlen y = word d p /\ forall i g, nth_error y i = Some g -> let q := p + 4 + 8 * Z.of_nat i in
                q + 8 <= zlen d /\ gType g = byte d q /\ byte d q < 4 /\ gId g = word d (q + 4) /\
                [gLoadSSEQ g; gSwarIds g; gLoadSWAR g; gLoadSSAR g] = map (Z.testbit (half d (q + 1))) [0; 1; 2; 3]) (dGroups s);
  vi_splayers : listed d 6 (fun _ p y => p < zlen d /\ p + 1 + byte d p <= zlen d /\ y = part d (p + 1) (byte d p)) (dSPlayers s);
  vi_strms : listed d 7 (fun _ p => filed d p 8 (fun f => strm_load f (half d (p + 2), byte d (p + 4), byte d (p + 5), byte d (p + 6), byte d (p + 7)))) (dStrms s);
  vi_align : 0 < fileAlign s /\ forall g, (g | fileAlign s) <-> (g | 0x200) /\ forall i, 0 <= i < file_count d -> (g | file_start d i);
  vi_first : firstAlign s = if file_count d =? 0 then None else
    let a := Z.gcd 0x200 (file_start d 0) in if a =? fileAlign s then None else Some a;
  vi_pad : fatPad s = true <-> forall i, 0 <= i < file_count d - 1 -> file_start d (i + 1) - file_start d i = file_length d i;
  vi_end : padEnd s = true <-> (files_end d = zlen d -> (fileAlign s | files_end d));
  vi_symb : padSymb s = true <-> (4 | word d 0x14) /\ ~ (4 | names_end d)
}.

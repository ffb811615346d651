(** * What a saved sound archive holds, read off its bytes *)
From Verif Require Import PyBase RomSpec WaveModel SeqModel SsarModel SbnkModel SdatModel.

Definition byte (d : bytes) (o : Z) : Z := unle (slice d o (o + 1)).
Definition short (d : bytes) (o : Z) : Z := if half d o <? 0x8000 then half d o else half d o - 0x10000.

(** ** INFO: parts 0 to 7 hold sequences, sequence archives, banks, wave archives,
    sequence players, groups, stream players and streams *)
Definition info_part (d : bytes) (k : nat) : Z := word d 0x18 + word d (word d 0x18 + 8 + 4 * Z.of_nat k).
Definition entry_count (d : bytes) (k : nat) : Z := word d (info_part d k).
(** the offset in the block of entry [j], 0 for None *)
Definition entry_offset (d : bytes) (k j : nat) : Z := word d (info_part d k + 4 + 4 * Z.of_nat j).
Definition entry (d : bytes) (k j : nat) : Z := word d 0x18 + entry_offset d k j.
Definition file_id (d : bytes) (k j : nat) : Z := half d (entry d k j).

(** ** FAT *)
Definition file_count (d : bytes) : Z := word d (word d 0x20 + 8).
Definition file_start (d : bytes) (i : Z) : Z := word d (word d 0x20 + 0xC + 0x10 * i).
Definition file_length (d : bytes) (i : Z) : Z := word d (word d 0x20 + 0xC + 0x10 * i + 4).
Definition file_view (d : bytes) (i : Z) : bytes := slice d (file_start d i) (file_start d i + file_length d i).
Definition files_end (d : bytes) : Z :=
  if file_count d =? 0 then word d 0x28 + 8 else file_start d (file_count d - 1) + file_length d (file_count d - 1).

(** entry [j] of part [k] of the archive is an object with merge ID [m] whose save() gives the file [f] *)
Definition saves_as (s : sdat) (k j : nat) (f : bytes) (m : Z) : Prop :=
  match k with
  | 0%nat => exists n x info, nth_error (dSeqs s) j = Some (n, Some (m, x)) /\ sseq_save x = Ok (f, info)
  | 1%nat => exists n x u l, nth_error (dArchs s) j = Some (n, Some (m, x)) /\ ssar_save x = Ok (f, u, l)
  | 2%nat => exists n x u l, nth_error (dBanks s) j = Some (n, Some (m, x)) /\ sbnk_save x = Ok (f, u, l)
  | 3%nat => exists n x u, nth_error (dWars s) j = Some (n, Some (m, x)) /\ swar_save x = Ok (f, u)
  | 7%nat => exists n x info, nth_error (dStrms s) j = Some (n, Some (m, x)) /\ strm_save0 x = Ok (f, info)
  | _ => False
  end.
(** entry [j] of part [k] exists and is, or is not, None *)
Definition present (s : sdat) (k j : nat) : option bool :=
  let see {A} (l : list (name * option A)) := option_map (fun p => is_some (snd p)) (nth_error l j) in
  match k with
  | 0%nat => see (dSeqs s) | 1%nat => see (dArchs s) | 2%nat => see (dBanks s) | 3%nat => see (dWars s)
  | 4%nat => see (dPlayers s) | 5%nat => see (dGroups s) | 6%nat => see (dSPlayers s) | 7%nat => see (dStrms s)
  | _ => None
  end.
Definition part_length (s : sdat) (k : nat) : Z :=
  match k with
  | 0%nat => zlen (dSeqs s) | 1%nat => zlen (dArchs s) | 2%nat => zlen (dBanks s) | 3%nat => zlen (dWars s)
  | 4%nat => zlen (dPlayers s) | 5%nat => zlen (dGroups s) | 6%nat => zlen (dSPlayers s) | 7%nat => zlen (dStrms s)
  | _ => 0
  end.

(** ** Names *)
Definition names (s : sdat) : list name :=
  map fst (dSeqs s) ++ flat_map (fun p => fst p :: match snd p with Some (_, a) => map fst (rSeqs a) | None => [] end) (dArchs s)
  ++ map fst (dBanks s) ++ map fst (dWars s) ++ map fst (dPlayers s) ++ map fst (dGroups s) ++ map fst (dSPlayers s) ++ map fst (dStrms s).
Definition nul_free (n : name) : Prop := match n with Some n => ~ In 0 n | None => True end.
(** the strings with their NULs *)
Definition strings_size (s : sdat) : Z := fold_right (fun n k => match n with Some n => zlen n + 1 + k | None => k end) 0 (names s).

(** ** Loading: entry by entry the same names; None stays None; an object [x] becomes [y] with [R j x y] *)
Definition reloads {A B} (R : nat -> A -> B -> Prop) (l : list (name * option A)) (l' : list (name * option B)) : Prop :=
  length l' = length l /\ forall j n x, nth_error l j = Some (n, x) -> exists y, nth_error l' j = Some (n, y) /\
    match x, y with Some x, Some y => R j x y | None, None => True | _, _ => False end.
(** the wave archive IDs a bank gets back *)
Definition four_ids (l : list (option Z)) : list (option Z) :=
  map (fun w => match w with Some (-1) => None | w => w end) l ++ repeat None (4 - length l).
(** the file of entry [j] of part [k], now also its merge ID, is loaded as [y] *)
Definition from_file {A} (d : bytes) (k j : nat) (load : bytes -> res A) (y : merged A) : Prop :=
  fst y = file_id d k j /\ load (file_view d (fst y)) = Ok (snd y).
Record reloaded (order : list Z) (d : bytes) (s s' : sdat) : Prop := {
  re_seqs : reloads (fun j x y => exists f info, sseq_save (snd x) = Ok (f, info) /\ from_file d 0 j (fun v => sseq_load v info) y) (dSeqs s) (dSeqs s');
  re_archs : reloads (fun j x y => exists f u l, ssar_save (snd x) = Ok (f, u, l) /\ from_file d 1 j (fun v => ssar_load v u (map fst (rSeqs (snd x)))) y) (dArchs s) (dArchs s');
  re_banks : reloads (fun j x y => exists f u l, sbnk_save (snd x) = Ok (f, u, l) /\ from_file d 2 j (fun v => sbnk_load order v u (Some (four_ids l))) y) (dBanks s) (dBanks s');
  re_wars : reloads (fun j x y => exists f u, swar_save (snd x) = Ok (f, u) /\ from_file d 3 j (fun v => swar_load v u) y) (dWars s) (dWars s');
  re_players : reloads (fun _ x y => let '(a, c, h) := x in y = (a, filter (fun j => existsb (Z.eqb j) c) (range_z 0 16), h)) (dPlayers s) (dPlayers s');
  re_groups : reloads (fun _ x y => y = x /\ Forall (fun g => 0 <= gType g < 4) x) (dGroups s) (dGroups s');
  re_splayers : reloads (fun _ x y => y = x) (dSPlayers s) (dSPlayers s');
  re_strms : reloads (fun j x y => exists f info, strm_save0 (snd x) = Ok (f, info) /\ from_file d 7 j (fun v => strm_load v info) y) (dStrms s) (dStrms s');
  (* the greatest power of two up to 0x200 dividing all the offsets *)
  re_align : 0 < fileAlign s' /\ forall g, (g | fileAlign s') <-> (g | 0x200) /\ forall i, 0 <= i < file_count d -> (g | file_start d i);
  re_first : firstAlign s' = if file_count d =? 0 then None else
    let a := Z.gcd 0x200 (file_start d 0) in if a =? fileAlign s' then None else Some a;
  re_pad : fatPad s' = true <-> forall i, 0 <= i < file_count d - 1 -> file_start d (i + 1) - file_start d i = file_length d i;
  re_end : padEnd s' = true <-> (files_end d = zlen d -> (fileAlign s' | files_end d));
  re_symb : padSymb s' = true <-> padSymb s = true /\ (exists n, In (Some n) (names s)) /\ ~ (4 | strings_size s)
}.

(** * What printed text says, independently of how it is produced *)
From Verif Require Import PyBase FntModel FntSpec.

(** the number a decimal numeral denotes *)
Definition undec (s : list Z) : Z := fold_left (fun v c => 10 * v + (c - 48)) s 0.

(** ** bytes literals of Python *)
Definition octal (c : Z) : bool := (48 <=? c) && (c <=? 55).
Definition hexval (c : Z) : option Z :=
  if (48 <=? c) && (c <=? 57) then Some (c - 48)
  else if (97 <=? c) && (c <=? 102) then Some (c - 87)
  else if (65 <=? c) && (c <=? 70) then Some (c - 55)
  else None.
Definition keep (b : Z) (o : option bytes) : option bytes := option_map (cons (b mod 256)) o.
(** the bytes between the opening quote [q] and the closing one, which must be the last character *)
Fixpoint lit_quoted (q : Z) (s : list Z) : option bytes :=
  match s with
  | [] => None
  | c :: r =>
    if c =? q then match r with [] => Some [] | _ => None end
    else if c =? 92 then
      match r with
      | [] => None
      | d :: r1 =>
        if octal d then
          match r1 with
          | [] => None
          | e :: r2 =>
            if octal e then
              match r2 with
              | [] => None
              | g :: r3 => if octal g then keep (64 * (d - 48) + 8 * (e - 48) + (g - 48)) (lit_quoted q r3)
                           else keep (8 * (d - 48) + (e - 48)) (lit_quoted q r2)
              end
            else keep (d - 48) (lit_quoted q r1)
          end
        else if d =? 120 then
          match r1 with
          | h :: l :: r2 => match hexval h, hexval l with
                            | Some a, Some b => keep (16 * a + b) (lit_quoted q r2)
                            | _, _ => None
                            end
          | _ => None
          end
        else if d =? 110 then keep 10 (lit_quoted q r1)
        else if d =? 114 then keep 13 (lit_quoted q r1)
        else if d =? 116 then keep 9 (lit_quoted q r1)
        else if d =? 97 then keep 7 (lit_quoted q r1)
        else if d =? 98 then keep 8 (lit_quoted q r1)
        else if d =? 102 then keep 12 (lit_quoted q r1)
        else if d =? 118 then keep 11 (lit_quoted q r1)
        else if (d =? 92) || (d =? 39) || (d =? 34) then keep d (lit_quoted q r1)
        else keep 92 (keep d (lit_quoted q r1))
      end
    else if (0 <=? c) && (c <? 128) && negb (c =? 10) && negb (c =? 13) then keep c (lit_quoted q r)
    else None
  end.
Notation lit_body := (lit_quoted 39).
(** the value of a literal b'...' or b"..." *)
Definition literal (s : list Z) : option bytes :=
  match s with
  | b :: q :: r => if (b =? 98) && ((q =? 39) || (q =? 34)) then lit_quoted q r else None
  | _ => None
  end.

(** ** names of notes: letter, sharp sign, marks *)
Definition letters : list Z := [99; 100; 101; 102; 103; 97; 98].
(** semitones above c *)
Definition semitone (letter : Z) : Z :=
  if letter =? 99 then 0 else if letter =? 100 then 2 else if letter =? 101 then 4 else if letter =? 102 then 5
  else if letter =? 103 then 7 else if letter =? 97 then 9 else 11.
(** the note a name denotes in Helmholtz notation, 60 being c': the lower-case octave
    below it has no mark, each further octave up one more; the upper-case octave is
    the next one down, each further octave down one more mark *)
Definition helmholtz (s : list Z) : option Z :=
  match s with
  | [] => None
  | l :: r =>
    let '(sharp, marks) := match r with 9839 :: m => (1, m) | _ => (0, r) end in
    if 97 <=? l then
      if forallb (Z.eqb 39) marks then Some (48 + semitone l + sharp + 12 * zlen marks) else None
    else
      if forallb (Z.eqb 885) marks then Some (36 + semitone (l + 32) + sharp - 12 * zlen marks) else None
  end.

(** ** listings of folders *)

Definition spaces (n : Z) : list Z := rep 32 n.
(** the shortest numeral of at least four digits *)
Definition numeral4 (n : Z) (d : list Z) : Prop :=
  Forall (fun c => 48 <= c < 58) d /\ undec d = n /\ 4 <= zlen d /\ (zlen d = 4 \/ hd 0 d <> 48).
(** the line of something [depth] folders down, the outermost level being indented by [indent] *)
Definition shows (indent depth id : Z) (name line : list Z) : Prop :=
  exists d, numeral4 id d /\ line = d ++ spaces (indent + 1 + 4 * depth) ++ name.
(** IDs are not negative; names are not empty and do not begin with a space; no file name ends in a slash *)
Definition nat_ids (r : folder) : Prop := forall g, folder_in g r -> 0 <= fFirst g.
Definition plain_name (n : list Z) : Prop := hd 32 n <> 32.
Definition printable_tree (r : folder) : Prop := forall g, folder_in g r ->
  Forall (fun n => plain_name n /\ last n 0 <> 47) (fFiles g) /\ Forall (fun p => plain_name (fst p)) (fFolders g).
(** the number of files and of folders below *)
Fixpoint items (f : folder) : Z :=
  let 'Folder l files _ := f in zlen files + fold_right Z.add 0 (map (fun p => 1 + items (snd p)) l).
(** no name contains a line break *)
Definition one_line (r : folder) : Prop := forall g, folder_in g r ->
  Forall (fun n => ~ In 10 n) (fFiles g) /\ Forall (fun p => ~ In 10 (fst p)) (fFolders g).

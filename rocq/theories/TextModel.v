(** * Model of the printing functions of _common.py and fnt.py

    A [str] is the list of its code points.  Characters that are not ASCII:
    9839 is U+266F MUSIC SHARP SIGN, 885 is U+0375 GREEK LOWER NUMERAL SIGN. *)
From Coq Require Import String.
From Verif Require Import PyBase CommonModel FntModel.

Definition text : Type := list Z.

(** ** Numbers *)

(** [str(n)] for an [int] *)
Fixpoint digits (fuel : nat) (n : Z) : text :=
  match fuel with
  | O => []
  | S k => if n <? 10 then [48 + n] else digits k (n / 10) ++ [48 + n mod 10]
  end.
Definition str_nat (n : Z) : text := digits (S (Z.to_nat (Z.log2 n))) n.
Definition str_int (n : Z) : text := if n <? 0 then 45 :: str_nat (- n) else str_nat n.

(** [f'{n:04d}']: zeros between the sign and the digits up to four characters *)
Definition fmt_04d (n : Z) : text :=
  if n <? 0 then 45 :: rep 48 (3 - zlen (str_nat (- n))) ++ str_nat (- n)
  else rep 48 (4 - zlen (str_nat n)) ++ str_nat n.
(** [f'{n:{width}}']: spaces on the left of a number *)
Definition fmt_width (n width : Z) : text := rep 32 (width - zlen (str_int n)) ++ str_int n.

(** ** noteName (_common.py:69-82) *)

(** the two loops (_common.py:76-81), [fuel] bounding the number of turns *)
Fixpoint marks_up (fuel : nat) (note : Z) (accents : text) : Z * text :=
  match fuel with
  | O => (note, accents)
  | S k => if 0 <=? note then marks_up k (note - 12) (accents ++ asc "'") else (note, accents)
  end.
Fixpoint marks_down (fuel : nat) (note : Z) (accents : text) : Z * text :=
  match fuel with
  | O => (note, accents)
  | S k => if note <? -24 then marks_down k (note + 12) (accents ++ [885]) else (note, accents)
  end.
(** [s[i].strip()] of a one-character string *)
Definition strip1 (c : Z) : text := if c =? 32 then [] else [c].
(** [letter.upper()] of an ASCII letter *)
Definition upper (s : text) : text := map (fun c => if (97 <=? c) && (c <=? 122) then c - 32 else c) s.
Definition noteName (value : Z) : res text :=
  let note := value - 60 in
  l <- get (asc "ccddeffggaab") (note mod 12) ;;
  s <- get [32; 9839; 32; 9839; 32; 32; 9839; 32; 9839; 32; 9839; 32] (note mod 12) ;;
  let letter := if note <? -12 then upper [l] else [l] in
  let '(note1, accents1) := marks_up (S (Z.abs_nat note)) note [] in
  let '(_, accents2) := marks_down (S (Z.abs_nat note1)) note1 accents1 in
  Ok (letter ++ strip1 s ++ accents2).

(** ** shortBytesRepr (_common.py:97-122) *)

Definition hex_digit (n : Z) : Z := if n <? 10 then 48 + n else 87 + n.
(** [repr(b.to_bytes(1, 'big'))[2:-1]]: the byte as [bytes.__repr__] shows it.  The
    apostrophe stays as it is, because repr then uses double quotes. *)
Definition repr_byte (b : Z) : text :=
  if b =? 9 then asc "\t" else if b =? 10 then asc "\n" else if b =? 13 then asc "\r"
  else if b =? 92 then asc "\\"
  else if (b <? 32) || (127 <=? b) then asc "\x" ++ [hex_digit (b / 16); hex_digit (b mod 16)]
  else [b].
(** one turn of the loop (_common.py:108-114) *)
Definition short_byte (data : bytes) (i b : Z) : res text :=
  if b <? 8 then
    if i =? zlen data - 1 then Ok (asc "\" ++ str_nat b)
    else nx <- get data (i + 1) ;;
         if negb ((0x30 <=? nx) && (nx <? 0x3A)) then Ok (asc "\" ++ str_nat b) else Ok (repr_byte b)
  else Ok (repr_byte b).
Fixpoint short_bytes (data : bytes) (i : Z) (shownBytes : bytes) : res text :=
  match shownBytes with
  | [] => Ok []
  | b :: r => t <- short_byte data i b ;; ts <- short_bytes data (i + 1) r ;; Ok (t ++ ts)
  end.
Definition shortBytesRepr (data : bytes) (maxLen : Z) : res text :=
  body <- short_bytes data 0 (slice data 0 maxLen) ;;
  let final := asc "b'" ++ body ++ asc "'" in
  if maxLen <? zlen data then Ok (final ++ asc "...") else Ok final.

(** ** getAlignmentName (_common.py:296-319), with the flags of Alignment
    (ndspy/__init__.py:60-66) as CommonModel has them *)
Definition getAlignmentName (alignment : Z) : text :=
  let x := if negb (Z.land alignment A_HCENTER =? 0) then asc "center"
           else if negb (Z.land alignment A_RIGHT =? 0) then asc "right" else asc "left" in
  let y := if negb (Z.land alignment A_VCENTER =? 0) then asc "center"
           else if negb (Z.land alignment A_BOTTOM =? 0) then asc "bottom" else asc "top" in
  let s := y ++ asc "-" ++ x in
  if beq s (asc "center-center") then asc "center" else s.

(** ** enumeratedListOfStrs (_common.py:322-333); the items are given by their [str] *)
Definition enumeratedListOfStrs (items : list text) (indent : Z) : list text :=
  let maxNumLen := zlen (str_int (zlen items - 1)) in
  map (fun p => rep 32 indent ++ asc "[" ++ fmt_width (fst p) maxNumLen ++ asc "] " ++ snd p)
      (combine (range_z 0 (length items)) items).

(** ** Folder._strListUncombined (fnt.py:195-226): (line, preview) pairs *)
Definition preview_of (fileList : option (list bytes)) (fid : Z) : res (option text) :=
  match fileList with
  | None => Ok None
  | Some l => if zlen l <=? fid then Ok None
              else d <- get l fid ;; p <- shortBytesRepr d 0x10 ;; Ok (Some p)
  end.
Fixpoint file_lines (fileList : option (list bytes)) (indentStr : text) (fid : Z) (names : list text) : res (list (text * option text)) :=
  match names with
  | [] => Ok []
  | n :: r => p <- preview_of fileList fid ;;
              L <- file_lines fileList indentStr (fid + 1) r ;;
              Ok ((fmt_04d fid ++ indentStr ++ n, p) :: L)
  end.
Fixpoint strListUncombined (indent : Z) (fileList : option (list bytes)) (f : folder) : res (list (text * option text)) :=
  let 'Folder folders files firstID := f in
  let indentStr := rep 32 (indent + 1) in
  L <- file_lines fileList indentStr firstID files ;;
  M <- (fix go l := match l with
                    | [] => Ok []
                    | (name, g) :: r =>
                        sub <- strListUncombined (indent + 4) fileList g ;;
                        rest <- go r ;;
                        Ok ((fmt_04d (fFirst g) ++ indentStr ++ name ++ asc "/", None) :: sub ++ rest)
                    end) folders ;;
  Ok (L ++ M).

(** Folder._strList (fnt.py:229-254) *)
Definition strList (indent : Z) (fileList : option (list bytes)) (f : folder) : res (list text) :=
  uncombined <- strListUncombined indent fileList f ;;
  let previewColumn := match uncombined with
                       | [] => 4
                       | _ => fold_right Z.max 0 (map (fun e => zlen (fst e)) uncombined) + 4
                       end in
  Ok (map (fun e => match snd e with
                    | Some p => fst e ++ rep 32 (previewColumn - zlen (fst e)) ++ p
                    | None => fst e
                    end) uncombined).

(** ['\n'.join(lines)] *)
Fixpoint join_lines (l : list text) : text :=
  match l with
  | [] => []
  | [x] => x
  | x :: r => x ++ 10 :: join_lines r
  end.
(** Folder.__str__ (fnt.py:257-258) *)
Definition folder_str (f : folder) : res text := L <- strList 0 None f ;; Ok (join_lines L).

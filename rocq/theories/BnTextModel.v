(** * Model of the printing of BNBL and BNCL objects (ndspy/bnbl.py, ndspy/bncl.py:
    __str__ and BNBL._draw); __repr__ is in ReprModel. *)
From Coq Require Import String.
From Verif Require Import PyBase CommonModel BnModel TextModel.

(** BNBLTouchArea.__str__ (bnbl.py:45-49) *)
Definition touchArea_str (t : touchArea) : text :=
  asc "<bnbl touch area: " ++ getAlignmentName (taAlign t) ++ asc " at (" ++ str_int (taX t) ++ asc ", " ++ str_int (taY t) ++
  asc "), size " ++ str_int (taW t) ++ asc "x" ++ str_int (taH t) ++ asc ">".
(** BNCLImagePosition.__str__ (bncl.py:38-42) *)
Definition imagePosition_str (p : imagePosition) : text :=
  asc "<bncl image position: " ++ getAlignmentName (ipAlign p) ++ asc " of image " ++ str_int (ipImageID p) ++ asc " at (" ++
  str_int (ipX p) ++ asc ", " ++ str_int (ipY p) ++ asc ")>".

(** [l[k] = v] for an index in range *)
Fixpoint put_at {A} (l : list A) (k : nat) (v : A) : list A :=
  match l, k with
  | [], _ => []
  | _ :: r, O => v :: r
  | x :: r, S k => x :: put_at r k v
  end.
(** setAt (bnbl.py:119-122); the canvas is a list of 32 * 12 strings *)
Definition setAt (canvas : list text) (x y : Z) (s : text) : list text :=
  if (x <? 0) || (y <? 0) then canvas else
  if (32 <=? x) || (12 <=? y) then canvas else
  put_at canvas (Z.to_nat (y * 32 + x)) s.
(** [range(a, b)] *)
Definition between (a b : Z) : list Z := range_z a (Z.to_nat (b - a)).
(** the body of the loop over the touch areas (bnbl.py:124-143) *)
Definition draw_area (canvas : list text) (p : Z * touchArea) : list text :=
  let '(i, ta) := p in
  let '(x, y) := touchArea_topLeft ta in
  let left := x / 8 in
  let right := (x + taW ta) / 8 in
  let top := y / 16 in
  let bottom := (y + taH ta) / 16 in
  let canvas := setAt canvas left top (asc ".") in
  let canvas := setAt canvas right top (asc ".") in
  let canvas := setAt canvas left bottom (asc "'") in
  let canvas := setAt canvas right bottom (asc "'") in
  let canvas := fold_left (fun c j => setAt (setAt c j top (asc "-")) j bottom (asc "-")) (between (left + 1) right) canvas in
  let canvas := fold_left (fun c j => setAt (setAt c left j (asc "|")) right j (asc "|")) (between (top + 1) bottom) canvas in
  setAt canvas ((left + right) / 2) ((top + bottom) / 2) (str_int i).
(** _draw (bnbl.py:116-152) *)
Definition draw_canvas (areas : list touchArea) : list text :=
  fold_left draw_area (combine (range_z 0 (length areas)) areas) (repeat (asc " ") (32 * 12)).
Definition draw (b : bnbl) : list text :=
  let canvas := draw_canvas (blAreas b) in
  [asc "." ++ rep 61 34 ++ asc "."] ++
  map (fun i => asc "| " ++ concat (slice canvas (i * 32) (i * 32 + 32)) ++ asc " |") (range_z 0 12) ++
  [asc "'" ++ rep 61 34 ++ asc "'"].

(** BNBL.__str__ (bnbl.py:155-174): the loop that puts the drawing beside the lines,
    or below them where there are fewer *)
Fixpoint beside (col : Z) (linesList drawing : list text) : list text :=
  match linesList, drawing with
  | l :: ls, d :: ds => (l ++ rep 32 (col - zlen l) ++ d) :: beside col ls ds
  | ls, [] => ls
  | [], ds => map (fun d => rep 32 col ++ d) ds
  end.
Definition bnbl_lines (b : bnbl) : list text :=
  (if blUnk04 b =? 0 then asc "<bnbl" else asc "<bnbl unk04=" ++ str_int (blUnk04 b)) ::
  enumeratedListOfStrs (map touchArea_str (blAreas b)) 4.
Definition bnbl_str (b : bnbl) : text :=
  let linesList := bnbl_lines b in
  let drawingCol := fold_right Z.max 0 (map zlen linesList) + 4 in
  join_lines (beside drawingCol linesList (draw b) ++ [asc ">"]).
(** BNCL.__str__ (bncl.py:109-116) *)
Definition bncl_lines (b : bncl) : list text :=
  (if clUnk04 b =? 0 then asc "<bncl" else asc "<bncl unk04=" ++ str_int (clUnk04 b)) ::
  enumeratedListOfStrs (map imagePosition_str (clPositions b)) 4 ++ [asc ">"].
Definition bncl_str (b : bncl) : text := join_lines (bncl_lines b).

(** What the drawing of the touch areas shows, cell by cell *)
From Coq Require Import String.
From Verif Require Import PyBase CommonModel BnModel TextModel TextSpec.

(** the box of cells of a touch area: cells are 8 pixels wide and 16 high *)
Record box := { bLeft : Z; bTop : Z; bRight : Z; bBottom : Z }.
Definition box_of (x y : Z) (t : touchArea) : box :=
  {| bLeft := x / 8; bTop := y / 16; bRight := (x + taW t) / 8; bBottom := (y + taH t) / 16 |}.
Definition area_box (t : touchArea) : box := box_of (fst (touchArea_topLeft t)) (snd (touchArea_topLeft t)) t.
(** what a box shows at a cell *)
Inductive glyph := Number | Side | Edge | LowCorner | HighCorner.
Inductive has (b : box) (x y : Z) : glyph -> Prop :=
| has_number : x = (bLeft b + bRight b) / 2 -> y = (bTop b + bBottom b) / 2 -> has b x y Number
| has_side : x = bLeft b \/ x = bRight b -> bTop b < y < bBottom b -> has b x y Side
| has_edge : y = bTop b \/ y = bBottom b -> bLeft b < x < bRight b -> has b x y Edge
| has_low : x = bLeft b \/ x = bRight b -> y = bBottom b -> has b x y LowCorner
| has_high : x = bLeft b \/ x = bRight b -> y = bTop b -> has b x y HighCorner.
(** a number hides the rest, a low corner hides a high one; the rest never meet *)
Definition hides (g h : glyph) : Prop := g = Number /\ h <> Number \/ g = LowCorner /\ h = HighCorner.
Definition top_glyph (b : box) (x y : Z) (g : glyph) : Prop := has b x y g /\ forall h, has b x y h -> ~ hides h g.
(** [shows i g s]: how the glyph looks for the area number [i] *)
Inductive looks (i : Z) : glyph -> text -> Prop :=
| looks_number s : Forall (fun c => 48 <= c < 58) s -> undec s = i -> hd 48 s <> 48 \/ s = [48] -> looks i Number s
| looks_side : looks i Side (asc "|")
| looks_edge : looks i Edge (asc "-")
| looks_low : looks i LowCorner (asc "'")
| looks_high : looks i HighCorner (asc ".").
(** the last area that shows something there wins *)
Definition cell_shows (boxes : list box) (x y : Z) (s : text) : Prop :=
  (exists a b r g, boxes = a ++ b :: r /\ top_glyph b x y g /\ looks (zlen a) g s /\ forall c h, In c r -> ~ has c x y h) \/
  (s = asc " " /\ forall c h, In c boxes -> ~ has c x y h).
(** the first and the last line *)
Definition border (c : Z) : text := [c] ++ rep 61 34 ++ [c].
(** an alignment as it is stored in files: one flag for each direction *)
Definition standard (a : Z) : Prop :=
  exists h v, In h [A_LEFT; A_RIGHT; A_HCENTER] /\ In v [A_TOP; A_BOTTOM; A_VCENTER] /\ a = Z.lor h v.

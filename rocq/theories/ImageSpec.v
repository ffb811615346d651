(** * What an image shows, independently of how it is computed *)
From Verif Require Import PyBase ImageModel.

(** a five-bit channel widened to eight bits: its bits followed by its highest three *)
Definition wide (v : Z) : Z := 8 * v + v / 4.
(** the bytes R, G, B, A of the pixel in column x and row y *)
Definition pixel_at (img : image) (x y : Z) : bytes := slice (iData img) (4 * (y * iWidth img + x)) (4 * (y * iWidth img + x) + 4).
(** red, green, blue of five bits; alpha of one bit (or any number, taken as set when not 0) or of five *)
Definition channels_ok (aBits : Z) (c : rgba) : Prop :=
  let '(r, g, b, a) := c in 0 <= r < 32 /\ 0 <= g < 32 /\ 0 <= b < 32 /\ (aBits = 5 -> 0 <= a < 32).
Definition shown (aBits : Z) (c : rgba) : bytes :=
  let '(r, g, b, a) := c in [wide r; wide g; wide b; if aBits =? 1 then (if a =? 0 then 0 else 255) else wide a].
(** an image of the right size *)
Definition sized (img : image) (w h : Z) : Prop := iWidth img = w /\ iHeight img = h /\ zlen (iData img) = 4 * (w * h).

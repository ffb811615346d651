(** * The picture that palette, tile and tile map files describe (for C117)

    [half] and [byte] are the numbers at a place of a file, [ViewGfxSpec.pixel f d k n]
    is the value of pixel [n] of tile [k] of the tile file [d]. *)
From Verif Require Import PyBase Gfx2DModel ImageModel RomSpec ViewSpec ViewGfxSpec ImageSpec.

Definition tile_count (f : imgfmt) (td : bytes) : Z := zlen td / match f with FI4 => 32 | FI8 => 64 end.
Definition palette_size (f : imgfmt) : Z := match f with FI4 => 16 | FI8 => 256 end.

(** red, green, blue and alpha of a pixel of value [v] that uses palette number [p] *)
Definition shade (f : imgfmt) (pal : bytes) (p v : Z) : bytes :=
  if v =? 0 then [0; 0; 0; 0]
  else let h := half pal (2 * (palette_size f * p + v)) in [wide (h mod 32); wide (h / 32 mod 32); wide (h / 1024 mod 32); 255].
(** all the colours a tile needs are there *)
Definition coloured (f : imgfmt) (pal td : bytes) (k : nat) (p : Z) : Prop :=
  forall n, (n < 64)%nat -> pixel f td k n <> 0 -> palette_size f * p + pixel f td k n < zlen pal / 2.

(** ** sheets of tiles, [W] tiles wide *)
Definition sheet_pixel (f : imgfmt) (pal td : bytes) (p W X Y : Z) : bytes :=
  shade f pal p (pixel f td (Z.to_nat (Y / 8 * W + X / 8)) (Z.to_nat (8 * (Y mod 8) + X mod 8))).

(** ** tile maps, [W] entries wide, whose tile numbers start at [off] *)
Definition map_entry (md : bytes) (W X Y : Z) : Z := half md (2 * (Y / 8 * W + X / 8)).
Definition map_pixel (f : imgfmt) (pal td md : bytes) (W off X Y : Z) : bytes :=
  let h := map_entry md W X Y in
  let x := if h / 1024 mod 2 =? 1 then 7 - X mod 8 else X mod 8 in
  let y := if h / 2048 mod 2 =? 1 then 7 - Y mod 8 else Y mod 8 in
  shade f pal (h / 4096) (pixel f td (Z.to_nat (h mod 1024 - off)) (Z.to_nat (8 * y + x))).
Definition drawable (f : imgfmt) (pal td : bytes) (off n p : Z) : Prop :=
  off <= n < off + tile_count f td /\ coloured f pal td (Z.to_nat (n - off)) p.
(** with one byte for each entry *)
Definition map8_pixel (f : imgfmt) (pal td md : bytes) (W off X Y : Z) : bytes :=
  shade f pal 0 (pixel f td (Z.to_nat (byte md (Y / 8 * W + X / 8) - off)) (Z.to_nat (8 * (Y mod 8) + X mod 8))).

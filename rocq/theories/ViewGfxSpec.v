(** * What arbitrary palettes, tiles and tile maps mean (for C116) *)
From Verif Require Import PyBase ColorModel Gfx2DModel RomSpec ViewSpec.

(** 5 bits of red, green and blue and 1 of alpha, from the lowest bit on *)
Definition colour (h : Z) : ColorModel.color := C4 (h mod 32) (h / 32 mod 32) (h / 1024 mod 32) (h / 32768).
Definition colours (d : bytes) : list ColorModel.color := map (fun i => colour (half d (2 * Z.of_nat i))) (seq 0 (Z.to_nat (zlen d / 2))).

(** pixel [n] of tile [k]: of two pixels in a byte the low four bits are the left one *)
Definition pixel (f : imgfmt) (d : bytes) (k n : nat) : Z :=
  match f with
  | FI4 => let b := byte d (32 * Z.of_nat k + Z.of_nat n / 2) in if Z.of_nat n mod 2 =? 0 then b mod 16 else b / 16
  | FI8 => byte d (64 * Z.of_nat k + Z.of_nat n)
  end.
Definition tiles_in (f : imgfmt) (d : bytes) : list itile :=
  map (fun k => {| tPixels := map (pixel f d k) (seq 0 64); tFormat := f |}) (seq 0 (Z.to_nat (zlen d / match f with FI4 => 32 | FI8 => 64 end))).

(** a 16-bit entry: 10 bits of tile number, flips, 4 bits of palette number *)
Definition entry (h : Z) : mtile :=
  {| mFormat := M16; mTileNum := h mod 1024; mHFlip := h / 1024 mod 2 =? 1; mVFlip := h / 2048 mod 2 =? 1; mPalette := h / 4096 |}.
(** an 8-bit entry is a tile number *)
Definition entry8 (b : Z) : mtile := {| mFormat := M8; mTileNum := b; mHFlip := false; mVFlip := false; mPalette := 0 |}.
Definition entries_in (d : bytes) : list mtile := map (fun i => entry (half d (2 * Z.of_nat i))) (seq 0 (Z.to_nat (zlen d / 2))).

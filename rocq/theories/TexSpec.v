(** * What a rendered texture looks like, pixel by pixel

    Independent of the loops of texture.py: the colour of the pixel in column [X],
    row [Y] as a function of the texture's data and the palette, a list of 16-bit
    colours. *)
From Verif Require Import PyBase ColorModel.

(** a 16-bit colour with another alpha: 5 bits each of red, green and blue *)
Definition rgb (v a : Z) : color := C4 (v mod 32) (v / 32 mod 32) (v / 1024 mod 32) a.
(** the weighted mean, channel by channel, rounded down *)
Definition mix (a b n v0 v1 : Z) : color :=
  C4 ((a * (v0 mod 32) + b * (v1 mod 32)) / n) ((a * (v0 / 32 mod 32) + b * (v1 / 32 mod 32)) / n) ((a * (v0 / 1024 mod 32) + b * (v1 / 1024 mod 32)) / n) 31.
(** a palette index; index 0 may be transparent *)
Definition indexed (pal : list Z) (c0 : bool) (i : Z) : res color :=
  c <- get pal i ;; Ok (rgb c (if (i =? 0) && c0 then 0 else 31)).
(** a texel of the 4x4-block format: [mode] 0..3, [base] the first palette index *)
Definition texel_color (pal : list Z) (base mode sub : Z) : res color :=
  let direct := c <- get pal (base + sub) ;; Ok (rgb c 31) in
  let mixed a b n := c0 <- get pal base ;; c1 <- get pal (base + 1) ;; Ok (mix a b n c0 c1) in
  match sub, mode with
  | 2, 1 => mixed 1 1 2
  | 2, 3 => mixed 5 3 8
  | 3, 0 => Ok (C4 0 0 0 0)
  | 3, 1 => Ok (C4 0 0 0 0)
  | 3, 3 => mixed 3 5 8
  | _, _ => direct
  end.
Definition pixel (fmt : Z) (d1 d2 : bytes) (w : Z) (pal : list Z) (c0 : bool) (X Y : Z) : res color :=
  let p := Y * w + X in
  match fmt with
  | 1 => v <- get d1 p ;; c <- get pal (v mod 32) ;; Ok (rgb c (4 * (v / 32) + v / 32 / 2))
  | 2 => v <- get d1 (p / 4) ;; indexed pal c0 (v / 4 ^ (X mod 4) mod 4)
  | 3 => v <- get d1 (p / 2) ;; indexed pal c0 (v / 16 ^ (X mod 2) mod 16)
  | 4 => v <- get d1 p ;; indexed pal c0 v
  | 5 => let block := Y / 4 * (w / 4) + X / 4 in
         lo <- get d2 (2 * block) ;;
         hi <- get d2 (2 * block + 1) ;;
         v <- get d1 (4 * block + Y mod 4) ;;
         texel_color pal (2 * ((lo + 256 * hi) mod 16384)) (hi / 64) (v / 4 ^ (X mod 4) mod 4)
  | 6 => v <- get d1 p ;; c <- get pal (v mod 8) ;; Ok (rgb c (v / 8))
  | 7 => lo <- get d1 (2 * p) ;; hi <- get d1 (2 * p + 1) ;; Ok (rgb (lo + 256 * hi) (if 128 <=? hi then 31 else 0))
  | _ => Err ValueError
  end.
(** the sizes a format can have: whole bytes per row, or whole blocks *)
Definition size_fits (fmt w h : Z) : Prop :=
  0 <= w /\ 0 <= h /\ match fmt with 2 => w mod 4 = 0 | 3 => w mod 2 = 0 | 5 => w mod 4 = 0 /\ h mod 4 = 0 | _ => True end.

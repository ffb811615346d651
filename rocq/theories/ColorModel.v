(** * Model of ndspy/color.py *)
From Verif Require Import PyBase.

(** ColorFormat (color.py:58-67) *)
Inductive colorFormat : Set := INT_16 | BYTES_2 | RGB5A1 | RGB5A5 | RGBA255.

(** ColorTuple (color.py:70) *)
Record color := C4 { cr : Z; cg : Z; cb : Z; ca : Z }.

(** a colour in one of the formats *)
Inductive cval : Set :=
| VInt (v : Z)
| VBytes (b0 b1 : Z)
| VTup (c : color).

Definition exp5 (v : Z) : Z := Z.lor (Z.shiftl v 3) (Z.shiftr v 2).   (* v << 3 | v >> 2 *)
Definition con5 (v : Z) : Z := Z.shiftl (v + 4) 2 / 33.               (* ((v + 4) << 2) // 33 *)
Definition truthy (v : Z) : bool := negb (v =? 0).

(** the final step (color.py:257-262): [bytes([...])] raises ValueError out of range *)
Definition fin (to_ : colorFormat) (v : Z) : res cval :=
  match to_ with
  | INT_16 => Ok (VInt v)
  | _ => b <- to_bytes [Z.land v 0xFF; Z.shiftr v 8] ;;
         match b with [x; y] => Ok (VBytes x y) | _ => Err ValueError end
  end.

(** the INT_16 branch (color.py:160-187) *)
Definition convert_int (x : Z) (to_ : colorFormat) : res cval :=
  match to_ with
  | INT_16 => Ok (VInt x)
  | BYTES_2 => fin BYTES_2 x
  | _ =>
    let r := Z.land x 0x1F in
    let g := Z.land (Z.shiftr x 5) 0x1F in
    let b := Z.land (Z.shiftr x 10) 0x1F in
    let a := Z.shiftr x 15 in
    match to_ with
    | RGB5A1 => Ok (VTup (C4 r g b a))
    | RGB5A5 => Ok (VTup (C4 r g b (if truthy a then 0x1F else 0)))
    | _ => Ok (VTup (C4 (exp5 r) (exp5 g) (exp5 b) (if truthy a then 255 else 0)))
    end
  end.

Definition packTuple (r g b a : Z) : Z :=
  Z.lor (Z.lor (Z.lor (Z.land r 0x1F) (Z.shiftl (Z.land g 0x1F) 5)) (Z.shiftl (Z.land b 0x1F) 10)) (Z.shiftl a 15).

(** [convert] (color.py:138-262).  A value that does not have the shape announced
    by [from_] is outside the model (Python would raise TypeError or similar). *)
Definition convert (x : cval) (from_ to_ : colorFormat) : res cval :=
  match from_, x with
  | BYTES_2, VBytes b0 b1 => convert_int (Z.lor (Z.shiftl b1 8) b0) to_
  | INT_16, VInt v => convert_int v to_
  | RGB5A1, VTup c =>
    match to_ with
    | RGB5A1 => Ok (VTup c)
    | RGB5A5 => Ok (VTup (C4 (cr c) (cg c) (cb c) (if truthy (ca c) then 0x1F else 0)))
    | RGBA255 => Ok (VTup (C4 (exp5 (cr c)) (exp5 (cg c)) (exp5 (cb c)) (if truthy (ca c) then 255 else 0)))
    | _ => fin to_ (packTuple (cr c) (cg c) (cb c) (ca c))
    end
  | RGB5A5, VTup c =>
    match to_ with
    | RGB5A5 => Ok (VTup c)
    | RGB5A1 => Ok (VTup (C4 (cr c) (cg c) (cb c) (if 0x10 <=? ca c then 1 else 0)))
    | RGBA255 => Ok (VTup (C4 (exp5 (cr c)) (exp5 (cg c)) (exp5 (cb c)) (exp5 (ca c))))
    | _ => fin to_ (packTuple (cr c) (cg c) (cb c) (if 0x10 <=? ca c then 1 else 0))
    end
  | RGBA255, VTup c =>
    match to_ with
    | RGBA255 => Ok (VTup c)
    | RGB5A1 => Ok (VTup (C4 (con5 (cr c)) (con5 (cg c)) (con5 (cb c)) (if 0x80 <=? ca c then 1 else 0)))
    | RGB5A5 => Ok (VTup (C4 (con5 (cr c)) (con5 (cg c)) (con5 (cb c)) (con5 (ca c))))
    | _ => fin to_ (packTuple (con5 (cr c)) (con5 (cg c)) (con5 (cb c)) (if 0x80 <=? ca c then 1 else 0))
    end
  | _, _ => Err TypeError
  end.

(** color.py:269-276, 279-286 *)
Definition unpack (v : Z) : color :=
  C4 (Z.land v 0x1F) (Z.land (Z.shiftr v 5) 0x1F) (Z.land (Z.shiftr v 10) 0x1F) (Z.land (Z.shiftr v 15) 1).
Definition pack (r g b a : Z) : Z :=
  Z.lor (Z.lor (Z.lor (Z.land r 0x1F) (Z.shiftl (Z.land g 0x1F) 5)) (Z.shiftl (Z.land b 0x1F) 10)) (Z.shiftl (Z.land a 1) 15).

(** color.py:289-298, 301-309 *)
Definition unpack255 (v : Z) : color :=
  let c := unpack v in
  C4 (exp5 (cr c)) (exp5 (cg c)) (exp5 (cb c)) (if truthy (ca c) then 255 else 0).
Definition pack255 (r g b a : Z) : Z :=
  pack (con5 r) (con5 g) (con5 b) (if a <? 128 then 0 else 1).

(** color.py:312-319, 322-329 *)
Definition expand (r g b a : Z) : color :=
  C4 (exp5 r) (exp5 g) (exp5 b) (if truthy a then 255 else 0).
Definition contract (r g b a : Z) : color :=
  C4 (con5 r) (con5 g) (con5 b) (if a <? 128 then 0 else 1).

(** color.py:332-336, 339-344 *)
Definition load (data : bytes) : res color :=
  b1 <- get data 1 ;; b0 <- get data 0 ;; Ok (unpack (Z.lor (Z.shiftl b1 8) b0)).
Definition save (r g b a : Z) : res bytes :=
  let v := pack r g b a in to_bytes [Z.land v 0xFF; Z.shiftr v 8].

(** loadPalette / savePalette (color.py:347-352, 364-369) *)
Definition loadPalette (data : bytes) : res (list color) :=
  vs <- mapM (fun i => unpack_u 2 data (2 * i)) (range_z 0 (Z.to_nat (zlen data / 2))) ;;
  Ok (map unpack vs).
Definition savePalette (colors : list color) : res bytes :=
  bs <- mapM (fun c => pack_u 2 (pack (cr c) (cg c) (cb c) (ca c))) colors ;; Ok (concat bs).

(** one row [i] of the lookup tables of [prepareLUTs] (color.py:92-115) *)
Definition lut_unpacked (i : Z) : color :=
  C4 (Z.land i 0x1F) (Z.land (Z.shiftr i 5) 0x1F) (Z.land (Z.shiftr i 10) 0x1F) (Z.land (Z.shiftr i 15) 1).
Definition lut_unpacked255 (i : Z) : color :=
  let c := lut_unpacked i in
  C4 (exp5 (cr c)) (exp5 (cg c)) (exp5 (cb c)) (if truthy (ca c) then 255 else 0).
Definition word4 (a b c d : Z) : Z :=
  Z.lor (Z.lor (Z.lor (Z.shiftl a 24) (Z.shiftl b 16)) (Z.shiftl c 8)) d.
Definition lut_rgba (i : Z) : Z := let c := lut_unpacked255 i in word4 (cr c) (cg c) (cb c) (ca c).
Definition lut_argb (i : Z) : Z := let c := lut_unpacked255 i in word4 (ca c) (cr c) (cg c) (cb c).
Definition lut_bgra (i : Z) : Z := let c := lut_unpacked255 i in word4 (cb c) (cg c) (cr c) (ca c).
Definition lut_abgr (i : Z) : Z := let c := lut_unpacked255 i in word4 (ca c) (cb c) (cg c) (cr c).

(** * Model of ndspy/bnbl.py and ndspy/bncl.py *)
From Coq Require Import String.
From Verif Require Import PyBase CommonModel.

(** BNBLTouchArea (bnbl.py:17-55) *)
Record touchArea := { taX : Z; taY : Z; taW : Z; taH : Z; taAlign : Z }.
(** fromData (bnbl.py:26-30) *)
Definition touchArea_fromData (data : bytes) : res touchArea :=
  xPack <- unpack_u 2 data 0 ;; yPack <- unpack_u 2 data 2 ;;
  w <- unpack_u 1 data 4 ;; h <- unpack_u 1 data 5 ;;
  let '(x, y, align) := unpackAlignmentFromPos xPack yPack in
  Ok {| taX := x; taY := y; taW := w; taH := h; taAlign := align |}.
(** save (bnbl.py:39-42) *)
Definition touchArea_save (t : touchArea) : res bytes :=
  let '(xPack, yPack) := packAlignmentIntoPos (taX t) (taY t) (taAlign t) in
  pack_us [(2%nat, xPack); (2%nat, yPack); (1%nat, taW t); (1%nat, taH t)].
(** getTopLeft (bnbl.py:33-36) *)
Definition touchArea_topLeft (t : touchArea) : Z * Z :=
  getTopLeftOfAlignedRect (taX t) (taY t) (taW t) (taH t) (taAlign t).

(** BNBL (bnbl.py:58-104) *)
Record bnbl := { blUnk04 : Z; blAreas : list touchArea }.
(** _initFromData (bnbl.py:67-75) *)
Definition bnbl_load (data : bytes) : res bnbl :=
  _ <- guard (beq (slice_to data 4) (asc "JNBL")) ValueError ;;
  unk04 <- unpack_u 2 data 4 ;; num <- unpack_u 2 data 6 ;;
  areas <- mapM (fun i => touchArea_fromData (slice data (8 + i * 6) (8 + i * 6 + 6))) (range_z 0 (Z.to_nat num)) ;;
  Ok {| blUnk04 := unk04; blAreas := areas |}.
(** save (bnbl.py:95-103) *)
Definition bnbl_save (b : bnbl) : res bytes :=
  h <- pack_us [(2%nat, blUnk04 b); (2%nat, zlen (blAreas b))] ;;
  bs <- mapM touchArea_save (blAreas b) ;;
  Ok (asc "JNBL" ++ h ++ concat bs).

(** BNCLImagePosition (bncl.py:17-48) *)
Record imagePosition := { ipX : Z; ipY : Z; ipAlign : Z; ipImageID : Z }.
(** fromData (bncl.py:25-29) *)
Definition imagePosition_fromData (data : bytes) : res imagePosition :=
  xPack <- unpack_u 2 data 0 ;; yPack <- unpack_u 2 data 2 ;; id <- unpack_u 4 data 4 ;;
  let '(x, y, align) := unpackAlignmentFromPos xPack yPack in
  Ok {| ipX := x; ipY := y; ipAlign := align; ipImageID := id |}.
(** save (bncl.py:32-35) *)
Definition imagePosition_save (p : imagePosition) : res bytes :=
  let '(xPack, yPack) := packAlignmentIntoPos (ipX p) (ipY p) (ipAlign p) in
  pack_us [(2%nat, xPack); (2%nat, yPack); (4%nat, ipImageID p)].

(** BNCL (bncl.py:52-97) *)
Record bncl := { clUnk04 : Z; clPositions : list imagePosition }.
(** _initFromData (bncl.py:60-68) *)
Definition bncl_load (data : bytes) : res bncl :=
  _ <- guard (beq (slice_to data 4) (asc "JNCL")) ValueError ;;
  unk04 <- unpack_u 2 data 4 ;; num <- unpack_u 2 data 6 ;;
  ps <- mapM (fun i => imagePosition_fromData (slice data (8 + i * 8) (8 + i * 8 + 8))) (range_z 0 (Z.to_nat num)) ;;
  Ok {| clUnk04 := unk04; clPositions := ps |}.
(** save (bncl.py:88-96) *)
Definition bncl_save (b : bncl) : res bytes :=
  h <- pack_us [(2%nat, clUnk04 b); (2%nat, zlen (clPositions b))] ;;
  bs <- mapM imagePosition_save (clPositions b) ;;
  Ok (asc "JNCL" ++ h ++ concat bs).

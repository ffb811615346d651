(** * Properties of BNBL and BNCL files (C25, C26) *)
From Coq Require Import String.
From Verif Require Import PyBase PyLemmas CommonModel CommonLemmas BnModel BnLemmas.

Theorem C25_bnbl_roundtrip : forall b,
  0 <= blUnk04 b < 65536 -> zlen (blAreas b) < 65536 -> Forall area_ok (blAreas b) ->
  exists d, bnbl_save b = Ok d /\ zlen d = 8 + 6 * zlen (blAreas b) /\ forall tail, bnbl_load (d ++ tail) = Ok b.
Proof. exact bnbl_roundtrip. Qed.
Print Assumptions C25_bnbl_roundtrip.
Theorem C25_bnbl_resave : forall d u n body,
  d = asc "JNBL" ++ le 2 u ++ le 2 (Z.of_nat n) ++ body -> 0 <= u < 65536 -> Z.of_nat n < 65536 ->
  zlen body = Z.of_nat n * 6 -> (forall i, 0 <= i < Z.of_nat n -> area_bytes_ok (slice body (i * 6) (i * 6 + 6))) ->
  exists b, bnbl_load d = Ok b /\ bnbl_save b = Ok d.
Proof. exact bnbl_resave. Qed.
Print Assumptions C25_bnbl_resave.
Theorem C25_bnbl_magic : forall d, slice_to d 4 <> asc "JNBL" -> bnbl_load d = Err ValueError.
Proof. exact bnbl_magic. Qed.
Print Assumptions C25_bnbl_magic.
Example C25_ex : bnbl_load [0x4A; 0x4E; 0x42; 0x4C; 7; 0; 1; 0; 0x23; 0x21; 0x56; 0x14; 30; 40] =
    Ok {| blUnk04 := 7; blAreas := [{| taX := 0x123; taY := 0x456; taW := 30; taH := 40; taAlign := 0x42 |}] |} /\
  bnbl_save {| blUnk04 := 7; blAreas := [{| taX := 0x123; taY := 0x456; taW := 30; taH := 40; taAlign := 0x42 |}] |} =
    Ok [0x4A; 0x4E; 0x42; 0x4C; 7; 0; 1; 0; 0x23; 0x21; 0x56; 0x14; 30; 40] /\
  bnbl_load (asc "XNBL") = Err ValueError.
Proof. vm_compute. repeat split; reflexivity. Qed.

Theorem C26_bncl_roundtrip : forall b,
  0 <= clUnk04 b < 65536 -> zlen (clPositions b) < 65536 -> Forall pos_ok (clPositions b) ->
  exists d, bncl_save b = Ok d /\ zlen d = 8 + 8 * zlen (clPositions b) /\ forall tail, bncl_load (d ++ tail) = Ok b.
Proof. exact bncl_roundtrip. Qed.
Print Assumptions C26_bncl_roundtrip.
Theorem C26_bncl_magic : forall d, slice_to d 4 <> asc "JNCL" -> bncl_load d = Err ValueError.
Proof. exact bncl_magic. Qed.
Print Assumptions C26_bncl_magic.
Example C26_ex : bncl_save {| clUnk04 := 0; clPositions := [{| ipX := 5; ipY := 6; ipAlign := 0x44; ipImageID := 0x01020304 |}] |} =
    Ok (asc "JNCL" ++ [0; 0; 1; 0; 5; 0x10; 6; 0x10; 4; 3; 2; 1]) /\
  pos_ok {| ipX := 5; ipY := 6; ipAlign := 0x44; ipImageID := 0x01020304 |}.
Proof. split; [vm_compute; reflexivity|]. unfold pos_ok, coord. cbn. repeat split; try lia; tauto. Qed.

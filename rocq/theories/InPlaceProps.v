(** * C125: compressed code can be unpacked in the memory it lies in *)
From Coq Require Import String.
From Verif Require Import PyBase LzModel LzSpec ViewSpec ViewLzSpec InPlaceSpec InPlace.
Local Open Scope Z_scope.

(** What [codeCompression.compress] returns, if it is compressed at all, is unpacked
    without ever writing over what has not been read, whatever lay in memory before:
    at the end the memory from the start of the file holds the data, nothing else has
    changed, and reading and writing have met where the compressed part began. *)
Theorem C125_in_place : forall data isArm9 c around,
  zlen data < 2 ^ 24 -> code_compress data isArm9 = Ok c -> slice_from c (-4) <> [0; 0; 0; 0] ->
  let s := unpack_in_place c around in
  unpacked data around s /\ src s = zlen c - comp_len c 0 /\ dst s = zlen c - comp_len c 0.
Proof. exact in_place. Qed.
Print Assumptions C125_in_place.

(** data where all but the start repeat: the compressor leaves the start alone *)
Definition mixed : bytes := asc "one two three four five six seven: " ++ rep 7 60.
Example C125_ex : exists c, code_compress mixed false = Ok c /\ slice_from c (-4) <> [0; 0; 0; 0] /\
  comp_len c 0 < zlen c /\ map (ram (unpack_in_place c (fun a => a))) (map Z.of_nat (seq 0 97)) = mixed ++ [95; 96].
Proof.
  eexists. split; [vm_compute; reflexivity|]. split; [vm_compute; discriminate|]. split; [vm_compute; reflexivity|vm_compute; reflexivity].
Qed.

(** Not every file that [decompress] takes has this property: here the data of the
    middle are written over before they are read. *)
Definition unsafe : bytes :=
  rev (written 3 [[Lit 1; Lit 2; Lit 3; Ref 18 3; Ref 18 3; Lit 4; Lit 5; Lit 6]; map Lit [7; 8; 9; 10; 11; 12; 13; 14]; map Lit [15; 16; 17; 18; 19; 20; 21; 22]])
  ++ rep 0xFF 3 ++ [40; 0; 0; 11; 18; 0; 0; 0].
Theorem C125_any_file_refuted : ~ (forall c data around, code_decompress c = Ok data -> slice_from c (-4) <> [0; 0; 0; 0] ->
  unpacked data around (unpack_in_place c around)).
Proof.
  intros H. assert (E : exists data, code_decompress unsafe = Ok data /\ forallb (fun a => ram (unpack_in_place unsafe (fun a => a)) a =? byte data a) (map Z.of_nat (seq 0 58)) = false /\ zlen data = 58).
  { eexists. split; [vm_compute; reflexivity|]. split; [vm_compute; reflexivity|vm_compute; reflexivity]. }
  destruct E as (data & E & F & L). destruct (H unsafe data (fun a => a) E ltac:(vm_compute; discriminate)) as [G _].
  enough (T : forallb (fun a => ram (unpack_in_place unsafe (fun a => a)) a =? byte data a) (map Z.of_nat (seq 0 58)) = true) by congruence.
  apply forallb_forall. intros a A. apply in_map_iff in A as (n & <- & A). apply in_seq in A. apply Z.eqb_eq, G. lia.
Qed.
Print Assumptions C125_any_file_refuted.
Example C125_unsafe_ex : exists data c, code_decompress unsafe = Ok data /\ code_compress data false = Ok c /\ slice_from c (-4) <> [0; 0; 0; 0] /\
  map (ram (unpack_in_place c (fun a => a))) (map Z.of_nat (seq 0 58)) = data.
Proof.
  eexists _, _. split; [vm_compute; reflexivity|]. split; [vm_compute; reflexivity|]. split; [vm_compute; discriminate|vm_compute; reflexivity].
Qed.

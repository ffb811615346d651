(** * C114: what arbitrary compressed data decompress to *)
From Verif Require Import PyBase PyLemmas RomSpec ViewSpec LzModel LzSpec ViewLzSpec ViewLz ViewLzAny ViewTexProps.

(** lz10.decompress accepts exactly the data that have a meaning, and returns it *)
Theorem C114_lz10 d r : is_bytes d -> (lz10_decompress d = Ok r <-> lz10_means d r).
Proof. apply lz10_iff. Qed.
Print Assumptions C114_lz10.
(** a literal 7, then a reference that reaches into what it puts out itself *)
Example C114_lz10_ex : lz10_means [0x10; 9; 0; 0; 0x40; 7; 0x50; 0] [7; 7; 7; 7; 7; 7; 7; 7; 7].
Proof. apply (C114_lz10 [0x10; 9; 0; 0; 0x40; 7; 0x50; 0]); [all_bytes|]. vm_compute. reflexivity. Qed.
(** a reference to before the start puts out zeros *)
Example C114_lz10_zeros : lz10_means [0x10; 4; 0; 0; 0xA0; 0; 0; 9] [0; 0; 0; 9].
Proof. split; [vm_compute; discriminate|split; [reflexivity|]]. apply Flags; [reflexivity..|]. apply (Reference _ _ _ _ _ _ [0; 0; 0]); [reflexivity|vm_compute; discriminate|split; [vm_compute; discriminate|reflexivity]|]. apply Literal; [reflexivity..|]. apply Full. reflexivity. Qed.

(** codeCompression.decompress returns plain data as they are, and compressed data's meaning *)
Theorem C114_code d r : is_bytes d ->
  (code_decompress d = Ok r <->
   (plain d /\ r = d) \/
   (exists a, appended d a /\
      ((extra_len d a = 0 /\ r = part d 0 (zlen d - a)) \/
       (extra_len d a <> 0 /\ exists r', code_means (part d 0 (zlen d - a)) r' /\ r = r' ++ part d (zlen d - a) a)))).
Proof. apply code_iff. Qed.
Print Assumptions C114_code.
(** four bytes passed through, then a literal, a reference of distance 3 and the rest
    of the end, then appended data: 5 6 7 8 are kept after the result *)
Definition packed : bytes := [1; 2; 3; 4] ++ rev [0x18; 9; 8; 7; 0xF0; 0; 0xF0; 0] ++ [16; 0; 0; 8; 23; 0; 0; 0].
Example C114_code_ex : code_decompress (packed ++ [5; 0; 0; 7]) = Ok ([1; 2; 3; 4] ++ rev (concat (repeat [9; 8; 7] 13)) ++ [5; 0; 0; 7]).
Proof. vm_compute. reflexivity. Qed.
Example C114_code_means : code_means packed ([1; 2; 3; 4] ++ rev (concat (repeat [9; 8; 7] 13))).
Proof.
  split; [vm_compute; discriminate|]. split; [vm_compute; discriminate|]. split; [intros i; change (zlen packed) with 20; change (end_len packed 0) with 8; lia|].
  exists (concat (repeat [9; 8; 7] 13)). split; [|reflexivity].
  apply Flags; [reflexivity..|]. do 3 (apply Literal; [reflexivity..|]). apply (Reference _ _ _ _ _ _ (concat (repeat [9; 8; 7] 7))); [reflexivity|vm_compute; discriminate|split; [vm_compute; discriminate|split; [vm_compute; discriminate|vm_compute; reflexivity]]|].
  apply (Reference _ _ _ _ _ _ (concat (repeat [9; 8; 7] 13))); [reflexivity|vm_compute; discriminate|split; [vm_compute; discriminate|split; [vm_compute; discriminate|vm_compute; reflexivity]]|]. apply Full. reflexivity.
Qed.
Example C114_plain_ex : plain [1; 2; 3; 4].
Proof. exists 0. repeat split; try lia; left; vm_compute; reflexivity. Qed.
(** When the eight bytes say that nothing is compressed, data appended to them are lost
    (codeCompression.py:76-78 returns without them). *)
Theorem C114_appended_refuted : ~ (forall d r, is_bytes d -> code_decompress d = Ok r -> zlen d <= zlen r).
Proof. intros H. specialize (H [0; 0; 0; 8; 0; 0; 0; 0; 1; 2; 3; 4] [0; 0; 0; 8; 0; 0; 0; 0] ltac:(all_bytes) eq_refl). apply H. vm_compute. reflexivity. Qed.
Print Assumptions C114_appended_refuted.

(** What any encoder writes in this format is read back, also references that reach into
    what they put out themselves, which ndspy's encoder never writes *)
Theorem C114_any_lz10 bs r tail : blocks_shape bs -> Forall (writable 1) (concat bs) -> tells [] (concat bs) r -> zlen r < 2 ^ 24 -> is_bytes tail ->
  lz10_decompress (0x10 :: le 3 (zlen r) ++ written 1 bs ++ tail) = Ok r.
Proof. apply any_lz10. Qed.
Print Assumptions C114_any_lz10.
Example C114_any_lz10_ex : blocks_shape [[Lit 7; Ref 8 1]] /\ Forall (writable 1) (concat [[Lit 7; Ref 8 1]]) /\ tells [] (concat [[Lit 7; Ref 8 1]]) (repeat 7 9).
Proof.
  split; [vm_compute; split; discriminate|]. split; [repeat constructor; vm_compute; intuition congruence|]. cbn [concat app]. constructor. apply (tells_ref _ _ _ (repeat 7 8)); [reflexivity| |vm_compute; discriminate|constructor].
  intros i I. assert (C : i = 0 \/ i = 1 \/ i = 2 \/ i = 3 \/ i = 4 \/ i = 5 \/ i = 6 \/ i = 7) by lia. repeat (destruct C as [->|C]; [reflexivity|]). rewrite C. reflexivity.
Qed.

(** the same of code: [pass] is passed through, [k] bytes FF may precede the last eight *)
Theorem C114_any_code pass bs r k : is_bytes pass -> blocks_shape bs -> Forall (writable 3) (concat bs) -> tells [] (concat bs) r -> 0 <= k < 248 ->
  let n := zlen (written 3 bs) + 8 + k in n < 2 ^ 24 -> n < zlen r < n + 2 ^ 32 ->
  code_decompress (pass ++ rev (written 3 bs) ++ repeat 0xFF (Z.to_nat k) ++ le 3 n ++ [8 + k] ++ le 4 (zlen r - n)) = Ok (pass ++ rev r).
Proof. apply any_code. Qed.
Print Assumptions C114_any_code.
Example C114_any_code_ex : let bs := [[Lit 9; Lit 8; Lit 7; Ref 18 3]] in
  blocks_shape bs /\ Forall (writable 3) (concat bs) /\ tells [] (concat bs) (concat (repeat [9; 8; 7] 7)) /\ zlen (written 3 bs) + 8 + 1 < 21 /\
  code_decompress ([1] ++ rev (written 3 bs) ++ [0xFF] ++ le 3 15 ++ [9] ++ le 4 6) = Ok ([1] ++ rev (concat (repeat [9; 8; 7] 7))).
Proof.
  split; [vm_compute; split; discriminate|]. split; [repeat constructor; vm_compute; intuition congruence|]. split; [|split; vm_compute; reflexivity]. cbn [concat app]. do 3 constructor. apply (tells_ref _ _ _ (concat (repeat [9; 8; 7] 6))); [reflexivity| |vm_compute; discriminate|constructor].
  intros i I. assert (G : forallb (fun i => byte (concat (repeat [9; 8; 7] 7)) (3 + i) =? byte (concat (repeat [9; 8; 7] 7)) (3 + i - 3)) (map Z.of_nat (seq 0 18)) = true) by (vm_compute; reflexivity).
  rewrite forallb_forall in G. apply Z.eqb_eq. apply G. apply in_map_iff. exists (Z.to_nat i). split; [lia|apply in_seq; lia].
Qed.

(** * C110: what an arbitrary sound bank is read as *)
From Coq Require Import String.
From Verif Require Import PyBase PyLemmas PyTac SbnkModel RomSpec ViewSpec ViewBankSpec ViewBank.

Ltac all_bytes := apply Forall_forall; intros ? I; match goal with |- is_byte ?x => match type of I with In x ?d =>
  let Q := fresh in pose proof (proj1 (forallb_forall (fun b => (0 <=? b) && (b <? 256)) d) ltac:(vm_compute; reflexivity) x I) as Q; cbv beta in Q; unfold is_byte; lia end end.

Theorem C110_read : forall order d u wars b, is_bytes d -> sbnk_load order d u wars = Ok b ->
  bank_shape d /\ bInsts b = map (instrument_at d) (seq 0 (Z.to_nat (word d 0x38))) /\ bUnk b = u /\
  bWars b = match wars with Some l => strip_none l | None => [] end.
Proof. intros order d u wars b B. exact (bank_read d B order u wars b). Qed.
Print Assumptions C110_read.
(** a file that is not shorter than its header says is accepted exactly if all listed
    instruments can be read, whatever lies between them *)
Theorem C110_accepted : forall order d u wars, is_bytes d -> word d 8 <= zlen d -> (exists b, sbnk_load order d u wars = Ok b) <-> bank_shape d.
Proof.
  intros order d u wars B L. split; [intros (b & H); apply (C110_read _ _ _ _ _ B H)|]. intros S. exact (bank_accepted d B order u wars S L).
Qed.
Print Assumptions C110_accepted.
(** the wave archives are those given, without the Nones at the end *)
Theorem C110_wars : forall order d u l b, is_bytes d -> sbnk_load order d u (Some l) = Ok b ->
  exists n, l = bWars b ++ repeat None n /\ (forall x, last (bWars b) (Some x) <> None).
Proof.
  intros order d u l b B H. apply C110_read in H as (_ & _ & _ & ->); [|exact B].
  induction l as [|x l (n & E & N)]; [exists 0%nat; split; [reflexivity|discriminate]|]. cbn [strip_none]. destruct (strip_none l) as [|y r] eqn:SN.
  - destruct x as [x|]; [exists n; split; [cbn [app]; f_equal; exact E|discriminate]|]. exists (Datatypes.S n). split; [cbn [app repeat]; f_equal; exact E|discriminate].
  - exists n. split; [cbn [app]; f_equal; exact E|]. intros v. destruct x; exact (N v).
Qed.
Print Assumptions C110_wars.

(** one table with instruments that share bytes: a range whose second note definition is
    also listed as a single note of type 5, a regional instrument with two regions, a
    range that ends before it starts, and nothing *)
Definition odd_bank (size : Z) : bytes := asc "SBNK" ++ [0xFF; 0xFE; 0; 1] ++ le 4 size ++ le 2 16 ++ le 2 1 ++ asc "DATA" ++ le 4 0 ++ repeat 0 32 ++ le 4 5 ++
  [16] ++ le 2 0x50 ++ [0] ++ [5] ++ le 2 0x60 ++ [0] ++ [17] ++ le 2 0x6A ++ [0] ++ [16] ++ le 2 0x50 ++ [9] ++ [0; 1; 2; 3] ++
  [60; 61] ++ le 2 1 ++ le 2 7 ++ le 2 8 ++ [1; 2; 3; 4; 5; 6] ++ le 2 1 ++ le 2 9 ++ le 2 0 ++ [60; 127; 127; 127; 127; 64] ++
  [60; 127; 0; 9; 0; 0; 0; 0] ++ le 2 1 ++ le 2 7 ++ le 2 8 ++ [1; 2; 3; 4; 5; 6] ++ le 2 2 ++ le 2 3 ++ le 2 0 ++ [6; 5; 4; 3; 2; 1].
Example C110_ex : is_bytes (odd_bank 0x8A) /\ word (odd_bank 0x8A) 8 <= zlen (odd_bank 0x8A) /\ exists b, sbnk_load [1; 16; 17] (odd_bank 0x8A) 3 (Some [Some 2; None; Some 1; None]) = Ok b /\
  map (option_map iBody) (bInsts b) =
  [Some (Ranged 60 [{| nWave := 7; nArch := 8; nPitch := 1; nAttack := 2; nDecay := 3; nSustain := 4; nRelease := 5; nPan := 6; nType := 1 |};
                    {| nWave := 9; nArch := 0; nPitch := 60; nAttack := 127; nDecay := 127; nSustain := 127; nRelease := 127; nPan := 64; nType := 1 |}]);
   Some (Single {| nWave := 9; nArch := 0; nPitch := 60; nAttack := 127; nDecay := 127; nSustain := 127; nRelease := 127; nPan := 64; nType := 5 |});
   Some (Regional [(60, {| nWave := 7; nArch := 8; nPitch := 1; nAttack := 2; nDecay := 3; nSustain := 4; nRelease := 5; nPan := 6; nType := 1 |});
                   (127, {| nWave := 3; nArch := 0; nPitch := 6; nAttack := 5; nDecay := 4; nSustain := 3; nRelease := 2; nPan := 1; nType := 2 |})]);
   Some (Ranged 60 [{| nWave := 7; nArch := 8; nPitch := 1; nAttack := 2; nDecay := 3; nSustain := 4; nRelease := 5; nPan := 6; nType := 1 |};
                    {| nWave := 9; nArch := 0; nPitch := 60; nAttack := 127; nDecay := 127; nSustain := 127; nRelease := 127; nPan := 64; nType := 1 |}]);
   None] /\ bWars b = [Some 2; None; Some 1].
Proof. split; [all_bytes|]. split; [vm_compute; discriminate|]. eexists. split; [vm_compute; reflexivity|]. split; vm_compute; reflexivity. Qed.
(** with a size in the header that is too large the search for unlisted instruments
    reads behind the end *)
Theorem C110_size_refuted : ~ (forall order d u wars, is_bytes d -> bank_shape d -> exists b, sbnk_load order d u wars = Ok b).
Proof.
  intros H. set (d := asc "SBNK" ++ [0xFF; 0xFE; 0; 1] ++ le 4 0x60 ++ le 2 16 ++ le 2 1 ++ asc "DATA" ++ le 4 0 ++ repeat 0 32 ++ le 4 0).
  assert (B : is_bytes d) by all_bytes. destruct (H [1; 16; 17] d 0 None B) as (b & E).
  - split; [split; [vm_compute; discriminate|split; [vm_compute; reflexivity|split; vm_compute; reflexivity]]|]. split; [vm_compute; discriminate|]. split; [vm_compute; discriminate|]. intros j J. change (word d 0x38) with 0 in J. lia.
  - vm_compute in E. discriminate E.
Qed.
Print Assumptions C110_size_refuted.

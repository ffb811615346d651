(** * C108, C109: what arbitrary sequence files, sequence archives and sound archives
    are read as *)
From Coq Require Import String.
From Verif Require SdatProps.
From Verif Require Import PyBase PyLemmas PyTac SeqModel SsarModel WaveModel SbnkModel SdatModel RomSpec SdatSpec ViewSpec ViewSdatSpec ViewSdat ViewSdatAll.

Ltac all_bytes := apply Forall_forall; intros ? I; match goal with |- is_byte ?x => match type of I with In x ?d =>
  let Q := fresh in pose proof (proj1 (forallb_forall (fun b => (0 <=? b) && (b <? 256)) d) ltac:(vm_compute; reflexivity) x I) as Q; cbv beta in Q; unfold is_byte; lia end end.

(** ** C108: SSEQ and SSAR files *)
(** the events are the bytes between the offset in the block and the size in the header *)
Theorem C108_sseq : forall d info s, is_bytes d -> sseq_load d info = Ok s <->
  0x1C <= zlen d /\ part d 0 4 = asc "SSEQ" /\ half d 6 = 0x100 /\
  s = {| qParsed := false; qEvents := []; qData := part d (word d 0x18) (word d 8 - word d 0x18); qInfo := info |}.
Proof. exact sseq_view. Qed.
Print Assumptions C108_sseq.
(** the last row may lack its two bytes of padding *)
Theorem C108_ssar : forall d u names r, is_bytes d -> ssar_load d u names = Ok r <->
  sound_head d "SSAR" "DATA" /\ 0x20 <= zlen d /\ (word d 0x1C = 0 \/ 0x20 + 12 * word d 0x1C <= zlen d + 2) /\
  r = {| rParsed := false; rEvents := []; rData := part d (word d 0x18) (word d 8 - word d 0x18);
         rSeqs := map (fun i => (nth i names None, archive_row d i)) (seq 0 (Z.to_nat (word d 0x1C))); rUnk := u |}.
Proof. exact ssar_view. Qed.
Print Assumptions C108_ssar.
(** an SSEQ whose size tells less than the file has, and whose magic of the block is
    not looked at *)
Definition odd_sseq : bytes := asc "SSEQ" ++ [0xFF; 0xFE; 0; 1] ++ le 4 0x1F ++ le 2 16 ++ le 2 1 ++ asc "what" ++ le 4 0 ++ le 4 0x1D ++ [1; 2; 3; 4; 5].
Definition odd_ssar : bytes := asc "SSAR" ++ [0xFF; 0xFE; 0; 1] ++ le 4 0x22 ++ le 2 16 ++ le 2 1 ++ asc "DATA" ++ le 4 0 ++ le 4 0x20 ++ le 4 2 ++
  le 4 0xFFFFFFFF ++ le 2 1 ++ [2; 3; 4; 5; 6; 7] ++ le 4 0x80000000 ++ le 2 9 ++ [8; 7; 6; 5].
Example C108_ex : is_bytes odd_sseq /\ is_bytes odd_ssar /\ (exists s, sseq_load odd_sseq (0, 0, 127, 64, 50, 0) = Ok s /\ qData s = [2; 3]) /\
  exists r, ssar_load odd_ssar 5 [Some [65]] = Ok r /\ rData r = [255; 255] /\
    rSeqs r = [(Some [65], {| aParsed := false; aFirst := None; aOffset := None; aParams := (1, 2, 3, 4, 5) |});
               (None, {| aParsed := false; aFirst := None; aOffset := Some (-0x80000000); aParams := (9, 8, 7, 6, 5) |})].
Proof.
  split; [all_bytes|]. split; [all_bytes|]. split; [eexists; split; vm_compute; reflexivity|]. eexists. split; [vm_compute; reflexivity|]. split; vm_compute; reflexivity.
Qed.

(** ** C109: SDAT files *)
Theorem C109_read : forall order d s, is_bytes d -> sdat_load order d = Ok s <-> sdat_shape d /\ sdat_view order d s.
Proof. exact sdat_iff. Qed.
Print Assumptions C109_read.
(** so two files that are read at all differ in the object only through what the view
    tells; in particular the object is determined by it *)
Theorem C109_determined : forall order d s s', is_bytes d -> sdat_shape d -> sdat_view order d s -> sdat_view order d s' -> s = s'.
Proof.
  intros order d s s' B S V V'. pose proof (proj2 (C109_read order d s B) (conj S V)) as H. pose proof (proj2 (C109_read order d s' B) (conj S V')) as H'. congruence.
Qed.
Print Assumptions C109_determined.
(** names that share their bytes, a name without an entry, files that overlap and run
    past the end *)
Definition odd_sdat : bytes :=
  asc "SDAT" ++ [0xFF; 0xFE; 0; 1] ++ le 4 0 ++ le 2 0x40 ++ le 2 4 ++ concat (map (le 4) [0x40; 0x40; 0x80; 0; 0xC0; 0; 0; 0]) ++ repeat 0 16 ++
  asc "SYMB" ++ concat (map (le 4) [0; 0x28; 0x28; 0x28; 0x28; 0x2C; 0x28; 0x28; 0x28; 0; 3; 0x3C; 0; 0x3D]) ++ [97; 98; 0; 0] ++
  asc "INFO" ++ concat (map (le 4) [0; 0x28; 0x28; 0x28; 0x28; 0x2C; 0x28; 0x28; 0x28; 0; 2; 0x38; 0]) ++ le 2 2 ++ le 2 0x8001 ++ le 4 7 ++
  asc "FAT " ++ concat (map (le 4) [0; 2; 0x100; 4; 0; 0; 0x102; 0x40; 0; 0]) ++ repeat 5 32.
Example C109_ex : is_bytes odd_sdat /\ exists s, sdat_load [] odd_sdat = Ok s /\
  dPlayers s = [(Some [97; 98], Some (2, [0; 15], 7)); (None, None); (Some [98], None)] /\
  (fileAlign s, firstAlign s, fatPad s, padEnd s, padSymb s) = (2, Some 0x100, false, true, true) /\ dSeqs s = [] /\ dArchs s = [].
Proof. split; [all_bytes|]. eexists. split; [vm_compute; reflexivity|]. do 3 (split; [vm_compute; reflexivity|]). vm_compute. reflexivity. Qed.
(** the file of C60, with objects of every kind *)
Example C109_ex_all : is_bytes SdatProps.ex_file /\ exists s, sdat_load [1; 16; 17] SdatProps.ex_file = Ok s /\ List.length (dSeqs s) = 4%nat /\ map fst (dWars s) = [Some [70]; Some [71]; Some [72]].
Proof. split; [all_bytes|]. eexists. split; [vm_compute; reflexivity|]. split; vm_compute; reflexivity. Qed.

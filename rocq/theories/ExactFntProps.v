(** * Filename tables that are reproduced byte for byte (C124) *)
From Coq Require Import String.
From Verif Require ViewFilesProps.
From Verif Require Import PyBase PyLemmas PyTac FntModel FntSpec FntLemmas FntProps NarcModel RomSpec ViewSpec ViewLemmas ViewProps EditSpec EditView ExactSpec ExactNarc ExactFntSpec ExactFnt ExactProps.
Import ViewFilesProps.

(** a filename table that was read is saved to the same bytes if it has the form the
    library writes, and only then *)
Theorem C124_filenames : forall depth d f, is_bytes d -> FntModel.load depth d = Ok f -> FntModel.save f = Ok d <-> exact_names d.
Proof.
  intros depth d f B H. apply C103_any_depth in H; [|exact B]. split; [|apply exact_saved; assumption].
  apply saved_exact; [exact B|]. apply (proj1 (read_named d B) _ _ H).
Qed.
Print Assumptions C124_filenames.
(** every table of that form is read, and then saved to the same bytes *)
Theorem C124_filenames_read : forall d, is_bytes d -> exact_names d -> exists f, FntModel.load 4096 d = Ok f /\ FntModel.save f = Ok d.
Proof.
  intros d B E. destruct (exact_denotes d B E) as (f & D). exists f. split; [apply C103_read; [exact B|lia|exact D]|apply exact_saved; assumption].
Qed.
Print Assumptions C124_filenames_read.
(** so a NARC archive is reproduced if its bytes are as follows, and only then *)
Theorem C124_archive_bytes : forall depth d n, is_bytes d -> narc_load depth d = Ok n ->
  narc_save n = Ok d <-> exists names, exact_names names /\ exact_narc d names.
Proof.
  intros depth d n B H. rewrite (C124_archive depth d n B H). pose proof (narc_denotes depth d n B H) as D.
  assert (BN : is_bytes (narc_names d)) by (apply is_bytes_part; exact B).
  assert (X : forall names, exact_narc d names -> exists fill, narc_names d = names ++ fill /\ is_bytes names).
  { intros names (_ & _ & _ & _ & _ & _ & (fill & E & _) & _). change (narc_names d = names ++ fill) in E. exists fill. split; [exact E|]. rewrite E in BN. apply is_bytes_app in BN as [BN _]. exact BN. }
  split; intros (names & S & E); exists names; (split; [|exact E]); destruct (X names E) as (fill & F & BB).
  - apply (saved_exact names (nFilenames n)); [exact BB| |exact S]. apply (proj1 (read_named _ BN) _ _ D).
  - destruct (exact_denotes names BB S) as (f & DF). pose proof (proj1 (denotes_app names fill BB) _ _ DF) as DF'. rewrite <- F in DF'. rewrite (denotes_fun _ _ _ _ BN D DF'). apply exact_saved; assumption.
Qed.
Print Assumptions C124_archive_bytes.

(** the tree of FntProps, four folders; and tables that denote the same folders, but
    have a byte after the end or a folder listed before a file *)
Definition same_table : bytes := match FntModel.save ex_tree with Ok d => d | Err _ => [] end.
Definition odd_table_end : bytes := same_table ++ [0].
(** a root with one empty folder "A" listed before the file "b" *)
Definition odd_table_order : bytes := le 4 16 ++ le 2 0 ++ le 2 2 ++ le 4 23 ++ le 2 1 ++ le 2 0xF000 ++ [0x81; 65; 1; 0xF0; 1; 98; 0] ++ [0].
Definition same_table_order : bytes := le 4 16 ++ le 2 0 ++ le 2 2 ++ le 4 23 ++ le 2 1 ++ le 2 0xF000 ++ [1; 98; 0x81; 65; 1; 0xF0; 0] ++ [0].
Example C124_ex_filenames :
  (is_bytes same_table /\ is_bytes odd_table_end /\ is_bytes odd_table_order /\ is_bytes same_table_order) /\
  zlen same_table = 77 /\ FntModel.load 9 same_table = Ok ex_tree /\ exact_names same_table /\ exact_names same_table_order /\
  FntModel.load 9 odd_table_end = Ok ex_tree /\ ~ exact_names odd_table_end /\
  FntModel.load 9 odd_table_order = FntModel.load 9 same_table_order /\ ~ exact_names odd_table_order.
Proof.
  assert (B : is_bytes same_table /\ is_bytes odd_table_end /\ is_bytes odd_table_order /\ is_bytes same_table_order) by (repeat split; all_bytes).
  split; [exact B|]. destruct B as (B1 & B2 & B3 & B4). split; [reflexivity|]. split; [vm_compute; reflexivity|].
  split; [apply (C124_filenames 9 same_table ex_tree B1); vm_compute; reflexivity|].
  destruct (FntModel.load 9 same_table_order) as [f|] eqn:E; [|vm_compute in E; discriminate].
  split; [apply (C124_filenames 9 same_table_order f B4 E); vm_compute in E; injection E as <-; vm_compute; reflexivity|].
  split; [vm_compute; reflexivity|]. split; [intro X; apply (C124_filenames 9 odd_table_end ex_tree B2) in X; [vm_compute in X; discriminate|vm_compute; reflexivity]|].
  assert (O : FntModel.load 9 odd_table_order = Ok f) by (rewrite <- E; vm_compute; reflexivity).
  split; [exact O|]. intro X. apply (C124_filenames 9 odd_table_order f B3 O) in X. vm_compute in E. injection E as <-. vm_compute in X. discriminate.
Qed.
(** the archive of ExactProps has such a table, of nine bytes *)
Example C124_ex_archive_bytes : exists names, zlen names = 9 /\ exact_names names /\ exact_narc same_narc names.
Proof.
  destruct (narc_load 9 same_narc) as [n|] eqn:E; [|vm_compute in E; discriminate]. assert (B : is_bytes same_narc) by all_bytes.
  destruct (proj1 (C124_archive 9 same_narc n B E)) as (names & S & X); [vm_compute in E; injection E as <-; vm_compute; reflexivity|].
  exists names. assert (Z9 : zlen names = 9 /\ is_bytes names) by (vm_compute in E; injection E as <-; vm_compute in S; injection S as <-; split; [reflexivity|all_bytes]). destruct Z9 as [Z9 BN].
  split; [exact Z9|]. split; [|exact X]. apply (saved_exact names (nFilenames n) BN); [|exact S]. apply (proj1 (read_named _ (is_bytes_part _ _ _ B)) _ _ (narc_denotes 9 same_narc n B E)).
Qed.

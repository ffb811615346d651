(** * C112: what an arbitrary model file is read as *)
From Coq Require Import String.
From Verif Require Import PyBase PyLemmas PyTac ColorModel TexModel NsbmdModel NsbmdProps RomSpec ViewSpec ViewTexSpec ViewTexProps ViewNsbmdSpec ViewNsbmd.

Theorem C112_read : forall d m, is_bytes d -> nsbmd_load d = Ok m <-> nsbmd_shape d /\ nsbmd_view d (block_count d) m.
Proof. intros d m B. exact (nsbmd_iff d B m). Qed.
Print Assumptions C112_read.
Theorem C112_accepted : forall d, is_bytes d -> (exists m, nsbmd_load d = Ok m) <-> nsbmd_shape d.
Proof.
  intros d B. split; [intros (m & H); apply nsbmd_iff in H; [apply H|exact B]|]. intros S. destruct (view_exists d (block_count d)) as (m & V); [apply S|]. exists m. apply nsbmd_iff; [exact B|]. split; assumption.
Qed.
Print Assumptions C112_accepted.
(** a block of models is accepted exactly if all tables and the heads of all polygons
    are there, whatever the commands of the polygons are *)
Theorem C112_models : forall d names, is_bytes d -> parse_mdl0 d = Ok names <-> mdl0_shape d /\ names = model_names d.
Proof. intros d names B. exact (mdl0_iff d B names). Qed.
Print Assumptions C112_models.

(** two blocks of models with one of textures between them *)
Definition three_blocks : bytes := asc "BMD0" ++ [0xFF; 0xFE] ++ le 2 2 ++ le 4 0 ++ le 2 16 ++ le 2 3 ++ le 4 28 ++ le 4 (28 + 24) ++ le 4 (28 + 24 + 216) ++
  (asc "MDL0" ++ le 4 24 ++ tab []) ++ nsbtx_block (two_palettes "p" "q") ++ demo_mdl0.
Example C112_ex : is_bytes three_blocks /\ exists m, nsbmd_load three_blocks = Ok m /\ nMDL0 m = Some demo_mdl0 /\ nModels m = Some [asc "tree"] /\ map fst (xPalettes (nTex m)) = [Some (asc "p"); Some (asc "q")] /\
  last_of three_blocks 3 (asc "MDL0") 2 /\ last_of three_blocks 3 (asc "TEX0") 1.
Proof.
  split; [all_bytes|]. eexists. split; [vm_compute; reflexivity|]. split; [vm_compute; reflexivity|]. split; [vm_compute; reflexivity|]. split; [vm_compute; reflexivity|].
  split; (split; [lia|]; split; [vm_compute; reflexivity|]); intros k K; [lia|]. assert (E : k = 2%nat) by lia. subst k. vm_compute. discriminate.
Qed.
(** without its last byte the second list of models still ends in the file, as the commands
    of polygons need not be there; without its last 24 bytes it does not *)
Example C112_models_ex : (exists names, parse_mdl0 (firstn 279 demo_mdl0) = Ok names) /\ (exists e, parse_mdl0 (firstn 256 demo_mdl0) = Err e).
Proof. split; eexists; vm_compute; reflexivity. Qed.

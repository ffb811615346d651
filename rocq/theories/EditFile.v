(** * One file of a ROM, or of an archive of a ROM, is exchanged (for C121) *)
From Verif Require Import PyBase PyLemmas PyTac FntModel LzModel RomModel NarcModel NarcLemmas NarcProps RomSpec RomEditSpec RomResave RomEditLemmas ViewSpec ViewLzSpec ViewLemmas ViewProps RomProps RomViewSpec RomView RomViewProps EditSpec EditView EditViewProps EditBmgSpec.

Lemma rom_exchange depth upd d r p c c' r' data r1 : is_bytes d -> 0x200 <= zlen d -> (1 <= depth)%nat -> rom_load depth d = Ok r -> writable_path p ->
  rom_getFileByName r (join_slash p) = Ok c -> is_bytes c' -> rom_setFileByName r (join_slash p) c' = Ok r' -> rom_save upd r' = Ok (data, r1) ->
  zlen (arm9PostData r) mod 12 = 0 -> ~ stored data (word data 0x20 + zlen (arm9 r) + zlen (arm9PostData r)) magic ->
  is_bytes c /\ exists id, exchanged d data p id c c'.
Proof.
  intros B L D H W GF BC' SF SV PM NM. destruct (C118_by_name depth d r p B L H W) as (GN & _). apply GN in GF as (id & F & HF & EC). split; [rewrite EC; apply is_bytes_part; exact B|].
  destruct (C119_rom depth upd d r [(p, c')] r' data r1 B L D H) as (h & E' & _ & R1 & R2 & _); [constructor; [split; assumption|constructor]| |exact SV|exact PM|exact NM|].
  { unfold rom_set_all. cbn [map foldM fst snd]. rewrite SF. reflexivity. }
  inversion E' as [|f0 p0 v0 ops0 id' g0 F' HF' E'' X1 X2 X3]; subst. inversion E'' as [f0 Y1 Y2 Y3|]; subst. assert (id' = id) as -> by (exact (found_once depth d r B L H p id' id F' F)).
  pose proof (name_nonneg depth d r B L H p id F) as I0. exists id. destruct (R2 id I0) as (Q0 & Q). split; [exact F|]. split; [apply R1; exact F|]. split; [exact HF|]. split; [apply Q0; exact HF|]. split; [reflexivity|]. split; [rewrite (Q HF), Z.eqb_refl; reflexivity|].
  intros i I NI HI. destruct (R2 i I) as (Q1 & Q2). split; [apply Q1; exact HI|]. rewrite (Q2 HI). rewrite (proj2 (Z.eqb_neq i id) NI). reflexivity.
Qed.
Lemma narc_exchange depth a n q f f' n' a' : is_bytes a -> narc_load depth a = Ok n -> writable_path q -> getFileByName n (join_slash q) = Ok f -> is_bytes f' ->
  setFileByName n (join_slash q) f' = Ok n' -> narc_save n' = Ok a' -> is_bytes f /\ is_bytes a' /\ exists k, exchanged_in a a' q k f f'.
Proof.
  intros B H W GF BF SF SV. destruct (C118_narc_by_name depth a n q B H W) as (GN & _). cbv zeta in GN. fold (narc_names a) in GN. apply GN in GF as (k & F & HK & EC).
  destruct (C119_narc depth a n [(q, f')] n' a' B H) as (g & E' & BA' & _ & R1 & R2 & R3 & _); [constructor; [split; assumption|constructor]| |exact SV|].
  { unfold set_all. cbn [map foldM fst snd]. rewrite SF. reflexivity. }
  pose proof (narc_denotes depth a n B H) as D. assert (BT : is_bytes (narc_names a)) by (apply is_bytes_part; exact B).
  inversion E' as [|f0 p0 v0 ops0 id' g0 F' HF' E'' X1 X2 X3]; subst. inversion E'' as [f0 Y1 Y2 Y3|]; subst.
  assert (id' = k) as ->. { apply (id_found _ q 0 _ D) in F, F'. congruence. }
  pose proof (found_nonneg _ _ _ _ BT F _ D) as K0. split; [unfold ViewSpec.narc_file; apply is_bytes_part; exact B|]. split; [exact BA'|]. exists k. split; [exact F|]. split; [apply R1; exact F|]. split; [lia|]. split; [exact R2|]. split; [reflexivity|].
  split; [rewrite (R3 k) by lia; rewrite Z.eqb_refl; reflexivity|]. intros i I N. rewrite (R3 i I), (proj2 (Z.eqb_neq i k) N). reflexivity.
Qed.

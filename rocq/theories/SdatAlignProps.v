(** * The alignment of a sound archive: its sign does not matter, zero cannot be saved *)
From Coq Require Import String.
From Verif Require Import PyBase PyLemmas WaveModel SsarModel SbnkModel SdatModel SdatSave SdatSpec SdatFat SdatLayout SdatProps RomSpec.

Definition with_align (s : sdat) (a : Z) : sdat :=
  {| dSeqs := dSeqs s; dArchs := dArchs s; dBanks := dBanks s; dWars := dWars s; dPlayers := dPlayers s; dGroups := dGroups s; dSPlayers := dSPlayers s; dStrms := dStrms s;
     fatPad := fatPad s; firstAlign := firstAlign s; fileAlign := a; padEnd := padEnd s; padSymb := padSymb s |}.

Lemma file_block_opp s a base fs : file_block (with_align s (- a)) base fs = file_block (with_align s a) base fs.
Proof.
  assert (G : forall n, gap (- a) n = gap a n) by (intros n; unfold gap; rewrite Z.abs_opp; destruct (Z.eqb_spec a 0), (Z.eqb_spec (- a) 0); try lia; reflexivity).
  unfold file_block. cbn [firstAlign padEnd fileAlign with_align]. destruct (match firstAlign s with None => Ok 0 | Some a => gap a (base + 0xC) end) as [g|]; cbn [bind]; [|reflexivity].
  assert (F : forall st, foldM (add_file (with_align s (- a)) (base + 0xC)) st fs = foldM (add_file (with_align s a) (base + 0xC)) st fs).
  { induction fs as [|f fs IH]; intros st; cbn [foldM]; [reflexivity|]. assert (E : add_file (with_align s (- a)) (base + 12) st f = add_file (with_align s a) (base + 12) st f) by (unfold add_file; destruct st as [d fat]; cbn [fileAlign fatPad with_align]; rewrite !G; reflexivity).
    rewrite E. destruct (add_file (with_align s a) (base + 12) st f); cbn [bind]; [apply IH|reflexivity]. }
  rewrite F. destruct (foldM _ _ fs) as [[d fat]|]; cbn [bind]; [|reflexivity]. rewrite G. reflexivity.
Qed.
Lemma save_align s a b : (forall base fs, file_block (with_align s a) base fs = file_block (with_align s b) base fs) -> sdat_save (with_align s a) = sdat_save (with_align s b).
Proof.
  intros E. unfold sdat_save. change (symbols (with_align s a)) with (symbols (with_align s b)). change (info_block (with_align s a)) with (info_block (with_align s b)). change (padSymb (with_align s a)) with (padSymb (with_align s b)).
  destruct (symbols (with_align s b)) as [y|]; cbn [bind]; [|reflexivity]. destruct (symb_block _ y) as [sb|]; cbn [bind]; [|reflexivity]. cbv zeta.
  destruct (info_block (with_align s b)) as [[info fs]|]; cbn [bind]; [|reflexivity]. destruct (pack_us [(4%nat, 12 + 16 * zlen fs); (4%nat, zlen fs)]); cbn [bind]; [|reflexivity]. rewrite E. reflexivity.
Qed.
(** fileAlignment = -a does what fileAlignment = a does *)
Theorem C44_alignment_sign : forall s a, sdat_save (with_align s (- a)) = sdat_save (with_align s a).
Proof. intros s a. apply save_align. intros. apply file_block_opp. Qed.
Print Assumptions C44_alignment_sign.

(** an archive that can be saved with some alignment cannot be saved with alignment 0,
    unless it has no files and no padding at the end *)
Theorem C44_alignment_zero : forall s a d, sdat_save (with_align s a) = Ok d ->
  padEnd s = true \/ (exists k j f m, saves_as s k j f m) -> sdat_save (with_align s 0) = Err ZeroDivisionError.
Proof.
  intros s a d H P.
  assert (Q : sdat_save (with_align s 0) = Err ZeroDivisionError \/ padEnd s = false /\ sdat_save (with_align s 0) = Ok d).
  { unfold sdat_save in *. change (symbols (with_align s a)) with (symbols (with_align s 0)) in H. change (info_block (with_align s a)) with (info_block (with_align s 0)) in H. change (padSymb (with_align s a)) with (padSymb (with_align s 0)) in H.
    destruct (symbols (with_align s 0)) as [y|]; cbn [bind] in *; [|discriminate H]. destruct (symb_block _ y) as [sb|]; cbn [bind] in *; [|discriminate H]. cbv zeta in *.
    destruct (info_block (with_align s 0)) as [[info fs]|]; cbn [bind] in *; [|discriminate H]. destruct (pack_us [(4%nat, 12 + 16 * zlen fs); (4%nat, zlen fs)]); cbn [bind] in *; [|discriminate H].
    match type of H with context [file_block _ ?b fs] => set (base := b) in * end.
    assert (F : file_block (with_align s 0) base fs = Err ZeroDivisionError \/ padEnd s = false /\ file_block (with_align s 0) base fs = file_block (with_align s a) base fs).
    { unfold file_block in *. cbn [firstAlign padEnd fileAlign with_align] in *. destruct (match firstAlign s with None => Ok 0 | Some a => gap a (base + 0xC) end) as [g|]; cbn [bind] in *; [|discriminate H].
      destruct fs as [|f fs]; cbn [foldM bind] in *; [|left; reflexivity]. destruct (padEnd s); [left; reflexivity|right; split; reflexivity]. }
    destruct F as [F|[F1 F]]; rewrite F; [left; reflexivity|right; split; [exact F1|exact H]]. }
  destruct Q as [Q|[Q1 Q]]; [exact Q|]. exfalso. destruct P as [P|(k & j & f & m & S)]; [congruence|].
  destruct (sdat_save_inv _ d Q) as (y & bss & FS & o1 & o2 & o3 & SV). assert (S' : saves_as (with_align s 0) k j f m) by exact S.
  pose proof (id_range _ d y bss FS o1 o2 o3 SV _ _ _ _ S') as R. rewrite (count_files _ d y bss FS o1 o2 o3 SV) in R.
  destruct (sv_align _ _ _ _ _ _ _ _ SV) as [E|E]; [subst FS; change (zlen (@nil (bytes * Z))) with 0 in R; lia|]. unfold align_ in E. cbn [fileAlign with_align] in E. lia.
Qed.
Print Assumptions C44_alignment_zero.
Definition one_seq : sdat :=
  {| dSeqs := [(None, Some (3, sseq_new (0, 0, 127, 64, 50, 0)))]; dArchs := []; dBanks := []; dWars := []; dPlayers := []; dGroups := []; dSPlayers := []; dStrms := [];
     fatPad := false; firstAlign := None; fileAlign := 0x20; padEnd := false; padSymb := false |}.
Example C44_alignment_ex : with_align sdat_new 0x20 = sdat_new /\ (exists d, sdat_save (with_align sdat_new 0x20) = Ok d /\ sdat_save (with_align sdat_new (-0x20)) = Ok d) /\
  padEnd sdat_new = true /\ sdat_save (with_align sdat_new 0) = Err ZeroDivisionError /\
  (exists f, saves_as one_seq 0 0 f 3) /\ (exists d, sdat_save (with_align one_seq 5) = Ok d) /\ sdat_save (with_align one_seq 0) = Err ZeroDivisionError.
Proof.
  split; [reflexivity|]. split; [eexists; split; vm_compute; reflexivity|]. split; [reflexivity|]. split; [vm_compute; reflexivity|].
  split; [eexists; exists None, (sseq_new (0, 0, 127, 64, 50, 0)); eexists; split; [reflexivity|vm_compute; reflexivity]|]. split; [eexists|]; vm_compute; reflexivity.
Qed.

(** SDAT() with entries put into its lists: when it is saved, the files start at
    multiples of 0x20 and their lengths are exact, and the size of the symbols block is
    not rounded, so that the setting for it is not guessed when the file is loaded *)
Definition filled (l : sdat) : sdat :=
  {| dSeqs := dSeqs l; dArchs := dArchs l; dBanks := dBanks l; dWars := dWars l; dPlayers := dPlayers l; dGroups := dGroups l; dSPlayers := dSPlayers l; dStrms := dStrms l;
     fatPad := fatPad sdat_new; firstAlign := firstAlign sdat_new; fileAlign := fileAlign sdat_new; padEnd := padEnd sdat_new; padSymb := padSymb sdat_new |}.
Theorem C90_sdat_filled : forall l d, sdat_save (filled l) = Ok d ->
  (forall k j f m, saves_as (filled l) k j f m -> let i := file_id d k j in (0x20 | file_start d i) /\ file_length d i = zlen f /\ stored d (file_start d i) f) /\
  (Forall nul_free (names (filled l)) -> forall order s', sdat_load order d = Ok s' -> padSymb s' = false).
Proof.
  intros l d H. split.
  - intros k j f m S. destruct (C44_file_stored _ _ _ _ _ _ H S) as (_ & _ & A & B & _ & C). split; [exact B|]. split; [exact C|exact A].
  - intros N order s' L. apply (C60_reload order _ _ s' H N) in L. apply re_symb in L. destruct (padSymb s'); [|reflexivity]. destruct (proj1 L eq_refl) as (X & _). discriminate X.
Qed.
Print Assumptions C90_sdat_filled.
Example C90_sdat_filled_ex : exists d, sdat_save (filled one_seq) = Ok d /\ (exists f, saves_as (filled one_seq) 0 0 f 3) /\ Forall nul_free (names (filled one_seq)) /\
  exists s', sdat_load [] d = Ok s' /\ List.length (dSeqs s') = 1%nat.
Proof.
  eexists. split; [vm_compute; reflexivity|]. split; [eexists; exists None, (sseq_new (0, 0, 127, 64, 50, 0)); eexists; split; [reflexivity|vm_compute; reflexivity]|].
  split; [repeat constructor|]. eexists. split; [vm_compute; reflexivity|reflexivity].
Qed.

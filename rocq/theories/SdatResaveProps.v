(** * Sound archives: saving a loaded archive again (C62) *)
From Coq Require Import String.
From Verif Require Import PyBase PyLemmas WaveModel WaveProps SeqModel SsarModel SbnkModel SbnkProps RomSpec SdatModel SdatSave SdatSpec SdatLayout SdatReload SdatRound SdatResave SdatProps.

(** When loading and saving gives the same bytes.  The alignments must be ones the
    loader can find, that is, divide 0x200.  The loader guesses whether the FAT
    lengths include padding from all files but the last: if it guesses so, then the
    length of the last file must be aligned, too.  The end of the file must be
    aligned, unless nothing is padded there. *)
Theorem C62_resave : forall order s d s', sdat_save s = Ok d -> loadable s -> sdat_load order d = Ok s' ->
  (fileAlign s | 0x200) -> (forall f, firstAlign s = Some f -> (f | 0x200)) ->
  (file_count d = 0 \/ fatPad s' = false \/ (fileAlign s' | file_length d (file_count d - 1))) ->
  ((fileAlign s' | zlen d) \/ (0 < file_count d /\ fatPad s = false /\ padEnd s = false)) ->
  sdat_save s' = Ok d.
Proof. exact resave. Qed.
Print Assumptions C62_resave.
Lemma divide_yes a b : b mod a = 0 -> a <> 0 -> (a | b).
Proof. intros M N. apply Z.mod_divide; assumption. Qed.
Example C62_resave_ex : exists s', sdat_save ex_sdat = Ok ex_file /\ loadable ex_sdat /\ sdat_load [1; 16; 17] ex_file = Ok s' /\ (fileAlign ex_sdat | 0x200) /\ (forall f, firstAlign ex_sdat = Some f -> (f | 0x200)) /\
  fatPad s' = false /\ (fileAlign s' | zlen ex_file) /\ s' <> ex_sdat.
Proof.
  eexists. split; [exact ex_save|]. split; [exact ex_loadable|]. split; [vm_compute; reflexivity|]. split; [apply divide_yes; [reflexivity|discriminate]|]. split; [intros f [= <-]; apply divide_yes; [reflexivity|discriminate]|].
  split; [reflexivity|]. split; [apply divide_yes; [vm_compute; reflexivity|discriminate]|]. intros X. apply (f_equal firstAlign) in X. discriminate X.
Qed.

(** The guesses come to rest: what the third save writes is loaded and saved as the
    same bytes from then on.  A loaded archive always has such alignments. *)
Theorem C62_settles : forall order s d s' d' s'' d'', (fileAlign s | 0x200) -> (forall f, firstAlign s = Some f -> (f | 0x200)) -> loadable s ->
  sdat_save s = Ok d -> sdat_load order d = Ok s' -> sdat_save s' = Ok d' -> sdat_load order d' = Ok s'' -> sdat_save s'' = Ok d'' ->
  exists t, sdat_load order d'' = Ok t /\ sdat_save t = Ok d''.
Proof. exact settles. Qed.
Print Assumptions C62_settles.
Theorem C62_loaded_aligns : forall order s d s', sdat_save s = Ok d -> loadable s -> sdat_load order d = Ok s' ->
  loadable s' /\ (fileAlign s' | 0x200) /\ forall f, firstAlign s' = Some f -> (f | 0x200).
Proof.
  intros order s d s' S LO L. destruct (sdat_save_inv _ _ S) as (y & bss & FS & o1 & o2 & o3 & SV). destruct (loaded _ _ _ _ _ _ _ _ _ _ SV LO L) as [R C]. split; [exact (loadable_again _ _ _ LO C)|exact (loaded_aligns _ _ _ _ R)].
Qed.
Print Assumptions C62_loaded_aligns.

(** one sequence, with any settings *)
Definition one_seq (data : bytes) (fp : bool) (first : option Z) (align : Z) (pe : bool) : sdat :=
  {| dSeqs := [(None, Some (0, ex_seq data))]; dArchs := []; dBanks := []; dWars := []; dPlayers := []; dGroups := []; dSPlayers := []; dStrms := [];
     fatPad := fp; firstAlign := first; fileAlign := align; padEnd := pe; padSymb := false |}.
Definition save_ (s : sdat) : bytes := match sdat_save s with Ok d => d | Err _ => [] end.
Definition load_ (d : bytes) : sdat := match sdat_load [] d with Ok s => s | Err _ => sdat_new end.
Definition gen (s : sdat) : sdat := load_ (save_ s).
(** the saves of three generations: neither the first two nor the last two agree,
    as the loader takes the FAT length of the only file to include padding, which
    then is not at the end of the file *)
Example C62_settles_ex : let s := one_seq [0xFF] false None 0x20 false in
  exists d d' d'', sdat_save s = Ok d /\ sdat_load [] d = Ok (gen s) /\ sdat_save (gen s) = Ok d' /\ sdat_load [] d' = Ok (gen (gen s)) /\ sdat_save (gen (gen s)) = Ok d'' /\ loadable s /\
    (file_length d 0, zlen d) = (29, 253) /\ (file_length d' 0, zlen d') = (32, 253) /\ (file_length d'' 0, zlen d'') = (32, 256) /\ sdat_save (gen (gen (gen s))) = Ok d''.
Proof.
  cbv zeta. do 3 eexists. split; [vm_compute; reflexivity|]. split; [vm_compute; reflexivity|]. split; [vm_compute; reflexivity|]. split; [vm_compute; reflexivity|]. split; [vm_compute; reflexivity|]. split.
  - constructor; [repeat constructor| | |]; intros n m b []; try discriminate; contradiction.
  - do 3 (split; [vm_compute; reflexivity|]). vm_compute. reflexivity.
Qed.

(** So it does not hold for all archives that they are saved as they were loaded:
    an archive without files; a single file the length of which is not aligned; FAT
    lengths that include padding which is missing at the end of the file; an
    alignment the loader does not look for. *)
Theorem C62_unconditional_refuted : ~ (forall order s d s', sdat_save s = Ok d -> loadable s -> sdat_load order d = Ok s' -> sdat_save s' = Ok d).
Proof.
  intros H. assert (S : sdat_save (one_seq [0xFF] false None 0x20 true) = Ok (save_ (one_seq [0xFF] false None 0x20 true))) by (vm_compute; reflexivity).
  assert (L : sdat_load [] (save_ (one_seq [0xFF] false None 0x20 true)) = Ok (gen (one_seq [0xFF] false None 0x20 true))) by (vm_compute; reflexivity).
  assert (LO : loadable (one_seq [0xFF] false None 0x20 true)) by (constructor; [repeat constructor| | |]; intros n m b []; try discriminate; contradiction).
  specialize (H _ _ _ _ S LO L). vm_compute in H. discriminate H.
Qed.
Print Assumptions C62_unconditional_refuted.
Example C62_refuted_ex : let differs s := match sdat_save (gen s) with Ok d => negb (beq d (save_ s)) | Err _ => false end in
  map differs [sdat_new; one_seq [0xFF] false None 0x20 false; one_seq [0xFF] true None 0x20 false; one_seq [0xFF] true None 0x30 true] = [true; true; true; true] /\
  map differs [one_seq (repeat 0xFF 4) false None 0x20 true; one_seq (repeat 0xFF 4) false None 4 true; one_seq (repeat 0xFF 4) false (Some 0x10) 4 true] = [false; false; false].
Proof. cbv zeta. split; vm_compute; reflexivity. Qed.

(** A file that can be loaded, but not saved: without a SYMB block and with an
    empty slot for a sequence archive; looking for names in it is an error. *)
Theorem C62_total_refuted : exists d s, sdat_load [] d = Ok s /\ sdat_save s = Err AttributeError.
Proof.
  pose (s := {| dSeqs := []; dArchs := [(Some [65], None)]; dBanks := []; dWars := []; dPlayers := []; dGroups := []; dSPlayers := []; dStrms := []; fatPad := false; firstAlign := None; fileAlign := 0x20; padEnd := true; padSymb := false |}).
  pose (d := slice (save_ s) 0 0x10 ++ zeros 8 ++ slice (save_ s) 0x18 (zlen (save_ s))). exists d, (load_ d). split; vm_compute; reflexivity.
Qed.
Print Assumptions C62_total_refuted.

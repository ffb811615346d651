(** * Files, overlays and code of an arbitrary ROM: proofs *)
From Verif Require Import PyBase PyLemmas PyTac FntModel FntSpec FntLemmas LzModel CodeModel RomModel RomSpec NarcModel ViewSpec ViewLzSpec ViewLemmas ViewRom ViewFiles ViewLz ViewProps ViewFilesProps CsoSpec CsoLemmas CsoProps RomViewSpec.

Lemma beq_spec a b : beq a b = true <-> a = b.
Proof. split; [apply beq_eq|intros ->; apply beq_refl]. Qed.
Lemma file_found t o fo fi : entries t o fo fi -> forall s i x, files_index s fi i = Some x <-> exists k, x = i + Z.of_nat k /\ first_file t s o k.
Proof.
  induction 1 as [o H1 H2|o fo fi H1 H2 H3 IH|o len g fo fi H1 H2 H3 H4 H5 H6 IH]; intros s i x.
  - cbn [files_index]. split; [discriminate|]. intros (k & _ & F). destruct F as [o F _|o k F _ _|o len k F _]; exfalso; [destruct F as (_ & F); lia..|destruct F as (_ & F & G & _); lia].
  - cbn [files_index]. destruct (beq (part t (o + 1) (byte t o)) s) eqn:E.
    + apply beq_spec in E. split.
      * intros [= <-]. exists 0%nat. split; [lia|]. apply ff_here; [split; assumption|exact E].
      * intros (k & -> & F). inversion F as [o' F1 F2|o' k' F1 F2 F3|o' len k' F1 F2]; subst; [f_equal; lia|congruence|destruct F1 as (_ & F1 & F3 & _); lia].
    + assert (N : part t (o + 1) (byte t o) <> s) by (intros Q; apply beq_spec in Q; congruence). rewrite (IH s (i + 1) x). split.
      * intros (k & -> & F). exists (S k). split; [lia|]. apply ff_file; [split; assumption|exact N|exact F].
      * intros (k & -> & F). inversion F as [o' F1 F2|o' k' F1 F2 F3|o' len k' F1 F2]; subst; [congruence|exists k'; split; [lia|exact F3]|destruct F1 as (_ & F1 & F3 & _); lia].
  - rewrite (IH s i x). replace (o + 1 + len + 2) with (o + len + 3) by lia. split; intros (k & -> & F); exists k; (split; [reflexivity|]).
    + apply (ff_dir _ _ _ len); [repeat split; lia|exact F].
    + inversion F as [o' F1 F2|o' k' F1 F2 F3|o' len' k' F1 F2]; subst; [destruct F1 as (_ & F1); lia..|]. destruct F1 as (_ & F1 & _). replace len with len' by lia. exact F2.
Qed.
Lemma dir_found t o fo fi : entries t o fo fi -> forall s,
  (forall g, folders_find s fo = Some g -> exists m, first_dir t s o m /\ denotes t m g) /\
  (forall m, first_dir t s o m -> exists g, folders_find s fo = Some g /\ denotes t m g).
Proof.
  induction 1 as [o H1 H2|o fo fi H1 H2 H3 IH|o len g fo fi H1 H2 H3 H4 H5 H6 IH]; intros s.
  - cbn [folders_find]. split; [discriminate|]. intros m F. destruct F as [o len F _|o m F _|o len m F _]; exfalso; [destruct F as (_ & F & G & _); lia|destruct F as (_ & F); lia|destruct F as (_ & F & G & _); lia].
  - destruct (IH s) as (A & B). split.
    + intros g G. destruct (A g G) as (m & F & D). exists m. split; [|exact D]. apply fd_file; [split; assumption|exact F].
    + intros m F. inversion F as [o' len F1 F2|o' m' F1 F2|o' len m' F1 F2 F3]; subst; [destruct F1 as (_ & F1 & F3 & _); lia|apply B; exact F2|destruct F1 as (_ & F1 & F4 & _); lia].
  - destruct (IH s) as (A & B). replace (o + 1 + len + 2) with (o + len + 3) in * by lia. cbn [folders_find]. destruct (beq (part t (o + 1) len) s) eqn:E.
    + apply beq_spec in E. split.
      * intros g' [= <-]. eexists. split; [|exact H5]. apply fd_here; [repeat split; lia|exact E].
      * intros m F. exists g. split; [reflexivity|]. inversion F as [o' len' F1 F2|o' m' F1 F2|o' len' m' F1 F2 F3]; subst.
        -- destruct F1 as (_ & F1 & _). replace len' with len by lia. exact H5.
        -- destruct F1 as (_ & F1); lia.
        -- destruct F1 as (_ & F1 & _). replace len' with len in F2 by lia. congruence.
    + assert (N : part t (o + 1) len <> s) by (intros Q; apply beq_spec in Q; congruence). split.
      * intros g' G. destruct (A g' G) as (m & F & D). exists m. split; [|exact D]. apply (fd_dir _ _ _ len); [repeat split; lia|exact N|exact F].
      * intros m F. inversion F as [o' len' F1 F2|o' m' F1 F2|o' len' m' F1 F2 F3]; subst.
        -- destruct F1 as (_ & F1 & _). exfalso. apply N. replace len with len' by lia. reflexivity.
        -- destruct F1 as (_ & F1); lia.
        -- destruct F1 as (_ & F1 & _). replace len' with len in F3 by lia. apply B. exact F3.
Qed.
Lemma found_cons t n p id : found t n p id -> p <> [].
Proof. destruct 1; discriminate. Qed.
Lemma id_found t p : forall n g, denotes t n g -> forall id, idOf_find p g = Ok (Some id) <-> found t n p id.
Proof.
  induction p as [|s p IH]; intros n g D id.
  - split; [discriminate|]. intros F. apply found_cons in F. congruence.
  - inversion D as [n' fo fi H1 H2 E]; subst. destruct p as [|s' p].
    + cbn [idOf_find fFiles fFirst]. pose proof (file_found t _ fo fi E s 0) as Q. split.
      * destruct (files_index s fi 0) as [i|]; [|discriminate]. intros [= <-]. destruct (proj1 (Q i) eq_refl) as (k & -> & F). apply found_file. exact F.
      * intros F. inversion F as [n' s' k F1|n' s' m p' id' F1 F2]; subst; [|apply found_cons in F2; congruence]. rewrite (proj2 (Q (Z.of_nat k))); [reflexivity|]. exists k. split; [lia|exact F1].
    + change (idOf_find (s :: s' :: p) (Folder fo fi (half t (8 * n + 4)))) with (match folders_find s fo with Some g => idOf_find (s' :: p) g | None => Ok None end).
      destruct (dir_found t _ fo fi E s) as (A & B). split.
      * destruct (folders_find s fo) as [g|]; [|discriminate]. intros I. destruct (A g eq_refl) as (m & F & D'). apply (found_below _ _ _ m); [exact F|]. apply (IH m g D'). exact I.
      * intros F. inversion F as [|n' s'' m p' id' F1 F2]; subst. destruct (B m F1) as (g & -> & D'). apply (IH m g D'). exact F2.
Qed.
Lemma hd_error_hd {A} (l : list (list A)) : hd [] l <> [] -> exists x r, l = x :: r /\ x <> [].
Proof. destruct l as [|x r]; [intros H; exfalso; apply H; reflexivity|]. intros H. exists x, r. split; [reflexivity|exact H]. Qed.
Lemma parts_of_path p : writable_path p -> pathParts (join_slash p) = Ok p.
Proof.
  intros (H & L & F). destruct (hd_error_hd p H) as (x & r & E & X). unfold pathParts. rewrite split_join; [|rewrite E; discriminate|exact F].
  assert (R : exists y q, rev p = y :: q /\ y <> []).
  { destruct (rev p) as [|y q] eqn:R; [apply (f_equal (@rev _)) in R; rewrite rev_involutive in R; rewrite E in R; discriminate|]. exists y, q. split; [reflexivity|]. apply (f_equal (@rev _)) in R. rewrite rev_involutive in R. cbn [rev] in R. rewrite R, last_last in L. exact L. }
  destruct R as (y & q & R & Y). rewrite R, dropEmpty_cons by exact Y. cbn [bind]. rewrite <- R, rev_involutive, E. apply dropEmpty_cons. exact X.
Qed.
Lemma path_nonempty p : writable_path p -> p <> [].
Proof. intros (H & _) ->. apply H. reflexivity. Qed.

Lemma found_nonneg t n p id : is_bytes t -> found t n p id -> forall g, denotes t n g -> 0 <= id.
Proof.
  intros B. induction 1 as [n s k F|n s m p id F1 F2 IH]; intros g D.
  - inversion D as [n' fo fi H1 H2 E]; subst. pose proof (half_range t (8 * n + 4) B ltac:(lia) ltac:(lia)). lia.
  - inversion D as [n' fo fi H1 H2 E]; subst. destruct (proj2 (dir_found t _ fo fi E s) m F1) as (g & _ & D'). exact (IH g D').
Qed.

Section Rom.
  Context (depth : nat) (d : bytes) (r : rom) (B : is_bytes d) (L : 0x200 <= zlen d) (H : rom_load depth d = Ok r).
  Lemma name_found p : p <> [] -> forall id, idOf_find p (filenames r) = Ok (Some id) <-> found (fnt_part d) 0 p id.
  Proof.
    intros P id. destruct (C102_names depth d r B L H) as [(E & ->)|(N & D)]; [|apply id_found; exact D]. rewrite E. split.
    - destruct p as [|s [|s' p]]; [congruence|discriminate|discriminate].
    - intros F. exfalso. inversion F as [n s k F1|n s m p' id' F1 F2]; subst; [destruct F1 as [o F1|o k F1|o len k F1]|destruct F1 as [o len F1|o m F1|o len m F1]]; destruct F1 as (F1 & _); change (zlen (@nil Z)) with 0 in F1; lia.
  Qed.
  Lemma name_nonneg p id : found (fnt_part d) 0 p id -> 0 <= id.
  Proof.
    intros F. pose proof (found_cons _ _ _ _ F) as P. destruct (C102_names depth d r B L H) as [(E & Q)|(N & D)].
    - apply (name_found p P) in F. rewrite Q in F. destruct p as [|s [|s' p]]; [congruence|discriminate|discriminate].
    - apply (found_nonneg _ _ _ _ ltac:(apply is_bytes_part; exact B) F _ D).
  Qed.
  Lemma file_of id : 0 <= id -> forall f, get (files r) id = Ok f <-> has_file d id /\ f = rom_file d id.
  Proof.
    intros I f. destruct (C102_files depth d r B L H) as (N & F & _). unfold has_file. pose proof (Z.div_mod (zlen (fat_part d)) 8 ltac:(lia)). pose proof (Z.mod_pos_bound (zlen (fat_part d)) 8 ltac:(lia)). split.
    - intros G. destruct (Z_lt_ge_dec id (zlen (files r))) as [Q|Q]; [|rewrite get_ge in G by lia; discriminate]. apply PyLemmas.get_inv in G; [|exact I].
      rewrite F in G by (unfold zlen in Q; lia). cbv zeta in G. rewrite Z2Nat.id in G by exact I. injection G as <-. split; [lia|reflexivity].
    - intros (Q & ->). apply get_nth; [exact I|]. rewrite F by (unfold zlen in *; lia). cbv zeta. rewrite Z2Nat.id by exact I. reflexivity.
  Qed.
  Lemma no_file id : 0 <= id -> get (files r) id = Err IndexError <-> ~ has_file d id.
  Proof.
    intros I. destruct (C102_files depth d r B L H) as (N & F & _). unfold has_file. pose proof (Z.div_mod (zlen (fat_part d)) 8 ltac:(lia)). pose proof (Z.mod_pos_bound (zlen (fat_part d)) 8 ltac:(lia)). split.
    - intros G Q. destruct (get_some (files r) id) as (x & E & _); [lia|congruence].
    - intros Q. apply get_ge. lia.
  Qed.
  Lemma fetch p : writable_path p -> exists o, rom_getFileByName r (join_slash p) = (match o with None => Err ValueError | Some i => get (files r) i end) /\
    match o with None => forall id, ~ found (fnt_part d) 0 p id | Some i => 0 <= i /\ found (fnt_part d) 0 p i end.
  Proof.
    intros P. unfold rom_getFileByName, idOf. rewrite (parts_of_path p P). cbn [bind]. pose proof (path_nonempty p P) as N. destruct (idOf_find_total p (filenames r) N) as (o & O). rewrite O. exists o. split; [reflexivity|].
    destruct o as [i|]; [apply (name_found p N) in O; split; [exact (name_nonneg p i O)|exact O]|]. intros id F. apply (name_found p N) in F. congruence.
  Qed.
  Lemma found_once p i j : found (fnt_part d) 0 p i -> found (fnt_part d) 0 p j -> i = j.
  Proof. intros F G. pose proof (found_cons _ _ _ _ F) as N. apply (name_found p N) in F, G. congruence. Qed.

  Lemma overlay_file t i ov : is_bytes t -> 32 * Z.of_nat i + 32 <= zlen t -> overlay_at t (fun _ fid => get (files r) fid) i ov <-> rom_overlay d t i ov.
  Proof.
    intros T I. unfold overlay_at, rom_overlay. pose proof (word_range t (32 * Z.of_nat i + 4 * 6) T ltac:(lia) ltac:(lia)) as W.
    assert (RB : is_bytes (rom_file d (ViewSpec.row t i 6))) by (apply is_bytes_part; exact B). split.
    - intros ((f & G & Q) & R). apply file_of in G as (G & ->); [|unfold ViewSpec.row; lia]. split; [exact G|]. split; [|exact R]. destruct (Z.odd (oFlags ov)); [|exact Q]. apply code_iff in Q; [exact Q|exact RB].
    - intros (G & Q & R). split; [|exact R]. exists (rom_file d (ViewSpec.row t i 6)). split; [apply file_of; [unfold ViewSpec.row; lia|split; [exact G|reflexivity]]|]. destruct (Z.odd (oFlags ov)); [|exact Q]. apply code_iff; [exact RB|exact Q].
  Qed.
End Rom.

Lemma narc_fetch depth d n p : is_bytes d -> narc_load depth d = Ok n -> writable_path p -> let t := part d (narc_fntb d + 8) (word d (narc_fntb d + 4) - 8) in
  exists o, getFileByName n (join_slash p) = (match o with None => Err ValueError | Some i => get (nFiles n) i end) /\
    match o with None => forall id, ~ found t 0 p id | Some i => 0 <= i /\ found t 0 p i /\ forall j, found t 0 p j -> j = i end.
Proof.
  intros B H P t. apply C104_read in H as (_ & _ & _ & N); [|exact B]. fold t in N. apply C103_any_depth in N; [|apply is_bytes_part; exact B].
  unfold getFileByName, narc_fid, idOf. rewrite (parts_of_path p P). cbn [bind]. destruct (idOf_find_total p (nFilenames n) (path_nonempty p P)) as (o & O). rewrite O. exists o. split; [destruct o; reflexivity|].
  destruct o as [i|].
  - pose proof (proj1 (id_found t p 0 _ N i) O) as F. split; [exact (found_nonneg _ _ _ _ ltac:(apply is_bytes_part; exact B) F _ N)|]. split; [exact F|]. intros j G. apply (id_found t p 0 _ N j) in G. congruence.
  - intros id F. apply (id_found t p 0 _ N id) in F. congruence.
Qed.
Lemma byte_is_byte o i : is_bytes o -> is_byte (byte o i).
Proof. intros B. unfold byte. destruct (nth_in_or_default (Z.to_nat i) o 0) as [I|E]; [exact (proj1 (Forall_forall _ _) B _ I)|rewrite E; unfold is_byte; lia]. Qed.
Lemma again_bytes total dist k : forall o, is_bytes o -> is_bytes (again total k dist o).
Proof.
  induction k as [|k IH]; intros o B; [exact B|]. cbn [again]. destruct (zlen o <? total); [|exact B]. apply IH. apply Forall_app. split; [exact B|]. constructor; [apply byte_is_byte; exact B|constructor].
Qed.
Lemma unpacks_bytes c total p bs o r : is_bytes c -> unpacks c total (copy_code total) p bs o r -> is_bytes o -> is_bytes r.
Proof.
  intros C. induction 1 as [p bs o F|p o r F L U IH|p bs o r F L U IH|p bs o o' r F L (_ & _ & E) U IH]; intros B; [exact B|exact (IH B)| |].
  - apply IH. apply Forall_app. split; [exact B|]. constructor; [apply byte_is_byte; exact C|constructor].
  - apply IH. rewrite E. apply again_bytes. exact B.
Qed.
Lemma unpacked_bytes d r : is_bytes d -> unpacked d r -> is_bytes r.
Proof.
  intros B [(_ & ->)|(a & _ & [(_ & ->)|(_ & r' & (_ & _ & _ & out & U & ->) & ->)])]; [exact B|apply is_bytes_part; exact B|].
  apply Forall_app. split; [|apply is_bytes_part; exact B]. apply Forall_app. split; [apply is_bytes_part, is_bytes_part; exact B|]. apply Forall_rev. refine (unpacks_bytes _ _ _ _ _ _ _ U (Forall_nil _)). apply Forall_rev, is_bytes_part, is_bytes_part. exact B.
Qed.
Lemma points_dec ram d p : (exists o, points_to ram d p o) \/ forall o, ~ points_to ram d p o.
Proof.
  destruct (Z.eq_dec p 0) as [->|N]; [right; intros o (Q & _); apply Q; reflexivity|]. destruct (cso_from_pointer ram d p) as [o|] eqn:E; [left; exists o; apply pointer_spec; assumption|].
  right. intros o O. apply (pointer_spec ram d p o N) in O. congruence.
Qed.
Lemma main_code d0 ram p m : is_bytes d0 -> mcf_new d0 ram (Some p) = Ok m ->
  exists c, unpacked d0 c /\ mRam m = ram /\ settings_found ram c p (mCso m) /\ sections_of ram c (mCso m) (mSections m).
Proof.
  intros B H. destruct (code_decompress d0) as [c|e] eqn:D; [|unfold mcf_new in H; rewrite D in H; discriminate]. exists c. split; [apply code_iff; [exact B|exact D]|].
  destruct (mcf_new_inv _ _ _ _ _ H D) as (R & _ & _). split; [exact R|].
  assert (BC : is_bytes c) by (apply (unpacked_bytes d0); [exact B|apply code_iff; [exact B|exact D]]).
  split.
  - destruct (points_dec ram c p) as [(o & O)|N].
    + rewrite (C91_pointer d0 ram p m c o D O H). left. exact O.
    + rewrite (C91_pointer_ignored d0 ram p c D N) in H. pose proof (C91_search d0 ram m c BC D H) as S. unfold settings_found. destruct (mCso m) as [o|]; [right; split; [exact N|exact S]|split; [exact N|exact S]].
  - unfold sections_of. destruct (mCso m) as [o|] eqn:O; [|exact (C91_no_settings d0 ram _ m c D H O)]. exact (C91_sections d0 ram _ m c o D H O).
Qed.

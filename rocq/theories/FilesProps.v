(** * Files and command lines (C86, C87, C88) *)
From Coq Require Import String.
From Verif Require Import PyBase PyLemmas LzModel CodeModel FntModel FntSpec NarcModel BmgModel BmgSpec BnModel BnLemmas ColorModel ColorLemmas
  Gfx2DModel Gfx2DLemmas WaveModel WaveLemmas SeqModel SsarModel SbnkModel SdatModel SdatRound RomModel RomSpec RomLoad
  FilesModel FilesSpec FilesLemmas.
From Verif Require LzProps NarcProps BnProps ColorProps Gfx2DProps WaveProps SsarProps SdatProps RomProps BmgProps CodeProps FntProps.

(** ** C86 *)

(** every saveToFile writes exactly what save() returns to exactly the file named, and
    on any exception leaves every file as it was (see [writes] in FilesSpec.v) *)
Theorem C86_saves :
  (forall sj b p, writes (bmg_saveToFile sj b p) p (res_map (fun d => (d, tt)) (bmg_save sj b))) /\
  (forall b p, writes (bnbl_saveToFile b p) p (res_map (fun d => (d, tt)) (bnbl_save b))) /\
  (forall b p, writes (bncl_saveToFile b p) p (res_map (fun d => (d, tt)) (bncl_save b))) /\
  (forall m p c, writes (mcf_saveToFile m p c) p (res_map (fun d => (d, tt)) (mcf_save m c))) /\
  (forall c p, writes (savePaletteToFile c p) p (res_map (fun d => (d, tt)) (savePalette c))) /\
  (forall t p, writes (saveImageTilesToFile t p) p (res_map (fun d => (d, tt)) (saveImageTiles t))) /\
  (forall t p, writes (saveTilemapTilesToFile t p) p (res_map (fun d => (d, tt)) (saveTilemapTiles t))) /\
  (forall n p, writes (narc_saveToFile n p) p (res_map (fun d => (d, tt)) (narc_save n))) /\
  (forall r p u, writes (rom_saveToFile r p u) p (rom_save u r)) /\
  (forall s p, writes (sdat_saveToFile s p) p (res_map (fun d => (d, tt)) (sdat_save s))) /\
  (forall b p, writes (sbnk_saveToFile b p) p (res_map (fun '(d, _, _) => (d, tt)) (sbnk_save b))) /\
  (forall s p, writes (sseq_saveToFile s p) p (res_map (fun '(d, _) => (d, tt)) (sseq_save s))) /\
  (forall s p, writes (ssar_saveToFile s p) p (res_map (fun '(d, _, _) => (d, tt)) (ssar_save s))) /\
  (forall s p u, writes (strm_saveToFile s p u) p (res_map (fun '(s', (d, _)) => (d, s')) (strm_save s u))) /\
  (forall w p t l, writes (swav_saveToFile w p t l) p (res_map (fun '(w', d) => (d, w')) (swav_save w t l))) /\
  (forall s p, writes (swar_saveToFile s p) p (res_map (fun '(d, _) => (d, tt)) (swar_save s))) /\
  (forall x p, writes (lz10_compressToFile x p) p (res_map (fun d => (d, tt)) (lz10_compress x))) /\
  (forall x p, writes (lz10_decompressToFile x p) p (res_map (fun d => (d, tt)) (lz10_decompress x))) /\
  (forall x p a, writes (code_compressToFile x p a) p (res_map (fun d => (d, tt)) (code_compress x a))) /\
  (forall x p, writes (code_decompressToFile x p) p (res_map (fun d => (d, tt)) (code_decompress x))).
Proof.
  repeat split; intros;
    try (match goal with |- writes _ _ (res_map _ ?r) => exact (save_writes r (fun d => d) p) end).
  - unfold rom_saveToFile. pose proof (save_writes_ret (rom_save u r) fst snd p) as W. destruct (rom_save u r) as [[d r1]|e]; exact W.
  - unfold sbnk_saveToFile. pose proof (save_writes (sbnk_save b) (fun s => fst (fst s)) p) as W. destruct (sbnk_save b) as [[[d x] y]|e]; exact W.
  - unfold sseq_saveToFile. pose proof (save_writes (sseq_save s) fst p) as W. destruct (sseq_save s) as [[d x]|e]; exact W.
  - unfold ssar_saveToFile. pose proof (save_writes (ssar_save s) (fun s => fst (fst s)) p) as W. destruct (ssar_save s) as [[[d x] y]|e]; exact W.
  - unfold strm_saveToFile. pose proof (save_writes_ret (strm_save s u) (fun r => fst (snd r)) fst p) as W. destruct (strm_save s u) as [[s' [d x]]|e]; exact W.
  - unfold swav_saveToFile. pose proof (save_writes_ret (swav_save w t l) snd fst p) as W. destruct (swav_save w t l) as [[w' d]|e]; exact W.
  - unfold swar_saveToFile. pose proof (save_writes (swar_save s) fst p) as W. destruct (swar_save s) as [[d x]|e]; exact W.
Qed.
Print Assumptions C86_saves.

(** every fromFile gives what the constructor gives on the contents of the file, and
    changes no file *)
Theorem C86_loads :
  (forall sj id0 p, reads (bmg_fromFile sj id0 p) p (bmg_load sj id0)) /\
  (forall p, reads (bnbl_fromFile p) p bnbl_load) /\
  (forall p, reads (bncl_fromFile p) p bncl_load) /\
  (forall p ram, reads (mcf_fromFile p ram) p (fun d => mcf_new d ram None)) /\
  (forall p, reads (loadPaletteFromFile p) p loadPalette) /\
  (forall p f, reads (loadImageTilesFromFile p f) p (fun d => loadImageTiles d f)) /\
  (forall p f, reads (loadTilemapTilesFromFile p f) p (fun d => loadTilemapTiles d f)) /\
  (forall depth p, reads (narc_fromFile depth p) p (narc_load depth)) /\
  (forall depth p, reads (rom_fromFile depth p) p (rom_load depth)) /\
  (forall order p, reads (sdat_fromFile order p) p (sdat_load order)) /\
  (forall order p u w, reads (sbnk_fromFile order p u w) p (fun d => sbnk_load order d u w)) /\
  (forall p i, reads (sseq_fromFile p i) p (fun d => sseq_load d i)) /\
  (forall p u n, reads (ssar_fromFile p u n) p (fun d => ssar_load d u n)) /\
  (forall p i, reads (strm_fromFile p i) p (fun d => strm_load d i)) /\
  (forall p, reads (swav_fromFile p) p swav_load) /\
  (forall p u, reads (swar_fromPath p u) p (fun d => swar_load d 0)) /\     (* not [u]: see C51 *)
  (forall p, reads (lz10_compressFromFile p) p lz10_compress) /\
  (forall p, reads (lz10_decompressFromFile p) p lz10_decompress) /\
  (forall p a, reads (code_compressFromFile p a) p (fun d => code_compress d a)) /\
  (forall p, reads (code_decompressFromFile p) p code_decompress).
Proof. repeat split; intros; apply pure_reads. Qed.
Print Assumptions C86_loads.

(** what is saved to a writable file loads back from it, and no other file changes *)
Definition roundtrips {A B} (save : io A) (load : io B) (p : path) (x : B) : Prop := forall d, writable d p = true ->
  exists a d', save d = (Done a, d') /\ (forall q, q <> p -> contents d' q = contents d q) /\ load d' = (Done x, d').
Lemma roundtrips_intro {A B} (w : io A) (l : io B) p r f b a x :
  writes w p r -> reads l p f -> r = Ok (b, a) -> f b = Ok x -> roundtrips w l p x.
Proof.
  intros W L E F d P. destruct (save_load w l p r f b a x d W L E F P) as (d' & E1 & R & E2).
  exists a, d'. split; [exact E1|]. split; [apply R|exact E2].
Qed.
Lemma roundtrips_plain {A B} (save : A -> res bytes) (w : A -> path -> io unit) (l : path -> io B) f p o x b :
  (forall y q, writes (w y q) q (res_map (fun d => (d, tt)) (save y))) -> (forall q, reads (l q) q f) ->
  save o = Ok b -> f b = Ok x -> roundtrips (w o p) (l p) p x.
Proof. intros W L E F. eapply roundtrips_intro; [apply W|apply L| |exact F]. rewrite E. reflexivity. Qed.

Theorem C86_roundtrips : forall p,
  (forall b, 0 <= blUnk04 b < 65536 -> zlen (blAreas b) < 65536 -> Forall area_ok (blAreas b) ->
     roundtrips (bnbl_saveToFile b p) (bnbl_fromFile p) p b) /\
  (forall b, 0 <= clUnk04 b < 65536 -> zlen (clPositions b) < 65536 -> Forall pos_ok (clPositions b) ->
     roundtrips (bncl_saveToFile b p) (bncl_fromFile p) p b) /\
  (forall c, Forall valid51 c -> roundtrips (savePaletteToFile c p) (loadPaletteFromFile p) p c) /\
  (forall f t, Forall (itile_ok f) t -> roundtrips (saveImageTilesToFile t p) (loadImageTilesFromFile p f) p t) /\
  (forall f t, Forall (mtile_ok f) t -> roundtrips (saveTilemapTilesToFile t p) (loadTilemapTilesFromFile p f) p t) /\
  (forall n b depth, narc_save n = Ok b -> files_named (nFilenames n) -> (height (nFilenames n) <= depth)%nat ->
     roundtrips (narc_saveToFile n p) (narc_fromFile depth p) p n) /\
  (forall w t l w' b, swav_save w t l = Ok (w', b) -> roundtrips (swav_saveToFile w p t l) (swav_fromFile p) p w') /\
  (forall s b u, swar_save s = Ok (b, u) -> rUnk02 s = 0 -> forall v, roundtrips (swar_saveToFile s p) (swar_fromPath p v) p s) /\
  (forall s u s' b i, zlen (sUnks s) = 8 -> strm_save s u = Ok (s', (b, i)) ->
     roundtrips (strm_saveToFile s p u) (strm_fromFile p i) p s') /\
  (forall s b i, sseq_save s = Ok (b, i) -> qParsed s = false -> qEvents s = [] -> roundtrips (sseq_saveToFile s p) (sseq_fromFile p i) p s).
Proof.
  destruct C86_saves as (W1 & W2 & W3 & W4 & W5 & W6 & W7 & W8 & W9 & W10 & W11 & W12 & W13 & W14 & W15 & W16 & _).
  destruct C86_loads as (L1 & L2 & L3 & L4 & L5 & L6 & L7 & L8 & L9 & L10 & L11 & L12 & L13 & L14 & L15 & L16 & _).
  intros p. repeat split.
  - intros b H1 H2 H3. destruct (BnProps.C25_bnbl_roundtrip b H1 H2 H3) as (d & E & _ & R). specialize (R []). rewrite app_nil_r in R.
    eapply roundtrips_plain; [exact W2|exact L2|exact E|exact R].
  - intros b H1 H2 H3. destruct (BnProps.C26_bncl_roundtrip b H1 H2 H3) as (d & E & _ & R). specialize (R []). rewrite app_nil_r in R.
    eapply roundtrips_plain; [exact W3|exact L3|exact E|exact R].
  - intros c H. destruct (ColorProps.C27_palette_load_save c H) as (d & E & R & _).
    eapply roundtrips_plain; [exact W5|exact L5|exact E|exact R].
  - intros f t H. destruct (Gfx2DProps.C29_image_tiles_roundtrip f t H) as (d & E & _ & R).
    eapply roundtrips_intro; [apply W6|apply L6|rewrite E; reflexivity|exact R].
  - intros f t H. destruct (Gfx2DProps.C30_tilemap_roundtrip f t H) as (d & E & _ & _ & R).
    eapply roundtrips_intro; [apply W7|apply L7|rewrite E; reflexivity|exact R].
  - intros n b depth E H1 H2. pose proof (NarcProps.C12_roundtrip n b [] depth E H1 H2) as R. rewrite app_nil_r in R.
    eapply roundtrips_intro; [apply W8|apply L8|rewrite E; reflexivity|exact R].
  - intros w t l w' b E. pose proof (WaveProps.C34_swav_save_options w t l w' b [] E) as R. rewrite app_nil_r in R.
    eapply roundtrips_intro; [apply W15|apply L15|rewrite E; reflexivity|]. apply R.
  - intros s b u E U v. destruct (WaveProps.C35_swar_roundtrip s [] (WaveProps.C35_swar_savable s b u E)) as (d & E' & R).
    rewrite app_nil_r in R. rewrite U in R. eapply roundtrips_intro; [apply W16|apply (L16 p v)|rewrite E'; reflexivity|exact R].
  - intros s u s' b i H E. destruct (WaveProps.C36_strm_roundtrip s u s' b i [] H E) as (R & _). rewrite app_nil_r in R.
    eapply roundtrips_intro; [apply W14|apply L14|rewrite E; reflexivity|exact R].
  - intros s b i E P Q. destruct (SsarProps.C40_sseq_saved_loads s b i E) as (d & _ & I & D & R). rewrite P in D.
    eapply roundtrips_intro; [apply W12|apply L12|rewrite E; reflexivity|]. cbn beta. rewrite R. subst d i. destruct s; cbn in P, Q; subst. reflexivity.
Qed.
Print Assumptions C86_roundtrips.

(** the larger formats: the file loads as C15, C21 and C60 say *)
Theorem C86_large_roundtrips : forall p d, writable d p = true ->
  (forall upd r b r1 depth, rom_save upd r = Ok (b, r1) ->
     files_named (filenames r) -> (height (filenames r) <= depth)%nat -> post_blocks (arm9PostData r) ->
     ~ stored b (word b 0x20 + zlen (arm9 r) + zlen (arm9PostData r)) magic ->
     exists d' order, rom_saveToFile r p upd d = (Done r1, d') /\ rom_fromFile depth p d' = (Done (reloaded r1 b order), d')) /\
  (forall sj id0 m b, bmg_save sj m = Ok b -> texts_ok m -> (bEncoding m = ShiftJis -> sjis_fits sj m) ->
     length_tells (bEndian m) (claimed_len b) -> canonical m ->
     exists d', bmg_saveToFile sj m p d = (Done tt, d') /\ bmg_fromFile sj id0 p d' = (Done m, d')) /\
  (forall order s b, sdat_save s = Ok b -> loadable s ->
     exists d' s', sdat_saveToFile s p d = (Done tt, d') /\ sdat_fromFile order p d' = (Done s', d') /\ same_contents b s s').
Proof.
  destruct C86_saves as (W1 & W2 & W3 & W4 & W5 & W6 & W7 & W8 & W9 & W10 & _).
  destruct C86_loads as (L1 & L2 & L3 & L4 & L5 & L6 & L7 & L8 & L9 & L10 & _).
  intros p d P. split; [|split].
  - intros upd r b r1 depth E H1 H2 H3 H4. destruct (RomProps.C15_roundtrip upd r b r1 depth E H1 H2 H3 H4) as (order & R & _).
    destruct (save_load _ _ p _ _ b r1 _ d (W9 r p upd) (L9 depth p) E R P) as (d' & E1 & _ & E2). exists d', order. split; assumption.
  - intros sj id0 m b E H1 H2 H3 H4. pose proof (BmgProps.C21_canonical_roundtrip sj id0 m b E H1 H2 H3 H4) as R.
    destruct (save_load _ _ p _ _ b tt _ d (W1 sj m p) (L1 sj id0 p) ltac:(rewrite E; reflexivity) R P) as (d' & E1 & _ & E2). exists d'. split; assumption.
  - intros order s b E H1. destruct (SdatProps.C60_roundtrip order s b E H1) as (s' & R & C).
    destruct (save_load _ _ p _ _ b tt _ d (W10 s p) (L10 order p) ltac:(rewrite E; reflexivity) R P) as (d' & E1 & _ & E2).
    exists d', s'. split; [exact E1|]. split; assumption.
Qed.
Print Assumptions C86_large_roundtrips.

Definition ex_path (s : string) : path := {| pDir := asc "dir/"; pName := asc s |}.
Definition ex_disk (l : list (path * bytes)) : disk :=
  {| contents := fun p => match find (fun e => path_eqb (fst e) p) l with Some e => Some (snd e) | None => None end;
     writable := fun p => beq (pDir p) (asc "dir/") |}.
Definition shows {A} (r : outcome A * disk) (l : list (path * option bytes)) : option A :=
  if forallb (fun e => match contents (snd r) (fst e), snd e with
                       | Some a, Some b => beq a b | None, None => true | _, _ => false end) l
  then match fst r with Done a => Some a | Failed _ => None end else None.
Definition ex_bnbl : bnbl := {| blUnk04 := 7; blAreas := [{| taX := 0x123; taY := 0x456; taW := 30; taH := 40; taAlign := 0x42 |}] |}.
Example C86_ex :
  let d := ex_disk [(ex_path "b", [1; 2])] in
  let saved := [0x4A; 0x4E; 0x42; 0x4C; 7; 0; 1; 0; 0x23; 0x21; 0x56; 0x14; 30; 40] in
  shows (bnbl_saveToFile ex_bnbl (ex_path "a") d) [(ex_path "a", Some saved); (ex_path "b", Some [1; 2]); (ex_path "c", None)] = Some tt /\
  shows (andthen (bnbl_saveToFile ex_bnbl (ex_path "b")) (bnbl_fromFile (ex_path "b")) d) [(ex_path "a", None); (ex_path "b", Some saved)] = Some ex_bnbl /\
  (* a failed save leaves the old file *)
  bnbl_saveToFile {| blUnk04 := 70000; blAreas := [] |} (ex_path "b") d = (Failed (Raised StructError), d) /\
  bnbl_saveToFile ex_bnbl {| pDir := asc "else/"; pName := asc "b" |} d = (Failed OSError, d) /\
  bnbl_fromFile (ex_path "b") d = (Failed (Raised ValueError), d) /\
  bnbl_fromFile (ex_path "c") d = (Failed OSError, d) /\ writable d (ex_path "a") = true.
Proof. repeat (split; [vm_compute; reflexivity|]). vm_compute. reflexivity. Qed.

(** ** C87 *)

(** the command lines read one file, convert it and write one file; the default output
    replaces the suffix of the input's name *)
Theorem C87_lz10_main : forall p out q,
  (target p out (asc ".cmp") q -> converts (lz10_main Compress p out) lz10_compress p q) /\
  (target p out (asc ".dec") q -> converts (lz10_main Decompress p out) lz10_decompress p q).
Proof. intros p out q. split; intros T; apply target_eq in T; subst q; [apply converts_write|apply converts_then]. Qed.
Print Assumptions C87_lz10_main.
Theorem C87_code_main : forall p out q a,
  (target p out (asc ".cmp") q -> converts (code_main Compress a p out) (fun d => code_compress d a) p q) /\
  (target p out (asc ".dec") q -> converts (code_main Decompress a p out) code_decompress p q).
Proof.
  intros p out q a. split; intros T; apply target_eq in T; subst q; [|apply converts_then].
  exact (converts_write (fun d => code_compress d a) p _).
Qed.
Print Assumptions C87_code_main.

(** compressing a file and decompressing the result gives a file with the contents of
    the first one; no other file changes *)
Theorem C87_lz10_roundtrip : forall d p data o1 o2 q1 q2, contents d p = Some data -> zlen data < 2 ^ 24 ->
  target p o1 (asc ".cmp") q1 -> target q1 o2 (asc ".dec") q2 -> writable d q1 = true -> writable d q2 = true ->
  exists d1 d2, lz10_main Compress p o1 d = (Done tt, d1) /\ lz10_main Decompress q1 o2 d1 = (Done tt, d2) /\
    contents d2 q2 = Some data /\ (forall q, q <> q1 -> q <> q2 -> contents d2 q = contents d q).
Proof.
  intros d p data o1 o2 q1 q2 C L T1 T2 P1 P2. destruct (LzProps.C01_lz10_lossless data [] L) as (c & E & D). rewrite app_nil_r in D.
  destruct (convert_twice _ _ _ _ p q1 q2 data c d (proj1 (C87_lz10_main p o1 q1) T1) (proj2 (C87_lz10_main q1 o2 q2) T2) C E D P1 P2)
    as (d1 & d2 & E1 & E2 & _ & C2 & O). exists d1, d2. repeat (split; [assumption|]). exact O.
Qed.
Print Assumptions C87_lz10_roundtrip.
Theorem C87_code_roundtrip : forall d p data a a' c o1 o2 q1 q2, contents d p = Some data -> zlen data < 2 ^ 24 ->
  code_compress data a = Ok c -> slice_from c (-4) <> [0; 0; 0; 0] ->
  target p o1 (asc ".cmp") q1 -> target q1 o2 (asc ".dec") q2 -> writable d q1 = true -> writable d q2 = true ->
  exists d1 d2, code_main Compress a p o1 d = (Done tt, d1) /\ code_main Decompress a' q1 o2 d1 = (Done tt, d2) /\
    contents d2 q2 = Some data /\ (forall q, q <> q1 -> q <> q2 -> contents d2 q = contents d q).
Proof.
  intros d p data a a' c o1 o2 q1 q2 C L E N T1 T2 P1 P2. pose proof (LzProps.C05_code_roundtrip data a c L E N) as D.
  destruct (convert_twice _ _ _ _ p q1 q2 data c d (proj1 (C87_code_main p o1 q1 a) T1) (proj2 (C87_code_main q1 o2 q2 a') T2) C E D P1 P2)
    as (d1 & d2 & E1 & E2 & _ & C2 & O). exists d1, d2. repeat (split; [assumption|]). exact O.
Qed.
Print Assumptions C87_code_roundtrip.

(** the input file is kept unless its name already has the suffix of the output ... *)
Theorem C87_input_kept : forall d p d', (forall stem, pName p <> stem ++ asc ".cmp") ->
  (lz10_main Compress p None d = (Done tt, d') \/ exists a, code_main Compress a p None d = (Done tt, d')) ->
  contents d' p = contents d p.
Proof.
  intros d p d' N H. pose proof (with_suffix_spec p (asc ".cmp")) as T. set (q := with_suffix p (asc ".cmp")) in *.
  assert (NQ : p <> q).
  { intros EQ. rewrite <- EQ in T. destruct (suffixed_self p _ T ltac:(discriminate)) as (st & E). exact (N st E). }
  assert (K : forall w f, converts w f p q -> w d = (Done tt, d') -> contents d' p = contents d p).
  { intros w f W E. specialize (W d). destruct (contents d p) as [x|] eqn:C; [|rewrite W in E; discriminate].
    destruct (f x) as [b|e]; [|rewrite W in E; discriminate]. destruct (writable d q); [|rewrite W in E; discriminate].
    destruct W as (d1 & E1 & R). rewrite E1 in E. injection E as <-. destruct R as (_ & O & _). rewrite O by exact NQ. exact C. }
  destruct H as [H|[a H]]; [exact (K _ _ (proj1 (C87_lz10_main p None q) T) H)|exact (K _ _ (proj1 (C87_code_main p None q a) T) H)].
Qed.
Print Assumptions C87_input_kept.
(** ... then it is replaced by its own compressed form *)
Theorem C87_input_kept_refuted : exists d p d', lz10_main Compress p None d = (Done tt, d') /\
  contents d p = Some [1; 2; 3] /\ contents d' p = Some [0x10; 3; 0; 0; 0; 1; 2; 3; 0; 0; 0; 0; 0].
Proof.
  set (d := ex_disk [(ex_path "x.cmp", [1; 2; 3])]). exists d, (ex_path "x.cmp"), (snd (lz10_main Compress (ex_path "x.cmp") None d)).
  split; [|split; vm_compute; reflexivity].
  rewrite (surjective_pairing (lz10_main _ _ _ d)) at 1. vm_compute. reflexivity.
Qed.
Print Assumptions C87_input_kept_refuted.
(** ... and two inputs that differ in their suffix only have the same output *)
Theorem C87_outputs_distinct_refuted : exists p p' q, p <> p' /\ suffixed p (asc ".cmp") q /\ suffixed p' (asc ".cmp") q.
Proof.
  exists (ex_path "a.bin"), (ex_path "a.txt"), (ex_path "a.cmp"). split; [intros E; vm_compute in E; discriminate E|].
  split; [exact (with_suffix_spec (ex_path "a.bin") (asc ".cmp"))|exact (with_suffix_spec (ex_path "a.txt") (asc ".cmp"))].
Qed.
Print Assumptions C87_outputs_distinct_refuted.
Example C87_ex_names : map (fun s => pName (with_suffix (ex_path s) (asc ".dec"))) ["a.bin"; "a.b.bin"; "a"; ".a"; "a."; "..a"; "a.cmp"]%string =
  map asc ["a.dec"; "a.b.dec"; "a.dec"; ".a.dec"; "a..dec"; "..dec"; "a.dec"]%string.
Proof. vm_compute. reflexivity. Qed.
Definition ex_long : bytes := rep 7 100.
Example C87_ex :
  let d := ex_disk [(ex_path "a.bin", ex_long)] in
  shows (andthen (lz10_main Compress (ex_path "a.bin") None) (lz10_main Decompress (ex_path "a.cmp") None) d)
    [(ex_path "a.bin", Some ex_long); (ex_path "a.cmp", match lz10_compress ex_long with Ok c => Some c | _ => None end);
     (ex_path "a.dec", Some ex_long); (ex_path "a", None)] = Some tt /\
  shows (andthen (code_main Compress false (ex_path "a.bin") None) (code_main Decompress false (ex_path "a.cmp") (Some (ex_path "z"))) d)
    [(ex_path "a.bin", Some ex_long); (ex_path "a.cmp", match code_compress ex_long false with Ok c => Some c | _ => None end);
     (ex_path "z", Some ex_long); (ex_path "a.dec", None)] = Some tt /\
  (exists c, code_compress ex_long false = Ok c /\ slice_from c (-4) <> [0; 0; 0; 0]) /\
  lz10_main Decompress (ex_path "a.bin") None d = (Failed (Raised TypeError), d) /\
  lz10_main Compress (ex_path "b.bin") None d = (Failed OSError, d).
Proof.
  repeat (split; [vm_compute; reflexivity|]). split; [|split; vm_compute; reflexivity].
  eexists. split; [vm_compute; reflexivity|]. vm_compute. discriminate.
Qed.

(** ** C87, tools/lz10tool.py *)
Definition tool_target (p : path) (out : option path) (s : list Z) : path :=
  match out with Some o => o | None => {| pDir := pDir p; pName := pName p ++ s |} end.
(** told what to do it does that; otherwise it decompresses exactly the files that
    begin with 0x10 *)
Theorem C87_tool : forall p out,
  converts (lz10tool (Some Compress) p out) lz10_compress p (tool_target p out (asc ".lz10")) /\
  converts (lz10tool (Some Decompress) p out) lz10_decompress p (tool_target p out (asc ".raw")) /\
  (forall d b x, contents d p = Some (b :: x) ->
     lz10tool None p out d = lz10tool (Some (if b =? 0x10 then Decompress else Compress)) p out d) /\
  (forall d, contents d p = Some [] -> lz10tool None p out d = (Failed (Raised IndexError), d)).
Proof.
  intros p out. repeat split.
  - intros d. pose proof (fun b => write_file_writes (tool_target p out (asc ".lz10")) b d) as W. unfold lz10tool, io_bind, read_file, pure.
    destruct (contents d p) as [x|]; [|reflexivity]. destruct (lz10_compress x) as [b|e]; [exact (W b)|reflexivity].
  - intros d. pose proof (fun b => write_file_writes (tool_target p out (asc ".raw")) b d) as W. unfold lz10tool, io_bind, read_file, pure.
    destruct (contents d p) as [x|]; [|reflexivity]. destruct (lz10_decompress x) as [b|e]; [exact (W b)|reflexivity].
  - intros d b x C. unfold lz10tool, io_bind, read_file, pure. rewrite C. reflexivity.
  - intros d C. unfold lz10tool, io_bind, read_file, pure. rewrite C. reflexivity.
Qed.
Print Assumptions C87_tool.
(** running the tool twice without options restores every file that does not begin
    with 0x10; with -c the first time, every file *)
Theorem C87_tool_twice : forall d p data m o1 o2, contents d p = Some data -> zlen data < 2 ^ 24 ->
  let q1 := tool_target p o1 (asc ".lz10") in let q2 := tool_target q1 o2 (asc ".raw") in
  writable d q1 = true -> writable d q2 = true ->
  m = Some Compress \/ (m = None /\ exists b x, data = b :: x /\ b <> 0x10) ->
  exists d1 d2, lz10tool m p o1 d = (Done tt, d1) /\ lz10tool None q1 o2 d1 = (Done tt, d2) /\
    contents d2 q2 = Some data /\ (forall q, q <> q1 -> q <> q2 -> contents d2 q = contents d q).
Proof.
  intros d p data m o1 o2 C L q1 q2 P1 P2 M.
  destruct (LzProps.C01_lz10_lossless data [] L) as (c & E & D). rewrite app_nil_r in D.
  destruct (LzProps.C03_lz10_size data L) as (c' & E' & H & _). rewrite E in E'. injection E' as <-.
  destruct (C87_tool p o1) as (T1 & _ & T3 & _). destruct (C87_tool q1 o2) as (_ & T2 & T4 & _).
  destruct (convert_twice _ _ _ _ p q1 q2 data c d T1 T2 C E D P1 P2) as (d1 & d2 & E1 & E2 & C1 & C2 & O).
  exists d1, d2. split; [|split; [|split; assumption]].
  - destruct M as [->|[-> (b & x & -> & B)]]; [exact E1|]. rewrite (T3 d b x C). destruct (Z.eqb_spec b 0x10); [contradiction|exact E1].
  - assert (exists y, c = 0x10 :: y) as [y ->].
    { destruct c as [|b y]; [discriminate H|]. unfold slice in H. cbn -[Z.sub zlen] in H.
      destruct (Z.to_nat _) in H; cbn [firstn] in H; [discriminate H|]. injection H as -> _. exists y. reflexivity. }
    rewrite (T4 d1 0x10 y C1). exact E2.
Qed.
Print Assumptions C87_tool_twice.
(** a file that begins with 0x10 without being compressed is not restored *)
Theorem C87_tool_twice_refuted : exists d p, contents d p = Some [0x10; 0; 0] /\ fst (lz10tool None p None d) = Failed (Raised StructError).
Proof. exists (ex_disk [(ex_path "x", [0x10; 0; 0])]), (ex_path "x"). vm_compute. split; reflexivity. Qed.
Print Assumptions C87_tool_twice_refuted.
Example C87_ex_tool : let d := ex_disk [(ex_path "a.bin", ex_long)] in
  shows (andthen (lz10tool None (ex_path "a.bin") None) (lz10tool None (ex_path "a.bin.lz10") None) d)
    [(ex_path "a.bin", Some ex_long); (ex_path "a.bin.lz10.raw", Some ex_long); (ex_path "a.bin.raw", None)] = Some tt.
Proof. vm_compute. reflexivity. Qed.

(** ** C89: MainCodeFile.fromCompressed *)

(** on a file made by compress it gives the code file of the original data; the
    constructor gives the same as soon as the original does not itself look compressed *)
Theorem C89_fromCompressed : forall data a c ram ptr, zlen data < 2 ^ 24 -> code_compress data a = Ok c ->
  slice_from c (-4) <> [0; 0; 0; 0] ->
  mcf_fromCompressed c ram ptr = mcf_new data ram ptr /\
  (code_decompress data = Ok data -> mcf_new c ram ptr = mcf_fromCompressed c ram ptr).
Proof.
  intros data a c ram ptr L E N. pose proof (LzProps.C05_code_roundtrip data a c L E N) as D.
  unfold mcf_fromCompressed. rewrite D. cbn [bind]. split; [reflexivity|]. intros U. unfold mcf_new. rewrite D, U. reflexivity.
Qed.
Print Assumptions C89_fromCompressed.
(** otherwise fromCompressed decompresses once more, so that the two differ *)
Definition twice_compressed : bytes :=
  match code_compress (ex_long ++ ex_long) false with
  | Ok c1 => match code_compress (ex_long ++ c1) false with Ok c2 => c2 | Err _ => [] end
  | Err _ => []
  end.
Theorem C89_fromCompressed_same_refuted : exists c m m', mcf_fromCompressed c 0x2000000 None = Ok m /\ mcf_new c 0x2000000 None = Ok m' /\
  map sData (mSections m) = [ex_long ++ ex_long ++ ex_long] /\ map sData (mSections m') <> map sData (mSections m).
Proof.
  exists twice_compressed. eexists. eexists. split; [vm_compute; reflexivity|]. split; [vm_compute; reflexivity|].
  split; [vm_compute; reflexivity|]. vm_compute. discriminate.
Qed.
Print Assumptions C89_fromCompressed_same_refuted.
Example C89_ex : exists c, code_compress (ex_long ++ ex_long) false = Ok c /\ slice_from c (-4) <> [0; 0; 0; 0] /\
  code_decompress (ex_long ++ ex_long) = Ok (ex_long ++ ex_long).
Proof. eexists. split; [vm_compute; reflexivity|]. split; [vm_compute; discriminate|]. vm_compute. reflexivity. Qed.

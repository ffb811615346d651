(** * C90: objects created without data *)
From Coq Require Import String.
From Verif Require Import PyBase PyLemmas SeqModel SeqRead SsarModel SsarLemmas CommonModel WaveModel NarcModel TexModel NsbmdModel NsbmdProps CsoSpec CsoLemmas SbnkModel SdatModel FntModel RomModel RomSpec.

(** NintendoDSRom().save(): 0x4400 bytes with this header, the empty filename table
    at 0x4000 and padding; it loads as an empty ROM that saves as the same bytes *)
Definition fresh_header : bytes :=
  zeros 12 ++ asc "####" ++ [0; 0] ++ [0; 0; 9] ++ zeros 11                      (* title, codes, capacity *)
  ++ le 4 0x4000 ++ le 4 0x2000800 ++ le 4 0x2000000 ++ le 4 0                   (* ARM9 *)
  ++ le 4 0x4000 ++ le 4 0x2380000 ++ le 4 0x2380000 ++ le 4 0                   (* ARM7 *)
  ++ le 4 0x4000 ++ le 4 9 ++ le 4 0x4200 ++ le 4 0                              (* filenames, FAT *)
  ++ zeros 16                                                                    (* overlays *)
  ++ le 4 0x416657 ++ le 4 0x81808f8 ++ le 4 0 ++ le 2 0 ++ le 2 0xD7E           (* card control, icon, secure area *)
  ++ zeros 16 ++ le 4 0x4200 ++ le 4 0x4000 ++ zeros 0x38.
Theorem C90_rom : exists d r, rom_save false rom_new = Ok (d, rom_new) /\ zlen d = 0x4400 /\
  slice d 0 0xC0 = fresh_header /\ unle (slice d 0x15C 0x15E) = 0xCF56 /\ crc16 (slice d 0xC0 0x15C) = 0xCF56 /\
  unle (slice d 0x15E 0x160) = crc16 (slice d 0 0x15E) /\
  slice d 0x160 0x1000 = zeros 0xEA0 /\ slice d 0x1000 0x4000 = le 4 0x4200 ++ zeros 0x2FFC /\
  slice d 0x4000 0x4200 = [8; 0; 0; 0; 0; 0; 1; 0; 0] ++ rep 255 0x1F7 /\
  slice d 0x4200 0x4400 = zeros 0x200 /\
  rom_load 1 d = Ok r /\ files r = [] /\ filenames r = Folder [] [] 0 /\ sortedFileIds r = [] /\
  arm9 r = [] /\ arm7 r = [] /\ iconBanner r = [] /\ debugRom r = [] /\ idCode r = asc "####" /\ deviceCapacity r = 9 /\
  nintendoLogo r = nintendoLogo rom_new /\ secureAreaDisable r = secureAreaDisable rom_new /\ pad088 r = pad088 rom_new /\ pad16C r = pad16C rom_new /\
  rom_save false r = Ok (d, r).
Proof.
  assert (E : exists d, rom_save false rom_new = Ok (d, rom_new)) by (eexists; vm_compute; reflexivity).
  exists (match rom_save false rom_new with Ok (d, _) => d | Err _ => [] end).
  exists (match rom_save false rom_new with Ok (d, _) => match rom_load 1 d with Ok r => r | Err _ => rom_new end | Err _ => rom_new end).
  repeat (split; [vm_compute; reflexivity|]). vm_compute. reflexivity.
Qed.
Print Assumptions C90_rom.
(** ... but its device capacity cannot be computed: the ROM is too small *)
Theorem C90_rom_capacity_refuted : rom_save true rom_new = Err ValueError.
Proof. vm_compute. reflexivity. Qed.
Print Assumptions C90_rom_capacity_refuted.

Theorem C90_narc :
  narc_save narc_new = Ok (asc "NARC" ++ [0xFF; 0xFE; 1; 0] ++ le 4 0x38 ++ le 2 0x10 ++ le 2 3
    ++ asc "BTAF" ++ le 4 0xC ++ le 4 0 ++ asc "BTNF" ++ le 4 0x14 ++ [8; 0; 0; 0; 0; 0; 1; 0; 0; 0xFF; 0xFF; 0xFF] ++ asc "GMIF" ++ le 4 8) /\
  (forall d, narc_save narc_new = Ok d -> narc_load 1 d = Ok narc_new).
Proof. split; [vm_compute; reflexivity|]. intros d H. vm_compute in H. apply SeqRead.ok_inj in H. subst d. vm_compute. reflexivity. Qed.
Print Assumptions C90_narc.

(** SDAT().save(): an empty archive whose parts are where they belong *)
Definition fresh_sdat : bytes :=
  asc "SDAT" ++ [0xFF; 0xFE; 0; 1] ++ le 4 0xC0 ++ le 2 0x40 ++ le 2 3 ++ zeros 8 ++ le 4 0x40 ++ le 4 0x60 ++ le 4 0xA0 ++ le 4 0xC ++ le 4 0xAC ++ le 4 0x14 ++ zeros 16
  ++ asc "INFO" ++ le 4 0x60 ++ concat (map (le 4) [0x40; 0x44; 0x48; 0x4C; 0x50; 0x54; 0x58; 0x5C]) ++ zeros 24 ++ zeros 32
  ++ asc "FAT " ++ le 4 0xC ++ le 4 0 ++ asc "FILE" ++ le 4 0x14 ++ le 4 0 ++ zeros 8.
Theorem C90_sdat : sdat_save sdat_new = Ok fresh_sdat /\
  exists s, sdat_load [] fresh_sdat = Ok s /\ dSeqs s = [] /\ dArchs s = [] /\ dBanks s = [] /\ dWars s = [] /\ dPlayers s = [] /\ dGroups s = [] /\ dSPlayers s = [] /\ dStrms s = [].
Proof. split; [vm_compute; reflexivity|]. eexists. split; [vm_compute; reflexivity|]. repeat split. Qed.
Print Assumptions C90_sdat.
(** the settings are guessed differently, and the next save is not the same *)
Theorem C90_sdat_settings_refuted : exists s f, sdat_load [] fresh_sdat = Ok s /\ fileAlign sdat_new = 0x20 /\ fileAlign s = 0x200 /\ fatPad sdat_new = false /\ fatPad s = true /\
  sdat_save s = Ok f /\ zlen fresh_sdat = 0xC0 /\ zlen f = 0x200.
Proof. eexists. eexists. split; [vm_compute; reflexivity|]. repeat (split; [vm_compute; reflexivity|]). vm_compute. reflexivity. Qed.
Print Assumptions C90_sdat_settings_refuted.

Theorem C90_strm : forall info, strm_save (strm_new info) false = Ok (strm_new info, (asc "STRM" ++ [0xFF; 0xFE; 0; 1] ++ le 4 0x68 ++ le 2 0x10 ++ le 2 2
    ++ asc "HEAD" ++ le 4 0x50 ++ zeros 4 ++ le 2 8000 ++ zeros 10 ++ le 4 0x68 ++ zeros 52 ++ asc "DATA" ++ le 4 8, info)).
Proof. intros [[[[a b] c] d] e]. vm_compute; reflexivity. Qed.
Print Assumptions C90_strm.
(** it loads as no stream with any channels, and saves as the same bytes *)
Theorem C90_strm_reload : forall info s f, strm_save (strm_new info) false = Ok (s, f) -> exists s', strm_load (fst f) info = Ok s' /\ sChannels s' = [] /\ sRate s' = 8000 /\ sLooped s' = false /\
  sType s' = PCM8 /\ strm_save s' false = Ok (s', f).
Proof.
  intros info s f H. rewrite C90_strm in H. apply SeqRead.ok_inj in H. assert (F : f = snd (s, f)) by reflexivity. rewrite <- H in F. cbn [snd] in F. subst f. clear H s. destruct info as [[[[a b] c] d] e].
  eexists. split; [vm_compute; reflexivity|]. repeat (split; [reflexivity|]). vm_compute. reflexivity.
Qed.
Print Assumptions C90_strm_reload.
Theorem C90_swav : swav_save swav_new false false = Ok (swav_new, asc "SWAV" ++ [0xFF; 0xFE; 0; 1] ++ le 4 0x24 ++ le 2 0x10 ++ le 2 1 ++ asc "DATA" ++ le 4 0x14 ++ [0; 0] ++ le 2 8000 ++ zeros 8) /\
  forall d, swav_save swav_new false false = Ok (swav_new, d) -> swav_load d = Ok swav_new.
Proof. split; [vm_compute; reflexivity|]. intros d H. vm_compute in H. apply SeqRead.ok_inj in H. injection H as <-. vm_compute. reflexivity. Qed.
Print Assumptions C90_swav.
Theorem C90_sseq : forall info, sseq_save (sseq_new info) = Ok (asc "SSEQ" ++ [0xFF; 0xFE; 0; 1] ++ le 4 0x1C ++ le 2 0x10 ++ le 2 1 ++ asc "DATA" ++ le 4 0xC ++ le 4 0x1C, info) /\
  sseq_events (sseq_new info) = Ok [].
Proof. intros i. split; vm_compute; reflexivity. Qed.
Print Assumptions C90_sseq.

(** a sequence archive made from events is saved from the events: their data, the
    parameters of each sequence and the place where its first event went *)
Lemma list_index_inv l v k : SsarModel.list_index l v = Ok k -> 0 <= k /\ nth_error l (Z.to_nat k) = Some v.
Proof.
  revert k. induction l as [|x l IH]; intros k H; [discriminate H|]. cbn [SsarModel.list_index] in H. destruct (Z.eqb_spec x v) as [->|N].
  - injection H as <-. split; [lia|reflexivity].
  - apply bind_ok in H as (j & J & H). injection H as <-. destruct (IH _ J) as [J1 J2]. split; [lia|]. replace (Z.to_nat (j + 1)) with (S (Z.to_nat j)) by lia. exact J2.
Qed.
Theorem C90_ssar_fromEvents : forall events seqs unk f u l, ssar_save (ssar_fromEvents events seqs unk) = Ok (f, u, l) ->
  u = unk /\ l = map fst seqs /\ exists d offs rows starts, saveSequenceEvents events starts = Ok (d, offs) /\ f = ssar_bytes rows d /\
    Forall2 (fun p row => snd row = aParams (snd p) /\
      match aFirst (snd p) with Some e => exists k, nth_error starts k = Some e /\ nth_error offs k = Some (fst row) | None => fst row = -1 end) seqs rows.
Proof.
  intros events seqs unk f u l H. destruct (ssar_save_inv _ _ _ _ H) as (t & d & B & L & -> & ->). cbn [rUnk rSeqs ssar_fromEvents] in *. split; [reflexivity|]. split; [reflexivity|].
  pose proof B as B0. unfold ssar_body in B. cbn [rParsed rSeqs rEvents ssar_fromEvents] in B. apply bind_ok in B as (firsts & _ & B). cbv zeta in B. set (starts := flat_map _ firsts) in B. clearbody starts.
  apply bind_ok in B as ([ed offs] & S & B). apply bind_ok in B as (bs & M & B). injection B as <- <-.
  assert (G : exists rows, concat bs = concat (map arow rows) /\ Forall2 (fun p row => snd row = aParams (snd p) /\
    match aFirst (snd p) with Some e => exists k, nth_error starts k = Some e /\ nth_error offs k = Some (fst row) | None => fst row = -1 end) seqs rows).
  { apply mapM_Forall2 in M. clear - M. induction M as [|p b seqs bs P M IH]; [exists []; split; [reflexivity|constructor]|].
    destruct IH as (rows & E & F). apply bind_ok in P as (o & O & P). apply ssar_row_inv in P as (_ & _ & ->). exists ((o, aParams (snd p)) :: rows). split; [cbn [concat map]; rewrite E; reflexivity|].
    constructor; [|exact F]. cbn [fst snd]. split; [reflexivity|]. destruct (aFirst (snd p)) as [e|]; [|injection O as <-; reflexivity].
    apply bind_ok in O as (k & K & O). apply list_index_inv in K as [K1 K2]. exists (Z.to_nat k). split; [exact K2|]. unfold get in O. replace (k <? 0) with false in O by lia. destruct (k <? 0) eqn:C in O; [discriminate O|]. destruct (nth_error offs (Z.to_nat k)); [injection O as <-; reflexivity|discriminate O]. }
  destruct G as (rows & E & F). exists ed, offs, rows, starts. split; [exact S|]. split; [|exact F].
  rewrite E in B0. assert (Z : zlen rows = zlen seqs) by (clear - F; unfold zlen; induction F; cbn [length]; lia).
  rewrite (ssar_save_eq _ rows ed B0) in H; [injection H as <-; reflexivity|exact Z|rewrite Z; exact L].
Qed.
Print Assumptions C90_ssar_fromEvents.
Example C90_ssar_ex : exists f, ssar_save (ssar_fromEvents [(1, Rest 5); (2, Bare 0xFF); (3, Rest 6); (4, Bare 0xFF)] [(Some [65], aseq_parsed (Some 3) (1, 2, 3, 4, 5)); (None, aseq_parsed None (0, 0, 0, 0, 0))] 7) = Ok (f, 7, [Some [65]; None]) /\
  f = ssar_bytes [(3, (1, 2, 3, 4, 5)); (-1, (0, 0, 0, 0, 0))] [0x80; 5; 0xFF; 0x80; 6; 0xFF].
Proof. eexists. split; vm_compute; reflexivity. Qed.

(** a model file without textures gets an empty texture block when it is saved *)
Definition empty_tex : bytes :=
  asc "TEX0" ++ le 4 0x5C ++ zeros 4 ++ [0; 0; 0x3C; 0] ++ zeros 4 ++ le 4 0x5C ++ zeros 4 ++ [0; 0; 0x3C; 0] ++ zeros 4 ++ le 4 0x5C ++ le 4 0x5C
  ++ zeros 8 ++ le 4 0x4C ++ le 4 0x5C
  ++ [0; 0; 16; 0; 8; 0; 12; 0; 127; 1; 0; 0; 8; 0; 4; 0] ++ [0; 0; 16; 0; 8; 0; 12; 0; 127; 1; 0; 0; 4; 0; 4; 0].
Lemma read_block_tex f m o m' : 0 <= o -> slice f o (o + 4) <> asc "TEX0" -> read_block f m o = Ok m' -> nTex m' = nTex m.
Proof.
  intros P N H. unfold read_block in H. apply bind_ok in H as (g & G & H). pose proof (rd_ok_inv _ _ _ _ P G) as L. rewrite rd_slice in G by lia. apply SeqRead.ok_inj in G. subst g.
  apply bind_ok in H as (n & _ & H). cbv zeta in H. destruct (beq _ (asc "MDL0")).
  - apply bind_ok in H as (names & _ & H). apply SeqRead.ok_inj in H. subst m'. reflexivity.
  - destruct (beq (slice f o (o + 4)) (asc "TEX0")) eqn:E; [apply beq_eq in E; destruct (N E)|discriminate H].
Qed.
Theorem C90_no_textures : forall f m f', is_bytes f -> nsbmd_load f = Ok m ->
  (forall i, 0 <= i < half f 14 -> slice f (word f (16 + 4 * i)) (word f (16 + 4 * i) + 4) <> asc "TEX0") ->
  nTex m = {| x08 := 0; x10 := 0; x18 := 0; x20 := 0; x2C := 0; x32 := 0; xTextures := []; xPalettes := [] |} /\
  (nsbmd_save m = Ok f' -> exists mdl, nMDL0 m = Some mdl /\ slice f' 24 (24 + zlen mdl) = mdl /\ slice f' (24 + zlen mdl) (zlen f') = empty_tex).
Proof.
  intros f m f' B L N. assert (T : nTex m = nTex nsbmd_new).
  { unfold nsbmd_load in L. apply bind_ok in L as (? & _ & L). apply bind_ok in L as (h & H & L). apply bind_ok in L as (? & _ & L). apply bind_ok in L as (offs & W & L).
    assert (C : hBlocks h = half f 14).
    { unfold std_unpack in H. do 5 (apply bind_ok in H as (? & _ & H)). apply bind_ok in H as (k & K & H). apply SeqRead.ok_inj in H. subst h. cbn [hBlocks]. unfold unpack_u, unpack_e in K. apply bind_ok in K as (b & K & E).
      pose proof (rd_ok_inv f 14 (Z.of_nat 2) b ltac:(lia) K). rewrite rd_slice in K by lia. apply SeqRead.ok_inj in K. apply SeqRead.ok_inj in E. subst b k. reflexivity. }
    assert (F : Forall (fun o => 0 <= o /\ slice f o (o + 4) <> asc "TEX0") offs).
    { clear L. unfold words in W. apply mapM_Forall2 in W. rewrite C in W. assert (R : forall i, In i (range_z 0 (Z.to_nat (half f 14))) -> 0 <= i < half f 14) by (intros i I; apply in_range_z in I; lia).
      revert R W. generalize (range_z 0 (Z.to_nat (half f 14))). intros is R W. induction W as [|i o is offs I W IH]; [constructor|]. constructor; [|apply IH; intros j J; apply R; right; exact J].
      specialize (R i (or_introl eq_refl)). apply unpack_word in I as [_ I]. unfold from_end in I. replace (16 + 4 * i <? 0) with false in I by lia. change (o = word f (16 + 4 * i)) in I. subst o. split; [apply unle_range, is_bytes_slice, B|apply N, R]. }
    clear W C H N. revert L. generalize nsbmd_new. induction F as [|o offs [P O] F IH]; intros m0 L; cbn [foldM] in L; [apply SeqRead.ok_inj in L; subst m0; reflexivity|].
    apply bind_ok in L as (m1 & L1 & L). rewrite (IH _ L). exact (read_block_tex _ _ _ _ P O L1). }
  rewrite T. split; [reflexivity|]. intros S. destruct (C71_layout m f' S) as (mdl & tex & M & X & _ & _ & _ & _ & _ & _ & Y & Z). exists mdl. split; [exact M|]. split; [exact Y|]. rewrite Z.
  rewrite T in X. vm_compute in X. apply SeqRead.ok_inj in X. subst tex. reflexivity.
Qed.
Print Assumptions C90_no_textures.
Definition only_mdl0 : bytes := asc "BMD0" ++ [0xFF; 0xFE] ++ le 2 2 ++ le 4 (20 + 280) ++ le 2 16 ++ le 2 1 ++ le 4 20 ++ demo_mdl0.
Example C90_no_textures_ex : is_bytes only_mdl0 /\ half only_mdl0 14 = 1 /\ slice only_mdl0 (word only_mdl0 16) (word only_mdl0 16 + 4) = asc "MDL0" /\
  exists m f', nsbmd_load only_mdl0 = Ok m /\ nModels m = Some [asc "tree"] /\ nsbmd_save m = Ok f' /\ zlen f' = 24 + 280 + 0x5C.
Proof.
  split; [apply forallb_byteb; vm_compute; reflexivity|]. split; [vm_compute; reflexivity|]. split; [vm_compute; reflexivity|]. eexists. eexists. split; [vm_compute; reflexivity|]. repeat split; vm_compute; reflexivity.
Qed.

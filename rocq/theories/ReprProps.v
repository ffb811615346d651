(** * C100: representations are expressions that give the object back *)
From Coq Require Import String Lia.
From Verif Require Import PyBase TextModel TextSpec SeqTextSpec ReprModel ReprSpec ReprLemmas ReprObjects.
From Verif Require BnModel ColorModel FntModel FntSpec NarcModel RomModel CodeModel BmgModel TexModel WaveModel SbnkModel SsarModel SdatModel.

Ltac is_short := split; [repeat constructor; unfold is_byte; lia|split; [vm_compute; discriminate|vm_compute; intuition discriminate]].

(** ** texts and names *)
Theorem C100_str : forall printable s, is_text s -> expr (repr_str printable s) = Some (VStr s).
Proof. intros p s H. apply reads_expr, reads_str, H. Qed.
Print Assumptions C100_str.
Example C100_str_ex : is_text [97; 39; 0x3042; 10; 0x1F600; 0xAD] /\
  repr_str (fun c => c =? 0x3042) [97; 39; 0x3042; 10; 0x1F600; 0xAD] = [34; 97; 39; 0x3042] ++ asc "\n\U0001f600\xad" ++ [34].
Proof. split; [repeat constructor; lia|vm_compute; reflexivity]. Qed.

Theorem C100_folder : forall printable f, folder_texts f -> exists v, expr (folder_repr printable f) = Some v /\ eval_folder v = Some f.
Proof. intros p f H. apply says_expr, folder_says, H. Qed.
Print Assumptions C100_folder.
Example C100_folder_ex : let f := FntModel.Folder [(asc "a'b", FntModel.Folder [] [asc "x"; asc "y"] 7)] [asc "z"] 3 in
  folder_texts f /\ folder_repr (fun _ => true) f = asc "Folder([(""a'b"", Folder([], ['x', 'y'], 7))], ['z'], 3)".
Proof.
  split; [|vm_compute; reflexivity]. intros g H. inversion H as [|r n f0 I H1]; subst.
  - cbn. split; repeat constructor; cbn; lia.
  - cbn in I. destruct I as [I|[]]. injection I as <- <-. inversion H1 as [|r n f0 I H2]; subst; [|destruct I]. cbn. split; repeat constructor; cbn; lia.
Qed.

Theorem C100_touch_areas : forall b, exists v, expr (bnbl_repr b) = Some v /\ eval_bnbl v = Some b.
Proof. intro b. apply says_expr, bnbl_says. Qed.
Print Assumptions C100_touch_areas.
Theorem C100_image_positions : forall b, exists v, expr (bncl_repr b) = Some v /\ eval_bncl v = Some b.
Proof. intro b. apply says_expr, bncl_says. Qed.
Print Assumptions C100_image_positions.
Example C100_touch_areas_ex :
  bnbl_repr {| BnModel.blUnk04 := 0; BnModel.blAreas := [{| BnModel.taX := 1; BnModel.taY := -2; BnModel.taW := 3; BnModel.taH := 4; BnModel.taAlign := 0x81 |}] |} =
    asc "BNBL.fromTouchAreas([BNBLTouchArea(1, -2, 3, 4, 129)])" /\
  bncl_repr {| BnModel.clUnk04 := 7; BnModel.clPositions := [] |} = asc "BNCL.fromImagePositions([], 7)".
Proof. split; vm_compute; reflexivity. Qed.

(** ** NARC *)
Theorem C100_narc : forall printable n, folder_texts (NarcModel.nFilenames n) -> zlen (NarcModel.nFiles n) <= 1 -> Forall short (NarcModel.nFiles n) -> NarcModel.nEndian n = LE ->
  exists s v, narc_repr printable n = Ok s /\ expr s = Some v /\ eval_narc v = Some n.
Proof.
  intros p n T L S E. destruct (narc_says p n T L S) as (s & R & Y). destruct (says_expr _ _ _ Y) as (v & V & W). exists s, v. split; [exact R|]. split; [exact V|]. rewrite W. f_equal.
  destruct n as [f l e]. cbn [NarcModel.nEndian] in E. subst e. reflexivity.
Qed.
Print Assumptions C100_narc.
Example C100_narc_ex : let n := {| NarcModel.nFilenames := FntModel.Folder [] [asc "x"] 0; NarcModel.nFiles := [[1; 50; 255]]; NarcModel.nEndian := LE |} in
  narc_repr (fun _ => true) n = Ok (asc "NARC.fromFilesAndNames([b'\x012\xff'], Folder([], ['x'], 0))") /\ Forall short (NarcModel.nFiles n).
Proof. split; [vm_compute; reflexivity|]. constructor; [is_short|constructor]. Qed.
(** with more files only the first is shown *)
Theorem C100_narc_files_refuted : forall printable n f g r, folder_texts (NarcModel.nFilenames n) -> NarcModel.nFiles n = f :: g :: r -> short f ->
  exists s v, narc_repr printable n = Ok s /\ expr s = Some v /\ eval_narc v = None.
Proof. exact narc_more. Qed.
Print Assumptions C100_narc_files_refuted.
(** the byte order of the header is not shown *)
Theorem C100_narc_order_refuted : exists n s v, (forall printable, narc_repr printable n = Ok s) /\ expr s = Some v /\ eval_narc v <> Some n /\ eval_narc v <> None.
Proof.
  exists {| NarcModel.nFilenames := FntModel.Folder [] [] 0; NarcModel.nFiles := []; NarcModel.nEndian := BE |}, (asc "NARC.fromFilesAndNames([], Folder([], [], 0))"),
    (VCall (asc "NARC.fromFilesAndNames") [VList []; VCall (asc "Folder") [VList []; VList []; VInt 0]]). split; [reflexivity|]. split; [vm_compute; reflexivity|]. split; vm_compute; discriminate.
Qed.
Print Assumptions C100_narc_order_refuted.

(** ** code *)
Theorem C100_section : forall s, section_ok s -> exists t v, section_repr s = Ok t /\ expr t = Some v /\ eval_section v = Some s.
Proof. intros s H. destruct (section_says s H) as (t & E & S). destruct (says_expr _ _ _ S) as (v & V & W). exists t, v. auto. Qed.
Print Assumptions C100_section.
Theorem C100_main_code : forall m, Forall section_ok (CodeModel.mSections m) -> 0 <= CodeModel.mRam m ->
  exists t v, mcf_repr m = Ok t /\ expr t = Some v /\ eval_mcf v = Some (CodeModel.mSections m, CodeModel.mRam m).
Proof. intros m F A. destruct (mcf_says m F A) as (t & E & S). destruct (says_expr _ _ _ S) as (v & V & W). exists t, v. auto. Qed.
Print Assumptions C100_main_code.
Example C100_code_ex : let s := {| CodeModel.sData := [9; 65]; CodeModel.sRam := 0x2000AB0; CodeModel.sBss := 0x1C; CodeModel.sImplicit := true |} in
  section_ok s /\ mcf_repr {| CodeModel.mSections := [s]; CodeModel.mRam := 0x2000000; CodeModel.mCso := None |} =
    Ok (asc "MainCodeFile.fromSections([Section(b'\tA', 0x02000AB0, 0x1C, implicit=True)], 0x02000000)").
Proof. split; [|vm_compute; reflexivity]. split; [is_short|cbn; lia]. Qed.
(** an overlay: the arguments are those of the constructor; without the flag for
    compressed data, the result is the same overlay *)
Theorem C100_overlay : forall o, short (CodeModel.oData o) ->
  Forall (Z.le 0) [CodeModel.oRamAddress o; CodeModel.oRamSize o; CodeModel.oBssSize o; CodeModel.oSiStart o; CodeModel.oSiEnd o; CodeModel.oFileID o; CodeModel.oCompressedSize o; CodeModel.oFlags o] ->
  exists t v a b c d e f g h, overlay_repr o = Ok t /\ expr t = Some v /\ eval_overlay v = Some (CodeModel.oData o, [a; b; c; d; e; f; g; h]) /\
    (Z.land (CodeModel.oFlags o) 1 = 0 -> CodeModel.overlay_new (CodeModel.oData o) a b c d e f g h = Ok o).
Proof.
  intros o S F. destruct (overlay_says o S F) as (t & E & Y). destruct (says_expr _ _ _ Y) as (v & V & W). exists t, v. do 8 eexists. split; [exact E|]. split; [exact V|]. split; [exact W|].
  intro C. unfold CodeModel.overlay_new, CodeModel.flags_compressed. rewrite C. destruct o; reflexivity.
Qed.
Print Assumptions C100_overlay.
Example C100_overlay_ex : overlay_repr {| CodeModel.oData := [1; 2]; CodeModel.oRamAddress := 0x2010000; CodeModel.oRamSize := 2; CodeModel.oBssSize := 0; CodeModel.oSiStart := 16; CodeModel.oSiEnd := 32;
    CodeModel.oFileID := 5; CodeModel.oCompressedSize := 171; CodeModel.oFlags := 2 |} = Ok (asc "Overlay(b'\1\2', 0x02010000, 0x2, 0x0, 0x00000010, 0x00000020, 5, 0xAB, 0x2)") /\ short [1; 2].
Proof. split; [vm_compute; reflexivity|]. is_short. Qed.
(** with the flag, the constructor takes the data, which is not compressed any more, for compressed data *)
Theorem C100_overlay_refuted : let d := [13; 208; 9; 144; 3; 48; 0; 0; 7; 7; 7; 30; 20; 0; 0; 8; 20; 0; 0; 0] in
  let o := {| CodeModel.oData := d; CodeModel.oRamAddress := 0; CodeModel.oRamSize := 20; CodeModel.oBssSize := 0; CodeModel.oSiStart := 0; CodeModel.oSiEnd := 0;
    CodeModel.oFileID := 0; CodeModel.oCompressedSize := 20; CodeModel.oFlags := 1 |} in
  option_map eval_overlay (match overlay_repr o with Ok t => expr t | Err _ => None end) = Some (Some (d, [0; 20; 0; 0; 0; 0; 20; 1])) /\
  exists o', CodeModel.overlay_new d 0 20 0 0 0 0 20 1 = Ok o' /\ CodeModel.oData o' = repeat 7 40.
Proof.
  split; [vm_compute; reflexivity|]. exists {| CodeModel.oData := repeat 7 40; CodeModel.oRamAddress := 0; CodeModel.oRamSize := 20; CodeModel.oBssSize := 0; CodeModel.oSiStart := 0; CodeModel.oSiEnd := 0;
    CodeModel.oFileID := 0; CodeModel.oCompressedSize := 20; CodeModel.oFlags := 1 |}. split; [vm_compute; reflexivity|reflexivity].
Qed.
Print Assumptions C100_overlay_refuted.

(** ** BMG *)
Theorem C100_message : forall printable m, message_ok m -> exists v, expr (message_repr printable m) = Some v /\
  eval_message v = Some (BmgModel.mkMessage (BmgModel.mInfo m) (BmgModel.mParts m) false).
Proof. intros p m H. apply says_expr, message_says, H. Qed.
Print Assumptions C100_message.
Theorem C100_bmg : forall printable b, Forall message_ok (BmgModel.bMessages b) -> Forall is_bytes (BmgModel.bInstructions b) ->
  exists v ms, expr (bmg_repr printable b) = Some v /\ eval_bmg v = Some (ms, BmgModel.bInstructions b, BmgModel.bLabels b, BmgModel.bScripts b, BmgModel.bId b) /\
    Forall2 (fun m m' => BmgModel.mInfo m' = BmgModel.mInfo m /\ BmgModel.mParts m' = BmgModel.mParts m /\ (BmgModel.mNull m = false -> m' = m)) (BmgModel.bMessages b) ms.
Proof.
  intros p b M I. destruct (says_expr _ _ _ (bmg_says p b M I)) as (v & V & W). exists v. eexists. split; [exact V|]. split; [exact W|].
  clear. induction (BmgModel.bMessages b) as [|m l IH]; constructor; [|exact IH]. repeat split. intro N. destruct m as [i q n]. cbn in N. subst n. reflexivity.
Qed.
Print Assumptions C100_bmg.
Example C100_bmg_ex : let b := BmgModel.mkBmg [BmgModel.mkMessage [1; 0] [BmgModel.Txt (asc "Hi"); BmgModel.Esc 5 [7; 39]] false] [] [(1, 2)] [(3, 4); (5, 6)] 26 BmgModel.Utf8 LE 0 0 0 in
  bmg_repr (fun _ => true) b = asc "BMG.fromMessages([Message(b'\x01\x00', ['Hi', Escape(5, b""\x07'"")])], labels=[(1, 2)], scripts=[(3, 4), (5, 6)], id=0x1a)" /\
  Forall message_ok (BmgModel.bMessages b).
Proof. split; [vm_compute; reflexivity|]. repeat constructor; cbn; unfold is_byte; lia. Qed.
(** a null message is not shown as one *)
Theorem C100_null_refuted : exists m v, message_ok m /\ (forall printable, expr (message_repr printable m) = Some v) /\ eval_message v <> Some m.
Proof. exists (BmgModel.mkMessage [] [] true), (VCall (asc "Message") [VBytes []; VList []]). split; [split; constructor|]. split; [reflexivity|vm_compute; discriminate]. Qed.
Print Assumptions C100_null_refuted.

(** ** textures and palettes *)
Theorem C100_texture : forall t, 0 <= TexModel.txFmt t < 8 -> 0 <= TexModel.txMode t < 4 -> short (TexModel.txD1 t) -> short (TexModel.txD2 t) ->
  (exists a, 0 <= a < 8 /\ TexModel.txW t = 8 * 2 ^ a) -> (exists b, 0 <= b < 8 /\ TexModel.txH t = 8 * 2 ^ b) ->
  exists v, expr (texture_repr t) = Some v /\ eval_texture v = Some t.
Proof.
  intros t F M S1 S2 (a & Ha & W) (b & Hb & H).
  destruct (TexLemmas.params_ok_all (TexModel.tx00 t) (TexModel.tx02 t) (TexModel.txRepS t) (TexModel.txRepT t) (TexModel.txMirS t) (TexModel.txMirT t) a b (TexModel.txFmt t) (TexModel.txC0 t) (TexModel.txMode t) (TexModel.tx04 t) (TexModel.txD1 t) (TexModel.txD2 t) Ha Hb F M) as [P1 P2].
  assert (T : TexModel.tex_fromFlags (TexModel.tx00 t) (TexModel.tx02 t) (TexModel.txRepS t) (TexModel.txRepT t) (TexModel.txMirS t) (TexModel.txMirT t) (8 * 2 ^ a) (8 * 2 ^ b) (TexModel.txFmt t) (TexModel.txC0 t) (TexModel.txMode t) (TexModel.tx04 t) (TexModel.txD1 t) (TexModel.txD2 t) = t).
  { unfold TexModel.tex_fromFlags. rewrite <- W, <- H. destruct t; reflexivity. }
  rewrite T in P1, P2. eassert (E : TexModel.tex_save t = Ok _) by (unfold TexModel.tex_save; rewrite P1; reflexivity).
  apply says_expr. pose proof (texture_says _ _ _ _ _ _ _ E S1 S2) as Y. rewrite (proj1 (tex_same _ _ _ _ _ _ _ F M E)) in Y. exact Y.
Qed.
Print Assumptions C100_texture.
Theorem C100_palette : forall p, zlen (TexModel.plColors p) <= 20 -> exists v, expr (palette_repr p) = Some v /\ eval_palette v = Some p.
Proof. intros p H. apply says_expr, palette_says, H. Qed.
Print Assumptions C100_palette.
Example C100_texture_ex :
  texture_repr (TexModel.tex_new 0 1 (Z.shiftl 4 10) 3 [1; 2; 65] []) = asc "Texture(0, 1, 0x1000, 3, b'\1\2A', b'')" /\
  palette_repr {| TexModel.pl00 := 1; TexModel.pl02 := 2; TexModel.plH02 := 0; TexModel.plColors := [ColorModel.C4 255 0 8 255; ColorModel.C4 0 0 0 0] |} =
    asc "Palette.fromColors(1, 2, 0, [(255,0,8,255), (0,0,0,0)])".
Proof. split; vm_compute; reflexivity. Qed.
(** more than twenty colours are not shown; a texture that cannot be saved is not shown *)
Theorem C100_palette_refuted : forall p, 20 < zlen (TexModel.plColors p) -> exists v, expr (palette_repr p) = Some v /\ eval_palette v = None.
Proof. exact palette_more. Qed.
Print Assumptions C100_palette_refuted.
Theorem C100_texture_refuted : forall t e, TexModel.tex_save t = Err e -> exists v, expr (texture_repr t) = Some v /\ eval_texture v = None.
Proof. exact texture_fails. Qed.
Print Assumptions C100_texture_refuted.
Example C100_palette_refuted_ex : 20 < zlen (repeat (ColorModel.C4 1 2 3 4) 21) /\ exists e, TexModel.tex_save (TexModel.tex_fromFlags 0 0 false false false false 9 8 1 false 0 0 [] []) = Err e.
Proof. split; [vm_compute; reflexivity|]. eexists. vm_compute. reflexivity. Qed.

(** ** sound *)
Theorem C100_player : forall p, exists v, expr (player_repr p) = Some v /\ eval_player v = Some p.
Proof. intro p. apply says_expr, player_says. Qed.
Print Assumptions C100_player.
Theorem C100_archive_sequence : forall ids heap depth s, SsarModel.aParsed s = false -> let '(b, v, c, p, y) := SsarModel.aParams s in
  exists t x, aseq_repr ids heap depth s = Ok t /\ expr t = Some x /\ eval_aseq x = Some (SsarModel.aOffset s, [b; v; c; p; y]).
Proof.
  intros ids heap depth s P. pose proof (aseq_says ids heap depth s P) as H. destruct (SsarModel.aParams s) as [[[[b v] c] p] y]. destruct H as (t & E & S). destruct (says_expr _ _ _ S) as (x & X & Y). exists t, x. auto.
Qed.
Print Assumptions C100_archive_sequence.
Theorem C100_stream : forall s, (length (WaveModel.sChannels s) <= 1)%nat -> Forall (fun c => (length c <= 1)%nat /\ Forall short c) (WaveModel.sChannels s) ->
  let '(unk02, volume, priority, playerID, unk07) := WaveModel.sInfo s in
  exists t v, strm_repr s = Ok t /\ expr t = Some v /\ eval_strm v = Some (WaveModel.sChannels s, [unk02; volume; priority; playerID; unk07]).
Proof.
  intros s L F. pose proof (strm_says s L F) as H. destruct (WaveModel.sInfo s) as [[[[a b] c] d] e]. destruct H as (t & E & S). destruct (says_expr _ _ _ S) as (x & X & Y). exists t, x. auto.
Qed.
Print Assumptions C100_stream.
Example C100_sound_ex : player_repr (8, [0; 3], 6144) = asc "SequencePlayer(8, {0, 3}, 6144)" /\ player_repr (8, [], 6144) = asc "SequencePlayer(8, set(), 6144)" /\
  aseq_repr (fun _ => 0) (fun _ => SeqModel.Rest 0) 9 {| SsarModel.aParsed := false; SsarModel.aFirst := None; SsarModel.aOffset := Some 12; SsarModel.aParams := (1, 2, 3, 4, 5) |} =
    Ok (asc "SSARSequence(12, 1, 2, 3, 4, 5, parsed=False)").
Proof. repeat split; vm_compute; reflexivity. Qed.
(** the conditions in StreamPlayer.__repr__ are the wrong way round: every stream player
    is shown as one without channels *)
Theorem C100_stream_player_refuted : forall l, exists v, expr (splayer_repr l) = Some v /\ eval_splayer v = Some [] /\ (l <> [] -> eval_splayer v <> Some l).
Proof. intro l. destruct (splayer_reads l) as (v & E & W). exists v. split; [exact E|]. split; [exact W|]. intros N C. rewrite W in C. injection C as C. apply N. congruence. Qed.
Print Assumptions C100_stream_player_refuted.
(** what save returns makes the same player again; the representation makes the one the
    constructor makes by default *)
Theorem C100_stream_player : forall l, splayer_new (Some (splayer_save l)) = l /\ exists v, expr (splayer_repr l) = Some v /\ eval_splayer v = Some (splayer_new None).
Proof. intro l. split; [reflexivity|]. exact (splayer_reads l). Qed.
Print Assumptions C100_stream_player.
Example C100_stream_player_ex : splayer_repr (splayer_new (Some [0; 3])) <> splayer_repr (splayer_new None) /\ splayer_save (splayer_new (Some [0; 3])) = [0; 3].
Proof. split; [vm_compute; discriminate|reflexivity]. Qed.
(** a sequence that has not been parsed shows its events data, where the constructor
    expects a file *)
Theorem C100_sequence_refuted : forall ids heap depth s, SsarModel.qParsed s = false -> short (SsarModel.qData s) ->
  exists t v, sseq_repr ids heap depth s = Ok t /\ expr t = Some v /\ eval_file (asc "SSEQ") v = Some (SsarModel.qData s) /\
    (firstn 4 (SsarModel.qData s) <> asc "SSEQ" -> forall info, SsarModel.sseq_load (SsarModel.qData s) info = Err ValueError).
Proof.
  intros ids heap depth s P S. destruct (sseq_unparsed ids heap depth s P S) as (t & E & Y). destruct (says_expr _ _ _ Y) as (v & V & W). exists t, v. repeat (split; [assumption|]).
  intros N info. unfold SsarModel.sseq_load. destruct (prefixb (asc "SSEQ") (SsarModel.qData s)) eqn:B; [|reflexivity]. exfalso. apply N. clear N.
  destruct (SsarModel.qData s) as [|a [|b [|c [|d r]]]]; cbn in B; rewrite ?andb_false_r in B; try discriminate B. repeat (apply andb_true_iff in B; destruct B as [? B]). assert (a = 83 /\ b = 83 /\ c = 69 /\ d = 81) as (-> & -> & -> & ->) by lia. reflexivity.
Qed.
Print Assumptions C100_sequence_refuted.
Example C100_sequence_ex : short [0x80; 5; 0xFF] /\ sseq_repr (fun _ => 0) (fun _ => SeqModel.Rest 0) 9 {| SsarModel.qParsed := false; SsarModel.qEvents := []; SsarModel.qData := [0x80; 5; 0xFF]; SsarModel.qInfo := (0, 0, 0, 0, 0, 0) |} =
  Ok (asc "SSEQ(b'\x80\5\xff')").
Proof. split; [is_short|vm_compute; reflexivity]. Qed.

(** ** representations that are no expressions *)
Theorem C100_no_expression_refuted :
  (forall g, expr (group_repr g) = None) /\ (forall r, expr (rom_repr r) = None) /\
  (forall n, 1 <= SbnkModel.nType n <= 3 -> expr (note_repr n) = None) /\
  (forall w s, short (WaveModel.wData w) \/ long (WaveModel.wData w) -> swav_repr w = Ok s -> expr s = None) /\
  (forall c s, long (CodeModel.sData c) -> section_repr c = Ok s -> expr s = None) /\
  (forall o s, long (CodeModel.oData o) -> overlay_repr o = Ok s -> expr s = None) /\
  (forall s d, SdatModel.sdat_save s = Ok d -> long d -> expr (sdat_repr s) = None).
Proof.
  split; [intro g; apply stuck_expr, group_stuck|]. split; [intro r; apply stuck_expr, rom_stuck|]. split; [intros n H; apply stuck_expr, note_stuck, H|].
  split; [intros w s D E; exact (stuck_expr _ (swav_stuck _ _ D E))|]. split; [intros c s D E; exact (stuck_expr _ (section_stuck _ _ D E))|].
  split; [intros o s D E; exact (stuck_expr _ (overlay_stuck _ _ D E))|]. intros s d E D; exact (stuck_expr _ (sdat_stuck _ _ E D)).
Qed.
Print Assumptions C100_no_expression_refuted.
Example C100_no_expression_ex :
  group_repr {| WaveModel.gType := 1; WaveModel.gId := 7; WaveModel.gLoadSSEQ := true; WaveModel.gSwarIds := false; WaveModel.gLoadSWAR := false; WaveModel.gLoadSSAR := false |} =
    asc "GroupEntry.fromFlags(<GroupEntryType.SBNK: 1>, 7, loadSSEQ=True, loadSBNKSWARsFrom=<SWARLoadMethod.FILE_IDS: 0>)" /\
  note_repr {| SbnkModel.nWave := 0; SbnkModel.nArch := 0; SbnkModel.nPitch := 60; SbnkModel.nAttack := 127; SbnkModel.nDecay := 127; SbnkModel.nSustain := 127; SbnkModel.nRelease := 127; SbnkModel.nPan := 64; SbnkModel.nType := 1 |} =
    asc "NoteDefinition(0, 0, 60, 127, 127, 127, 127, 64, <NoteType.PCM: 1>)" /\
  long (repeat 65 33).
Proof. split; [vm_compute; reflexivity|]. split; [vm_compute; reflexivity|]. repeat split; [repeat constructor; unfold is_byte; lia|vm_compute; intuition discriminate]. Qed.

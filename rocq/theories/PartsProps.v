(** * Files made from parts contain the parts (C123) *)
From Coq Require Import String.
From Verif Require Import PyBase PyLemmas ColorModel ColorLemmas FntModel FntSpec FntSaveLemmas NarcModel NarcLemmas BmgModel BmgSpec BnModel BnLemmas WaveModel WaveLemmas SbnkModel TexModel TexSpec SsarModel PartsModel.
From Verif Require NarcProps BmgProps BnProps WaveProps SsarProps.
From Verif Require Import TexProps SbnkProps.

(** NARC.fromFilesAndNames: the files given, the names given or none *)
Theorem C123_archive : forall fs names b tail depth, narc_save (fromFilesAndNames fs names) = Ok b ->
  (forall t, names = Some t -> files_named t /\ (height t <= depth)%nat) -> (1 <= depth)%nat ->
  narc_load depth (b ++ tail) = Ok {| nFilenames := match names with Some t => t | None => Folder [] [] 0 end; nFiles := fs; nEndian := LE |}.
Proof.
  intros fs names b tail depth S N D. rewrite (NarcProps.C12_roundtrip _ b tail depth S).
  - destruct names; reflexivity.
  - destruct names as [t|]; cbn [nFilenames fromFilesAndNames]; [apply (N t eq_refl)|]. intros g G. inversion G; subst; [constructor|]. contradiction.
  - destruct names as [t|]; cbn [nFilenames fromFilesAndNames]; [apply (N t eq_refl)|]. exact D.
Qed.
Print Assumptions C123_archive.
Example C123_archive_ex : exists b, narc_save (fromFilesAndNames [[1; 2; 3]; []] None) = Ok b /\
  narc_load 1 (b ++ [7]) = Ok {| nFilenames := Folder [] [] 0; nFiles := [[1; 2; 3]; []]; nEndian := LE |}.
Proof. eexists. split; vm_compute; reflexivity. Qed.

(** BMG.fromMessages: the messages, instructions, labels, scripts and ID given, in little-endian UTF-16 *)
Theorem C123_messages : forall sj id0 ms ins labels scripts id data, bmg_save sj (bmg_fromMessages ms ins labels scripts id) = Ok data ->
  texts_ok (bmg_fromMessages ms ins labels scripts id) -> canonical (bmg_fromMessages ms ins labels scripts id) -> length_tells LE (claimed_len data) ->
  exists b, bmg_load sj id0 data = Ok b /\ bMessages b = ms /\
    (forall x, ins = Some x -> bInstructions b = x) /\ (ins = None -> bInstructions b = []) /\
    (forall x, labels = Some x -> bLabels b = x) /\ (labels = None -> bLabels b = []) /\
    (forall x, scripts = Some x -> bScripts b = x) /\ (scripts = None -> bScripts b = []) /\
    (forall x, id = Some x -> bId b = x) /\ (id = None -> bId b = 0) /\
    bEncoding b = Utf16 /\ bEndian b = LE /\ (bUnk14 b, bUnk18 b, bUnk1C b) = (0, 0, 0).
Proof.
  intros sj id0 ms ins labels scripts id data S T C L. exists (bmg_fromMessages ms ins labels scripts id). split.
  - apply BmgProps.C21_canonical_roundtrip; try assumption. discriminate.
  - repeat split; intros; subst; reflexivity.
Qed.
Print Assumptions C123_messages.
Definition ex_messages : bmg := bmg_fromMessages [{| mInfo := [1; 2]; mParts := [Txt (asc "Hi")]; mNull := false |}] None (Some [(3, 4)]) None (Some 9).
Example C123_messages_ex : exists data b, bmg_save BmgProps.sj_ascii ex_messages = Ok data /\ bmg_load BmgProps.sj_ascii 5 data = Ok b /\ bLabels b = [(3, 4)] /\ bScripts b = [] /\ bId b = 9 /\
  texts_ok ex_messages /\ canonical ex_messages /\ length_tells LE (claimed_len data).
Proof.
  eexists. eexists. split; [vm_compute; reflexivity|]. split; [vm_compute; reflexivity|]. repeat (split; [reflexivity|]). split.
  - intros m s [<- | []] [E|[]]. inversion E; subst. repeat constructor; lia.
  - split; [|vm_compute; reflexivity]. repeat split.
    + intros m [<- | []]. reflexivity.
    + intros i [].
    + intros l [<- | []]. discriminate.
    + intros s0 [].
Qed.

(** BNBL.fromTouchAreas and BNCL.fromImagePositions *)
Theorem C123_touch_areas : forall areas u tail, (forall x, u = Some x -> 0 <= x < 65536) -> zlen areas < 65536 -> Forall area_ok areas ->
  exists d, bnbl_save (bnbl_fromTouchAreas areas u) = Ok d /\ zlen d = 8 + 6 * zlen areas /\
    bnbl_load (d ++ tail) = Ok {| blUnk04 := match u with Some x => x | None => 0 end; blAreas := areas |}.
Proof.
  intros areas u tail U L F. destruct (BnProps.C25_bnbl_roundtrip (bnbl_fromTouchAreas areas u)) as (d & S & Z0 & R); cbn [blUnk04 blAreas bnbl_fromTouchAreas]; try assumption.
  - destruct u as [x|]; cbn [given]; [exact (U x eq_refl)|lia].
  - exists d. split; [exact S|]. split; [exact Z0|]. rewrite R. destruct u; reflexivity.
Qed.
Print Assumptions C123_touch_areas.
Theorem C123_image_positions : forall positions u tail, (forall x, u = Some x -> 0 <= x < 65536) -> zlen positions < 65536 -> Forall pos_ok positions ->
  exists d, bncl_save (bncl_fromImagePositions positions u) = Ok d /\
    bncl_load (d ++ tail) = Ok {| clUnk04 := match u with Some x => x | None => 0 end; clPositions := positions |}.
Proof.
  intros positions u tail U L F. destruct (BnProps.C26_bncl_roundtrip (bncl_fromImagePositions positions u)) as (d & S & Z0 & R); cbn [clUnk04 clPositions bncl_fromImagePositions]; try assumption.
  - destruct u as [x|]; cbn [given]; [exact (U x eq_refl)|lia].
  - exists d. split; [exact S|]. rewrite R. destruct u; reflexivity.
Qed.
Print Assumptions C123_image_positions.
Example C123_areas_ex : exists d, bnbl_save (bnbl_fromTouchAreas [{| taX := 3; taY := 4; taW := 5; taH := 6; taAlign := 0x11 |}] None) = Ok d /\
  bnbl_load d = Ok {| blUnk04 := 0; blAreas := [{| taX := 3; taY := 4; taW := 5; taH := 6; taAlign := 0x11 |}] |}.
Proof. eexists. split; vm_compute; reflexivity. Qed.

(** STRM.fromChannels: the blocks given; an unlooped 8-bit stream at 8000 Hz that claims no samples *)
Theorem C123_stream : forall channels u v pr pl u7 s d i tail, strm_save (strm_fromChannels channels u v pr pl u7) false = Ok (s, (d, i)) ->
  i = (match u with Some x => x | None => 0 end, match v with Some x => x | None => 127 end, match pr with Some x => x | None => 64 end,
       match pl with Some x => x | None => 0 end, match u7 with Some x => x | None => 0 end) /\
  exists s', strm_load (d ++ tail) i = Ok s' /\ sChannels s' = channels /\ sType s' = PCM8 /\ sLooped s' = false /\ sRate s' = 8000 /\
    (sTime s', sLoop s', sPerBlock s', sInLast s') = (0, 0, 0, 0) /\ sInfo s' = i.
Proof.
  intros channels u v pr pl u7 s d i tail S. destruct (WaveProps.C36_strm_roundtrip (strm_fromChannels channels u v pr pl u7) false s d i tail eq_refl S) as (R & E & _). specialize (E eq_refl).
  assert (I : i = sInfo (strm_fromChannels channels u v pr pl u7)).
  { unfold strm_save in S. apply bind_ok in S as ((d0 & i0) & S & X). apply SeqRead.ok_inj in X. inversion X; subst. apply strm_save0_inv in S as (? & ? & ? & _ & _ & _ & I). exact I. }
  split; [exact I|]. exists s. split; [exact R|]. subst s i. repeat split; reflexivity.
Qed.
Print Assumptions C123_stream.
Example C123_stream_ex : exists s d i, strm_save (strm_fromChannels [[[1; 2; 3; 4]; [5; 6]]; [[7; 8; 9; 10]; [11; 12]]] None (Some 100) None None None) false = Ok (s, (d, i)) /\ i = (0, 100, 64, 0, 0).
Proof. eexists. eexists. eexists. split; vm_compute; reflexivity. Qed.

(** SWAR.fromWaves *)
Theorem C123_wave_archive : forall waves u d u' tail, swar_save (swar_fromWaves waves u) = Ok (d, u') ->
  u' = match u with Some x => x | None => 0 end /\ swar_load (d ++ tail) u' = Ok {| rWaves := waves; rUnk02 := u' |}.
Proof.
  intros waves u d u' tail S. pose proof (WaveProps.C35_swar_savable _ _ _ S) as K. destruct (WaveProps.C35_swar_roundtrip _ tail K) as (d' & S' & R).
  rewrite S in S'. apply SeqRead.ok_inj in S'. inversion S'; subst d' u'. split; [destruct u; reflexivity|exact R].
Qed.
Print Assumptions C123_wave_archive.

(** SWAV.fromData *)
Theorem C123_wave : forall data wt looped rate time loop total d tail, swav_save0 (swav_fromDataD data wt looped rate time loop total) = Ok d ->
  exists w, swav_load (d ++ tail) = Ok w /\ wData w = match data with Some x => x | None => [] end /\ wType w = match wt with Some x => x | None => PCM8 end /\
    wLooped w = match looped with Some x => x | None => false end /\ wRate w = match rate with Some x => x | None => 8000 end /\
    wTime w = match time with Some x => x | None => 0 end /\ wLoop w = match loop with Some x => x | None => 0 end /\ wTotal w = match total with Some x => x | None => 0 end.
Proof.
  intros data wt looped rate time loop total d tail S. pose proof (WaveProps.C34_swav_savable _ _ S) as K. destruct (WaveProps.C34_swav_roundtrip _ tail K) as (d' & S' & _ & R).
  rewrite S in S'. apply SeqRead.ok_inj in S'. subst d'. eexists. split; [exact R|]. repeat split; destruct data, wt, looped, rate, time, loop, total; reflexivity.
Qed.
Print Assumptions C123_wave.
Example C123_wave_ex : exists d d', swav_save0 (swav_fromDataD (Some [1; 2; 3]) (Some PCM16) None (Some 22050) None None (Some 2)) = Ok d /\
  swar_save (swar_fromWaves [swav_fromDataD (Some [1; 2; 3]) None None None None None None; swav_fromDataD None None None None None None None] None) = Ok (d', 0).
Proof. eexists. eexists. split; vm_compute; reflexivity. Qed.

(** SBNK.fromInstruments *)
Theorem C123_bank : forall order insts unk wars f u w tail, bank_expressible (sbnk_fromInstruments insts unk wars) -> sbnk_save (sbnk_fromInstruments insts unk wars) = Ok (f, u, w) ->
  u = unk /\ exists b, sbnk_load order (f ++ tail) u (Some w) = Ok b /\ map (option_map iBody) (bInsts b) = map (option_map iBody) insts /\ bInacc b = [] /\ bUnk b = unk /\
    bWars b = match wars with Some l => strip_none l | None => [] end.
Proof.
  intros order insts unk wars f u w tail X S. destruct (SbnkProps.C42_bank_roundtrip order _ f u w (Some w) tail X S) as (U & W & b & L & B & I & Ub & Wb & _).
  split; [exact U|]. exists b. repeat split; try assumption; try (rewrite Ub; exact U). rewrite Wb, W. cbn [bWars sbnk_fromInstruments]. destruct wars as [l|]; [|reflexivity].
  destruct (SbnkProps.C54_wave_archive_ids l) as (_ & _ & _ & E). exact E.
Qed.
Print Assumptions C123_bank.
Example C123_bank_ex : exists f, sbnk_save (sbnk_fromInstruments [None; Some {| iBody := Single {| nWave := 2; nArch := 1; nPitch := 60; nAttack := 127; nDecay := 126; nSustain := 125; nRelease := 124; nPan := 64; nType := 1 |}; iKey := 0; iMerge := 0 |}] 0 (Some [Some 3; None])) =
  Ok (f, 0, [Some 3]).
Proof. eexists. vm_compute. reflexivity. Qed.

(** SSEQ.fromEvents *)
Theorem C123_sequence : forall events u b v cp pp pl f info, sseq_save (sseq_fromEventsD events u b v cp pp pl) = Ok (f, info) ->
  info = (match u with Some x => x | None => 0 end, match b with Some x => x | None => 0 end, match v with Some x => x | None => 127 end,
          match cp with Some x => x | None => 64 end, match pp with Some x => x | None => 50 end, match pl with Some x => x | None => 0 end) /\
  exists d ns s, SeqModel.saveSequenceEvents events [] = Ok (d, ns) /\ sseq_load f info = Ok s /\ sseq_eventsData s = Ok d /\ qInfo s = info.
Proof.
  intros events u b v cp pp pl f info S. destruct (SsarProps.C40_sseq_saved_loads _ _ _ S) as (d & F & I & P & L). split.
  - rewrite I. destruct u, b, v, cp, pp, pl; reflexivity.
  - cbn [qParsed sseq_fromEventsD sseq_fromEvents] in P. destruct P as (ns & P). exists d, ns. eexists. split; [exact P|]. split; [exact L|]. split; reflexivity.
Qed.
Print Assumptions C123_sequence.
Example C123_sequence_ex : exists f, sseq_save (sseq_fromEventsD [(1, SeqModel.Rest 200); (2, SeqModel.Bare 0xFF)] None (Some 3) None None None None) = Ok (f, (0, 3, 127, 64, 50, 0)).
Proof. eexists. vm_compute. reflexivity. Qed.

(** Palette.fromColors and NSBTX.fromTexturesAndPalettes *)
Theorem C123_palette : forall a b c colors, exists p, palette_fromColors a b c colors = Ok p /\ plColors p = colors /\
  (Forall valid51 colors -> exists d, pal_save p = Ok (a, b, c, d) /\ pal_new a b c d = Ok p).
Proof.
  intros a b c colors. eexists. split; [reflexivity|]. split; [reflexivity|]. intro V. unfold pal_save, pal_new. cbn [plColors pl00 pl02 plH02].
  destruct (palette_load_save colors V) as (d & S & L & _). rewrite S. cbn [bind]. exists d. split; [reflexivity|]. rewrite L. reflexivity.
Qed.
Print Assumptions C123_palette.
Theorem C123_textures : forall u8 u10 u18 u20 u2C u32 textures palettes f post,
  Forall (fun p => storable_name p /\ storable_texture (snd p)) textures -> Forall (fun p => storable_name p /\ storable_palette (snd p)) palettes ->
  NoDup (map palette_key palettes) -> (forall l1 p l2 q, palettes = l1 ++ p :: l2 -> plColors (snd p) = [] -> In q l2 -> plColors (snd q) = []) ->
  nsbtx_save (nsbtx_fromTexturesAndPalettes u8 u10 u18 u20 u2C u32 textures palettes) = Ok f ->
  exists x, nsbtx_load (f ++ post) = Ok x /\ (x08 x, x10 x, x18 x, x20 x, x2C x, x32 x) = (u8, u10, u18, u20, u2C, u32) /\
    map snd (xTextures x) = map snd textures /\ map snd (xPalettes x) = map snd palettes /\
    (forall i n t, nth_error textures i = Some (Some n, t) -> nth_error (xTextures x) i = Some (Some n, t)).
Proof.
  intros u8 u10 u18 u20 u2C u32 textures palettes f post F1 F2 N K S.
  eexists. split; [exact (TexProps.C55_nsbtx_roundtrip (nsbtx_fromTexturesAndPalettes u8 u10 u18 u20 u2C u32 textures palettes) f post F1 F2 N K S)|]. split; [reflexivity|]. cbn [xTextures xPalettes nsbtx_fromTexturesAndPalettes].
  assert (M : forall A (l : list (option bytes * A)), map snd (map with_name l) = map snd l) by (intros A l; rewrite map_map; apply map_ext; intros [n t]; reflexivity).
  split; [apply M|]. split; [apply M|]. intros i n t E. rewrite nth_error_map, E. reflexivity.
Qed.
Print Assumptions C123_textures.
Example C123_textures_ex : exists f x, let p := {| pl00 := 0; pl02 := 0; plH02 := 0; plColors := [C4 1 2 3 1; C4 4 5 6 0; C4 7 8 9 1; C4 0 0 0 0] |} in
  let t := tex_fromFlags 0 0 false false false false 8 8 2 false 0 0 (rep 0x1B 16) [] in
  palette_fromColors 0 0 0 (plColors p) = Ok p /\ nsbtx_save (nsbtx_fromTexturesAndPalettes 1 2 3 4 5 6 [(Some (asc "t"), t)] [(Some (asc "p"), p)]) = Ok f /\
  nsbtx_load f = Ok x /\ xTextures x = [(Some (asc "t"), t)] /\ xPalettes x = [(Some (asc "p"), p)] /\ storable_texture t /\ storable_palette p.
Proof.
  eexists. eexists. cbv zeta. split; [reflexivity|]. split; [vm_compute; reflexivity|]. split; [vm_compute; reflexivity|]. split; [reflexivity|]. split; [reflexivity|]. split.
  - repeat split; cbn; try lia; vm_compute; reflexivity.
  - repeat constructor; vm_compute; try lia; auto; discriminate.
Qed.

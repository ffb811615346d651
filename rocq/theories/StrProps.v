(** * C101: what the short texts of objects tell *)
From Coq Require Import String Lia Sorted.
From Verif Require Import PyBase PyLemmas PyTac TextModel TextSpec SeqTextModel SeqTextSpec SeqTextLemmas ReprModel ReprLemmas StrSpec StrLemmas.
From Verif Require CodeModel BmgModel WaveModel SbnkModel SsarModel SdatModel.

(** the counts *)
Theorem C101_counts : forall s b, 0 <= BmgModel.bId b ->
  numbers (sdat_str s) = [zlen (SdatModel.dSeqs s); zlen (SdatModel.dArchs s); zlen (SdatModel.dBanks s); zlen (SdatModel.dWars s);
                          zlen (SdatModel.dPlayers s); zlen (SdatModel.dGroups s); zlen (SdatModel.dSPlayers s); zlen (SdatModel.dStrms s)] /\
  numbers (bmg_str b) = [BmgModel.bId b; zlen (BmgModel.bMessages b); zlen (BmgModel.bScripts b)].
Proof. intros s b H. unfold sdat_str, bmg_str, zlen in *. split; numbered; reflexivity. Qed.
Print Assumptions C101_counts.
(** the players and tracks: channels are listed in order, each once *)
Theorem C101_players : forall m channels h, 0 <= m -> 0 <= h -> Forall (Z.le 0) channels ->
  exists l, numbers (player_str (m, channels, h)) = m :: l ++ [h] /\ numbers (music_str channels) = l /\ StronglySorted Z.lt l /\ (forall c, In c l <-> In c channels) /\
    numbers (splayer_str channels) = channels.
Proof.
  intros m channels h M H F. exists (sorted_set channels).
  assert (G : Forall (Z.le 0) (sorted_set channels)) by (apply Forall_forall; intros x X; apply (proj1 (sorted_in x channels)) in X; rewrite Forall_forall in F; apply F, X).
  split; [|split; [|split; [apply sorted_sorted|split; [intro c; apply sorted_in|]]]].
  - unfold player_str, repr_list. numbered. rewrite numbers_ints; [|exact G|reflexivity|discriminate|reflexivity]. numbered. reflexivity.
  - unfold music_str. numbered. rewrite numbers_ints; [|exact G|reflexivity|discriminate|reflexivity]. apply app_nil_r.
  - unfold splayer_str, repr_list. numbered. rewrite numbers_ints; [|exact F|reflexivity|discriminate|reflexivity]. apply app_nil_r.
Qed.
Print Assumptions C101_players.
Theorem C101_archive_sequence : forall s b v c p y, SsarModel.aParams s = (b, v, c, p, y) -> 0 <= b -> 0 <= v -> 0 <= y -> numbers (aseq_str s) = [b; v; y].
Proof. intros s b v c p y E B V Y. unfold aseq_str. rewrite E. destruct (SsarModel.aParsed s); numbered; reflexivity. Qed.
Print Assumptions C101_archive_sequence.
Example C101_counts_ex :
  player_str (8, [3; 0; 3], 6144) = asc "<sequence-player maxSequences=8 channels=[0, 3] heapSize=6144>" /\
  bmg_str (BmgModel.mkBmg [BmgModel.mkMessage [] [] false] [] [] [] 70 BmgModel.Utf8 LE 0 0 0) = asc "<bmg id=70 (1 messages, 0 scripts)>" /\
  numbers (asc "a12b3, 4>") = [12; 3; 4].
Proof. repeat split; vm_compute; reflexivity. Qed.

(** the texts of overlays and group entries tell what they show *)
Theorem C101_overlay : forall o o', 0 <= CodeModel.oRamAddress o -> 0 <= CodeModel.oRamAddress o' -> overlay_str o = overlay_str o' ->
  CodeModel.oRamAddress o = CodeModel.oRamAddress o' /\ CodeModel.oFileID o = CodeModel.oFileID o' /\
  (Z.testbit (CodeModel.oFlags o) 0 = Z.testbit (CodeModel.oFlags o') 0) /\ (Z.testbit (CodeModel.oFlags o) 1 = Z.testbit (CodeModel.oFlags o') 1).
Proof.
  assert (B : forall f, CodeModel.flags_compressed f = Z.testbit f 0 /\ CodeModel.flags_verifyHash f = Z.testbit f 1).
  { intro f. unfold CodeModel.flags_compressed, CodeModel.flags_verifyHash. split.
    - change 1 with (Z.ones 1). rewrite Z.land_ones, Z.bit0_odd, Zodd_mod by lia. change (2 ^ 1) with 2. pose proof (Z.mod_pos_bound f 2). destruct (Z.eqb_spec (f mod 2) 0), (Zeq_bool (f mod 2) 1) eqn:Q; try reflexivity; [apply Zeq_bool_eq in Q|apply Zeq_bool_neq in Q]; lia.
    - destruct (Z.testbit f 1) eqn:T; [|].
      + destruct (Z.eqb_spec (Z.land f 2) 0) as [E|E]; [|reflexivity]. exfalso. assert (X : Z.testbit (Z.land f 2) 1 = true) by (rewrite Z.land_spec, T; reflexivity). rewrite E, Z.bits_0 in X. discriminate.
      + replace (Z.land f 2) with 0; [reflexivity|]. symmetry. apply Z.bits_inj'. intros n N. rewrite Z.land_spec, Z.bits_0. change 2 with (2 ^ 1). rewrite Z.pow2_bits_eqb by lia. destruct (Z.eqb_spec 1 n) as [<-|]; [rewrite T|rewrite andb_false_r]; reflexivity. }
  intros o o' P P' E. destruct (overlay_text o o' P P' E) as (A & F & C & V). rewrite !(proj1 (B _)) in C. rewrite !(proj2 (B _)) in V. auto.
Qed.
Print Assumptions C101_overlay.
Theorem C101_group : forall g h, 0 <= WaveModel.gType g < 4 -> 0 <= WaveModel.gType h < 4 -> group_str g = group_str h -> g = h.
Proof. exact group_text. Qed.
Print Assumptions C101_group.
Example C101_group_ex :
  group_str {| WaveModel.gType := 1; WaveModel.gId := 7; WaveModel.gLoadSSEQ := false; WaveModel.gSwarIds := true; WaveModel.gLoadSWAR := true; WaveModel.gLoadSSAR := false |} =
    asc "<group-entry-sbnk 7 load-swars-by-swar-id load-swar>" /\
  overlay_str {| CodeModel.oData := []; CodeModel.oRamAddress := 0x2010000; CodeModel.oRamSize := 2; CodeModel.oBssSize := 0; CodeModel.oSiStart := 16; CodeModel.oSiEnd := 32;
    CodeModel.oFileID := 5; CodeModel.oCompressedSize := 171; CodeModel.oFlags := 3 |} = asc "<overlay at 0x02010000 file=5 compressed verify-hash>".
Proof. split; vm_compute; reflexivity. Qed.
(** messages: texts without an opening bracket, with escapes between them, can be told from the text *)
Theorem C101_message : forall m m', tellable (BmgModel.mParts m) -> tellable (BmgModel.mParts m') -> message_str m = message_str m' -> BmgModel.mParts m = BmgModel.mParts m'.
Proof. intros m m' H H' E. exact (parts_text _ _ H H' E). Qed.
Print Assumptions C101_message.
Theorem C101_message_refuted : exists m m', message_str m = message_str m' /\ BmgModel.mParts m <> BmgModel.mParts m'.
Proof. exists (BmgModel.mkMessage [] [BmgModel.Txt (asc "[5:00]")] false), (BmgModel.mkMessage [] [BmgModel.Esc 5 [0]] false). split; [vm_compute; reflexivity|discriminate]. Qed.
Print Assumptions C101_message_refuted.
Example C101_message_ex : let l := [BmgModel.Txt (asc "a]"); BmgModel.Esc 5 [0; 255]; BmgModel.Txt (asc "b")] in
  tellable l /\ message_str (BmgModel.mkMessage [] l false) = asc "a][5:00ff]b".
Proof. split; [|vm_compute; reflexivity]. cbn. repeat split; try discriminate; try tauto; try (intuition discriminate). repeat constructor; unfold is_byte; lia. Qed.

(** printing a bank never fails *)
Theorem C101_bank_total : forall b, exists t, sbnk_str b = Ok t.
Proof.
  intro b. unfold sbnk_str. assert (T : forall l, exists ts, mapM (fun o => match o with Some i => inst_str i | None => Ok (asc "None") end) l = Ok ts).
  { induction l as [|o l IH]; [eexists; reflexivity|]. destruct IH as (ts & E).
    assert (H : exists t, match o with Some i => inst_str i | None => Ok (asc "None") end = Ok t).
    { destruct o as [i|]; [|eexists; reflexivity]. unfold inst_str. destruct (SbnkModel.iBody i) as [n|f l1|l1].
      - destruct (note_str_total n) as (t & ->). eexists. reflexivity.
      - destruct (range_total l1 f) as (r & ->). destruct (TextLemmas.note_back f) as (n & -> & _). eexists. reflexivity.
      - destruct (region_total l1 0) as (r & ->). eexists. reflexivity. }
    destruct H as (t & H). cbn [mapM]. rewrite H. cbn [bind]. rewrite E. eexists. reflexivity. }
  destruct (T (SbnkModel.bInsts b)) as (ts & ->). eexists. reflexivity.
Qed.
Print Assumptions C101_bank_total.
(** a square wave is shown with its duty cycle: an eighth of the period more for each step, none at all for the last *)
Theorem C101_duty_cycle : forall n, SbnkModel.nType n = 2 -> exists p d, noteName (SbnkModel.nPitch n) = Ok p /\
  note_str n = Ok (asc "<note def " ++ p ++ asc " (PSG square wave: " ++ d ++ asc " duty cycle)>") /\ tenths d = Some (125 * (SbnkModel.nWave n mod 8 + 1) mod 1000).
Proof.
  intros n T. unfold note_str. rewrite T. destruct (TextLemmas.note_back (SbnkModel.nPitch n)) as (p & E & _). rewrite E. cbn [bind]. change (2 =? 2) with true. cbn [bind].
  replace (Z.land (SbnkModel.nWave n) 7) with (SbnkModel.nWave n mod 8) by (change 7 with (Z.ones 3); rewrite Z.land_ones by lia; reflexivity).
  destruct (duty_tenths (SbnkModel.nWave n mod 8)) as (d & D & V); [apply Z.mod_pos_bound; lia|]. exists p, d. split; [reflexivity|]. rewrite D. cbn [bind]. split; [|exact V]. rewrite <- !app_assoc. reflexivity.
Qed.
Print Assumptions C101_duty_cycle.
(** a range instrument: the keys from the first pitch on, one each, with their definitions *)
Theorem C101_range : forall i first l, SbnkModel.iBody i = SbnkModel.Ranged first l -> exists lines name, zlen lines = zlen l /\ noteName first = Ok name /\
  inst_str i = Ok (asc "<range instrument starting at " ++ name ++ asc " {" ++ joined (asc ", ") lines ++ asc "}>") /\
  forall k d, nth_error l k = Some d -> exists line n t, nth_error lines k = Some line /\ line = n ++ asc ": " ++ t /\ helmholtz n = Some (first + Z.of_nat k) /\ note_str d = Ok t.
Proof.
  intros i first l B. unfold inst_str. rewrite B. destruct (range_total l first) as (ts & E). destruct (TextLemmas.note_back first) as (n & N & _). exists ts, n. rewrite E, N. cbn [bind].
  split; [|split; [reflexivity|split; [reflexivity|exact (range_line l first ts E)]]].
  clear - E. revert first ts E. induction l as [|d l IH]; intros first ts E; cbn [range_texts] in E; [apply SeqTextLemmas.ok_inj in E; subst; reflexivity|].
  apply bind_ok in E as (? & _ & E). apply bind_ok in E as (? & _ & E). apply bind_ok in E as (r & E3 & E). apply SeqTextLemmas.ok_inj in E. subst ts. rewrite !PyLemmas.zlen_cons, (IH _ _ E3). reflexivity.
Qed.
Print Assumptions C101_range.
(** a regional instrument: every key is in the printed range of the definition of the first
    region that reaches up to it *)
Theorem C101_regions : forall i l, SbnkModel.iBody i = SbnkModel.Regional l -> Forall (fun r => 0 <= fst r <= 127) l ->
  exists lines, inst_str i = Ok (asc "<regional instrument {" ++ joined (asc ", ") lines ++ asc "}>") /\
  forall k p d, 0 <= k -> find (fun r => k <=? fst r) l = Some (p, d) ->
    exists line a b t u, In line lines /\ line = a ++ asc "-" ++ b ++ asc ": " ++ t /\ key_name a = Some u /\ key_name b = Some p /\ u <= k <= p /\ note_str d = Ok t.
Proof.
  intros i l B F. unfold inst_str. rewrite B. destruct (region_total l 0) as (ts & E). exists ts. rewrite E. cbn [bind]. split; [reflexivity|]. intros k p d K H.
  destruct (region_line l 0 ts E F k ltac:(lia) p d H) as (line & a & b & t & u & v & I & L & A & C & U & -> & T). exists line, a, b, t, u. auto 10.
Qed.
Print Assumptions C101_regions.
Example C101_bank_ex : let note w t := {| SbnkModel.nWave := w; SbnkModel.nArch := 1; SbnkModel.nPitch := 60; SbnkModel.nAttack := 127; SbnkModel.nDecay := 127; SbnkModel.nSustain := 127; SbnkModel.nRelease := 127; SbnkModel.nPan := 64; SbnkModel.nType := t |} in
  let body := SbnkModel.Regional [(59, note 2 2); (127, note 9 1)] in
  region_texts 0 [(59, note 2 2); (127, note 9 1)] = Ok [asc "min-b: <note def c' (PSG square wave: 37.5% duty cycle)>"; asc "c'-max: <note def c' (PCM: SWAR 1, SWAV 9)>"] /\
  range_texts 60 [note 7 2; note 0 3] = Ok [asc "c': <note def c' (PSG square wave: 0% duty cycle)>"; asc "c" ++ [9839] ++ asc "': <note def c' (PSG white noise)>"] /\
  find (fun r => 60 <=? fst r) [(59, note 2 2); (127, note 9 1)] = Some (127, note 9 1).
Proof. repeat split; vm_compute; reflexivity. Qed.

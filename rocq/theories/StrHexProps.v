(** * C101, continued: addresses, and the kinds of group entries *)
From Coq Require Import String Lia.
From Verif Require Import PyBase PyLemmas PyTac TextModel TextSpec TextLemmas SeqTextModel SeqTextSpec SeqTextLemmas ReprModel ReprSpec ReprLemmas StrSpec StrLemmas.
From Verif Require WaveModel CodeModel SeqRead ReprObjects.

Lemma hexdigits_up_short k : forall n w, 0 <= n < 16 ^ Z.of_nat (S w) -> zlen (hexdigits_up k n) <= Z.of_nat (S w).
Proof.
  induction k as [|k IH]; intros n w H; [change (zlen (hexdigits_up 0 n)) with 0; lia|]. cbn [hexdigits_up]. destruct (n <? 16) eqn:E; [change (zlen [hex_digit_up n]) with 1; lia|].
  rewrite zlen_app. change (zlen [_]) with 1. destruct w as [|w]; [change (16 ^ Z.of_nat 1) with 16 in H; lia|].
  specialize (IH (n / 16) w). rewrite (Nat2Z.inj_succ (S w)), Z.pow_succ_r in H by lia. assert (0 <= n / 16 < 16 ^ Z.of_nat (S w)) by (split; [apply Z.div_pos; lia|apply Z.div_lt_upper_bound; lia]). specialize (IH H0). lia.
Qed.
Lemma zlen_rep (x k : Z) : zlen (rep x k) = Z.max 0 k.
Proof. unfold rep, zlen. rewrite repeat_length. lia. Qed.
Lemma fmt_X_value n : exists s, fmt_X 8 n = (if n <? 0 then asc "-" else []) ++ s /\ Forall hexdig s /\ hexes 0 s = Some (Z.abs n).
Proof.
  unfold fmt_X. destruct (n <? 0) eqn:E.
  - eexists. split; [reflexivity|]. replace (Z.abs n) with (- n) by lia. split.
    + apply Forall_app. split; [|apply hexdigits_up_ok; lia]. unfold rep. apply Forall_forall. intros c I. apply repeat_spec in I. subst c. left. lia.
    + unfold rep. rewrite hexes_zeros. apply hexdigits_up_value. split; [lia|apply hex_fuel; lia].
  - replace (Z.abs n) with n by lia. pose proof (fmt_X_digits 8 n ltac:(lia)) as X. unfold fmt_X in X. rewrite E in X. eexists. split; [reflexivity|exact X].
Qed.
Lemma fmt_X_width n : 8 <= zlen (fmt_X 8 n) /\ (- 16 ^ 7 < n < 16 ^ 8 -> zlen (fmt_X 8 n) = 8).
Proof.
  unfold fmt_X. destruct (n <? 0) eqn:E.
  - rewrite zlen_cons, zlen_app, zlen_rep. split; [lia|]. intro H. pose proof (hexdigits_up_short (S (Z.to_nat (Z.log2 (- n)))) (- n) 6 ltac:(change (16 ^ Z.of_nat 7) with (16 ^ 7); lia)) as X. unfold hex_up. lia.
  - rewrite zlen_app, zlen_rep. split; [lia|]. intro H. pose proof (hexdigits_up_short (S (Z.to_nat (Z.log2 n))) n 7 ltac:(change (16 ^ Z.of_nat 8) with (16 ^ 8); lia)) as X. unfold hex_up. lia.
Qed.

(** the text of an overlay has its address, of any size and sign, in base 16, in eight
    characters if that is enough *)
Theorem C101_overlay_address : forall o, let a := CodeModel.oRamAddress o in
  exists h s rest, overlay_str o = asc "<overlay at 0x" ++ h ++ asc " file=" ++ rest /\
    h = (if a <? 0 then asc "-" else []) ++ s /\ Forall hexdig s /\ hexes 0 s = Some (Z.abs a) /\
    8 <= zlen h /\ (- 16 ^ 7 < a < 16 ^ 8 -> zlen h = 8).
Proof.
  intros o a. destruct (fmt_X_value a) as (s & E & D & V). destruct (fmt_X_width a) as [W1 W2].
  assert (X : exists rest, overlay_str o = asc "<overlay at 0x" ++ fmt_X 8 a ++ asc " file=" ++ rest) by (unfold overlay_str; fold a; destruct (CodeModel.flags_compressed (CodeModel.oFlags o)), (CodeModel.flags_verifyHash (CodeModel.oFlags o)); cbn [joined app]; rewrite <- !app_assoc; eexists; reflexivity).
  destruct X as (rest & X). exists (fmt_X 8 a), s, rest. split; [exact X|split; [exact E|split; [exact D|split; [exact V|split; [exact W1|exact W2]]]]].
Qed.
Print Assumptions C101_overlay_address.
Example C101_overlay_address_ex :
  let at_ a := {| CodeModel.oData := []; CodeModel.oRamAddress := a; CodeModel.oRamSize := 2; CodeModel.oBssSize := 0; CodeModel.oSiStart := 16; CodeModel.oSiEnd := 32;
    CodeModel.oFileID := 5; CodeModel.oCompressedSize := 171; CodeModel.oFlags := 0 |} in
  overlay_str (at_ (-171)) = asc "<overlay at 0x-00000AB file=5>" /\ overlay_str (at_ (16 ^ 8)) = asc "<overlay at 0x100000000 file=5>".
Proof. split; vm_compute; reflexivity. Qed.

(** the text of a group entry begins with its kind and its number *)
Theorem C101_group_kind : forall g, exists rest,
  (WaveModel.gType g = 0 -> group_str g = asc "<group-entry-sseq " ++ str_int (WaveModel.gId g) ++ rest) /\
  (WaveModel.gType g = 1 -> group_str g = asc "<group-entry-sbnk " ++ str_int (WaveModel.gId g) ++ rest) /\
  (WaveModel.gType g = 2 -> group_str g = asc "<group-entry-swar " ++ str_int (WaveModel.gId g) ++ rest) /\
  (WaveModel.gType g = 3 -> group_str g = asc "<group-entry-ssar " ++ str_int (WaveModel.gId g) ++ rest).
Proof. intro g. eexists. repeat split; intro E; unfold group_str; rewrite E; reflexivity. Qed.
Print Assumptions C101_group_kind.
Example C101_group_kind_ex : let e t := {| WaveModel.gType := t; WaveModel.gId := 7; WaveModel.gLoadSSEQ := true; WaveModel.gSwarIds := false; WaveModel.gLoadSWAR := false; WaveModel.gLoadSSAR := false |} in
  map (fun t => group_str (e t)) [2; 3] = [asc "<group-entry-swar 7 load-sseq>"; asc "<group-entry-ssar 7 load-sseq>"].
Proof. vm_compute. reflexivity. Qed.

(** the expression of the main code ends with its address, of any size and sign, in base 16,
    in eight characters if that is enough *)
Theorem C100_main_code_address : forall m t, mcf_repr m = Ok t -> let a := CodeModel.mRam m in
  exists pre h s, t = asc "MainCodeFile.fromSections(" ++ pre ++ asc ", 0x" ++ h ++ asc ")" /\
    h = (if a <? 0 then asc "-" else []) ++ s /\ Forall hexdig s /\ hexes 0 s = Some (Z.abs a) /\
    8 <= zlen h /\ (- 16 ^ 7 < a < 16 ^ 8 -> zlen h = 8).
Proof.
  intros m t E a. unfold mcf_repr in E. apply bind_ok in E as (l & _ & E). apply SeqRead.ok_inj in E. fold a in E. destruct (fmt_X_value a) as (s & F & D & V). destruct (fmt_X_width a) as [W1 W2].
  exists (repr_list l), (fmt_X 8 a), s. split; [rewrite <- E; unfold call; cbn [joined]; rewrite <- !app_assoc; reflexivity|]. split; [exact F|split; [exact D|split; [exact V|split; [exact W1|exact W2]]]].
Qed.
Print Assumptions C100_main_code_address.
Example C100_main_code_address_ex : mcf_repr {| CodeModel.mSections := []; CodeModel.mRam := 0xAB; CodeModel.mCso := None |} = Ok (asc "MainCodeFile.fromSections([], 0x000000AB)").
Proof. reflexivity. Qed.

(** what is shown for a wave is no expression because of the wave type, and has the data and
    the fields of the wave as arguments otherwise *)
Definition type_shown (w : WaveModel.waveType) : list Z :=
  match w with WaveModel.PCM8 => asc "<WaveType.PCM8: 0>" | WaveModel.PCM16 => asc "<WaveType.PCM16: 1>" | WaveModel.ADPCM => asc "<WaveType.ADPCM: 2>" end.
Theorem C100_wave_arguments : forall w t, swav_repr w = Ok t -> exists d rate time loop total,
  t = asc "SWAV.fromData(" ++ d ++ asc ", waveType=" ++ type_shown (WaveModel.wType w) ++ asc ", isLooped=" ++ (if WaveModel.wLooped w then asc "True" else asc "False")
      ++ asc ", sampleRate=" ++ rate ++ asc ", time=" ++ time ++ asc ", loopOffset=" ++ loop ++ asc ", totalLength=" ++ total ++ asc ")" /\
  (short (WaveModel.wData w) -> expr d = Some (VBytes (WaveModel.wData w))) /\
  number rate = Some (WaveModel.wRate w) /\ number time = Some (WaveModel.wTime w) /\ number loop = Some (WaveModel.wLoop w) /\ number total = Some (WaveModel.wTotal w).
Proof.
  intros w t E. unfold swav_repr in E. apply bind_ok in E as (d & D & E). apply SeqRead.ok_inj in E.
  exists d, (str_int (WaveModel.wRate w)), (str_int (WaveModel.wTime w)), (str_int (WaveModel.wLoop w)), (str_int (WaveModel.wTotal w)). split.
  - rewrite <- E. unfold call. cbn [joined]. destruct (WaveModel.wType w), (WaveModel.wLooped w); cbn [repr_bool type_shown wave_name WaveModel.wt_val]; rewrite <- !app_assoc; reflexivity.
  - split; [|rewrite !number_str; repeat split]. intro SH. destruct (ReprObjects.short_reads _ SH) as (x & X & R). rewrite D in X. apply SeqRead.ok_inj in X. subst x. apply reads_expr, R.
Qed.
Print Assumptions C100_wave_arguments.
Example C100_wave_arguments_ex : let w := {| WaveModel.wType := WaveModel.ADPCM; WaveModel.wLooped := true; WaveModel.wRate := 8000; WaveModel.wTime := 7; WaveModel.wLoop := 1; WaveModel.wTotal := 2; WaveModel.wData := [9; 65] |} in
  short (WaveModel.wData w) /\ swav_repr w = Ok (asc "SWAV.fromData(b'\tA', waveType=<WaveType.ADPCM: 2>, isLooped=True, sampleRate=8000, time=7, loopOffset=1, totalLength=2)").
Proof. split; [|vm_compute; reflexivity]. split; [repeat constructor; cbv; intuition discriminate|]. split; [cbv; discriminate|]. cbn. lia. Qed.

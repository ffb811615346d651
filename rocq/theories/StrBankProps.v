(** * C101, continued: banks, instruments and their notes *)
From Coq Require Import String Lia.
From Verif Require Import PyBase PyLemmas TextModel TextSpec TextLemmas SeqTextModel SeqTextSpec SeqTextLemmas ReprModel ReprSpec ReprLemmas ReprObjects ReprMoreSpec ReprMore StrSpec StrLemmas StrMoreProps.
From Verif Require SbnkModel TextProps StrProps.

(** ** notes *)

(** a note that plays a sample tells its pitch, the archive and the sample *)
Theorem C101_sample : forall n, SbnkModel.nType n <> 2 -> SbnkModel.nType n <> 3 -> 0 <= SbnkModel.nArch n -> 0 <= SbnkModel.nWave n ->
  exists p r, note_str n = Ok (asc "<note def " ++ p ++ r) /\ helmholtz p = Some (SbnkModel.nPitch n) /\ numbers r = [SbnkModel.nArch n; SbnkModel.nWave n].
Proof.
  intros n T2 T3 A W. unfold note_str. destruct (note_back (SbnkModel.nPitch n)) as (p & E & H). rewrite E. cbn [bind]. replace (SbnkModel.nType n =? 2) with false by lia. replace (SbnkModel.nType n =? 3) with false by lia. cbn [bind].
  eexists p, _. split; [reflexivity|]. split; [exact H|]. numbered. reflexivity.
Qed.
Print Assumptions C101_sample.
Lemma absent_name c p t : noteName t = Ok p -> 104 <= c < 885 -> ~ In c p.
Proof. intros E C I. destruct (note_shape t p E) as (_ & l & r & -> & L & R). destruct I as [I|I]; [lia|]. rewrite Forall_forall in R. specialize (R c I). lia. Qed.
(** only white noise is called so *)
Theorem C101_white_noise : forall n, exists t, note_str n = Ok t /\ (mentions (asc "white noise") t <-> SbnkModel.nType n = 3).
Proof.
  intro n. unfold note_str. destruct (note_back (SbnkModel.nPitch n)) as (p & E & _). rewrite E. cbn [bind]. destruct (Z.eqb_spec (SbnkModel.nType n) 2) as [T|T].
  - destruct (duty_tenths (Z.land (SbnkModel.nWave n) 7)) as (d & D & _); [change 7 with (Z.ones 3); rewrite Z.land_ones by lia; apply Z.mod_pos_bound; lia|]. rewrite D. cbn [bind]. eexists. split; [reflexivity|].
    split; [|lia]. intro M. exfalso. revert M. apply (no_mention _ _ 104); [cbn; tauto|].
    assert (X : ~ In 104 d).
    { assert (F : Forall (fun x => ~ In 104 x) duty_cycles) by (repeat (constructor; [apply not_in_lit; reflexivity|]); constructor). rewrite Forall_forall in F. apply F. unfold get in D. cbv zeta in D.
      match type of D with (if ?c then _ else _) = _ => destruct c end; [discriminate D|]. match type of D with match nth_error duty_cycles ?k with _ => _ end = _ => destruct (nth_error duty_cycles k) eqn:N end; [|discriminate D].
      apply SeqTextLemmas.ok_inj in D. subst. eapply nth_error_In. exact N. }
    pose proof (absent_name 104 p _ E ltac:(lia)). repeat match goal with |- ~ In _ (_ ++ _) => apply not_in_app end; try assumption; apply not_in_lit; reflexivity.
  - destruct (Z.eqb_spec (SbnkModel.nType n) 3) as [T3|T3]; cbn [bind]; (eexists; split; [reflexivity|]).
    + split; [intros _; exact T3|intros _]. exists (asc "<note def " ++ p ++ asc " (PSG "), (asc ")>"). rewrite <- !app_assoc. reflexivity.
    + split; [|lia]. intro M. exfalso. revert M. apply (no_mention _ _ 104); [cbn; tauto|]. pose proof (absent_name 104 p _ E ltac:(lia)). repeat match goal with |- ~ In _ (_ ++ _) => apply not_in_app end; try assumption; absent.
Qed.
Print Assumptions C101_white_noise.
Definition sample_note (type : Z) : SbnkModel.note :=
  {| SbnkModel.nWave := 17; SbnkModel.nArch := 3; SbnkModel.nPitch := 81; SbnkModel.nAttack := 127; SbnkModel.nDecay := 126; SbnkModel.nSustain := 125; SbnkModel.nRelease := 124; SbnkModel.nPan := 64; SbnkModel.nType := type |}.
Example C101_sample_ex : note_str (sample_note 1) = Ok (asc "<note def a'' (PCM: SWAR 3, SWAV 17)>") /\ note_str (sample_note 3) = Ok (asc "<note def a'' (PSG white noise)>").
Proof. split; vm_compute; reflexivity. Qed.

(** ** instruments *)

(** the first word of the text *)
Definition kind_word (b : SbnkModel.ibody) : list Z :=
  match b with SbnkModel.Single _ => asc "<single-note" | SbnkModel.Ranged _ _ => asc "<range" | SbnkModel.Regional _ => asc "<regional" end.
Theorem C101_instrument_kind : forall i, exists t, inst_str i = Ok t /\ fst (span (fun c => negb (c =? 32)) t) = kind_word (SbnkModel.iBody i).
Proof.
  intro i. unfold inst_str. destruct (SbnkModel.iBody i) as [n|f l|l].
  - destruct (note_str_total n) as (t & ->). eexists. split; reflexivity.
  - destruct (range_total l f) as (r & ->). destruct (note_back f) as (n & -> & _). eexists. split; reflexivity.
  - destruct (region_total l 0) as (r & ->). eexists. split; reflexivity.
Qed.
Print Assumptions C101_instrument_kind.
(** an instrument with one note shows that note *)
Theorem C101_single : forall i n, SbnkModel.iBody i = SbnkModel.Single n -> exists t s, inst_str i = Ok t /\ note_str n = Ok s /\ mentions s t /\ zlen t = zlen s + zlen (asc "<single-note instrument >").
Proof.
  intros i n B. unfold inst_str. rewrite B. destruct (note_str_total n) as (s & E). rewrite E. cbn [bind]. eexists _, s. split; [reflexivity|]. split; [reflexivity|]. split; [eexists _, _; reflexivity|]. rewrite !zlen_app. change (zlen (asc "<single-note instrument >")) with (zlen (asc "<single-note instrument ") + zlen (asc ">")). lia.
Qed.
Print Assumptions C101_single.
Definition one_note (type : Z) : SbnkModel.inst := {| SbnkModel.iBody := SbnkModel.Single (sample_note type); SbnkModel.iKey := 0; SbnkModel.iMerge := 0 |}.
Example C101_single_ex : inst_str (one_note 1) = Ok (asc "<single-note instrument <note def a'' (PCM: SWAR 3, SWAV 17)>>").
Proof. vm_compute. reflexivity. Qed.

(** ** banks *)
Lemma flat_note_str n t : note_str n = Ok t -> flat t.
Proof.
  unfold note_str. intro H. apply bind_ok in H as (p & P & H). apply bind_ok in H as (x & X & H). apply SeqTextLemmas.ok_inj in H. subst t. pose proof (flat_note _ _ P).
  assert (flat x).
  { destruct (SbnkModel.nType n =? 2); [|destruct (SbnkModel.nType n =? 3); apply SeqTextLemmas.ok_inj in X; subst x; repeat apply flat_app; try apply flat_num; apply flat_text; reflexivity].
    apply bind_ok in X as (d & D & X). apply SeqTextLemmas.ok_inj in X. subst x. apply flat_app; [apply flat_text; reflexivity|]. apply flat_app; [|apply flat_text; reflexivity].
    assert (F : Forall flat duty_cycles) by (repeat (constructor; [apply flat_text; reflexivity|]); constructor). rewrite Forall_forall in F. apply F. unfold get in D. cbv zeta in D.
    match type of D with (if ?c then _ else _) = _ => destruct c end; [discriminate D|]. match type of D with match nth_error duty_cycles ?k with _ => _ end = _ => destruct (nth_error duty_cycles k) eqn:N end; [|discriminate D].
    apply SeqTextLemmas.ok_inj in D. subst. eapply nth_error_In. exact N. }
  repeat apply flat_app; try assumption; apply flat_text; reflexivity.
Qed.
Lemma flat_better k s : better_name k = Ok s -> flat s.
Proof. unfold better_name. destruct (k =? 0); [intro H; apply SeqTextLemmas.ok_inj in H; subst; apply flat_text; reflexivity|]. destruct (k =? 127); [intro H; apply SeqTextLemmas.ok_inj in H; subst; apply flat_text; reflexivity|apply flat_note]. Qed.
Lemma flat_range l : forall p ts, range_texts p l = Ok ts -> Forall flat ts.
Proof.
  induction l as [|d l I]; intros p ts E; cbn [range_texts] in E; [apply SeqTextLemmas.ok_inj in E; subst; constructor|]. apply bind_ok in E as (n & N & E). apply bind_ok in E as (t & T & E). apply bind_ok in E as (r & R & E). apply SeqTextLemmas.ok_inj in E. subst ts.
  constructor; [|eapply I, R]. apply flat_app; [eapply flat_note, N|]. apply flat_app; [apply flat_text; reflexivity|eapply flat_note_str, T].
Qed.
Lemma flat_regions l : forall p ts, region_texts p l = Ok ts -> Forall flat ts.
Proof.
  induction l as [|[q d] l I]; intros p ts E; cbn [region_texts] in E; [apply SeqTextLemmas.ok_inj in E; subst; constructor|]. apply bind_ok in E as (a & A & E). apply bind_ok in E as (b & B & E). apply bind_ok in E as (t & T & E). apply bind_ok in E as (r & R & E). apply SeqTextLemmas.ok_inj in E. subst ts.
  constructor; [|eapply I, R]. apply flat_app; [eapply flat_better, A|]. apply flat_app; [apply flat_text; reflexivity|]. apply flat_app; [eapply flat_better, B|]. apply flat_app; [apply flat_text; reflexivity|eapply flat_note_str, T].
Qed.
Lemma flat_inst i t : inst_str i = Ok t -> flat t.
Proof.
  unfold inst_str. destruct (SbnkModel.iBody i) as [n|f l|l]; intro H.
  - apply bind_ok in H as (s & S & H). apply SeqTextLemmas.ok_inj in H. subst t. apply flat_app; [apply flat_text; reflexivity|]. apply flat_app; [eapply flat_note_str, S|apply flat_text; reflexivity].
  - apply bind_ok in H as (ts & S & H). apply bind_ok in H as (x & X & H). apply SeqTextLemmas.ok_inj in H. subst t. apply flat_app; [apply flat_text; reflexivity|]. apply flat_app; [eapply flat_note, X|]. apply flat_app; [apply flat_text; reflexivity|].
    apply flat_app; [|apply flat_text; reflexivity]. apply flat_joined; [apply flat_text; reflexivity|eapply flat_range, S].
  - apply bind_ok in H as (ts & S & H). apply SeqTextLemmas.ok_inj in H. subst t. apply flat_app; [apply flat_text; reflexivity|]. apply flat_app; [|apply flat_text; reflexivity]. apply flat_joined; [apply flat_text; reflexivity|eapply flat_regions, S].
Qed.
Definition slot_str (o : option SbnkModel.inst) : res (list Z) := match o with Some i => inst_str i | None => Ok (asc "None") end.
Lemma slots_total l : exists ts, mapM slot_str l = Ok ts /\ Forall flat ts /\ zlen ts = zlen l /\ forall k o, nth_error l k = Some o -> exists t, nth_error ts k = Some t /\ slot_str o = Ok t.
Proof.
  induction l as [|o l (ts & E & F & L & H)]; [exists []; repeat split; [constructor|intros [|k] o; discriminate]|].
  assert (exists t, slot_str o = Ok t /\ flat t) as (t & T & Ft).
  { destruct o as [i|]; [|exists (asc "None"); split; [reflexivity|apply flat_text; reflexivity]]. destruct (C101_instrument_kind i) as (t & T & _). exists t. split; [exact T|eapply flat_inst, T]. }
  exists (t :: ts). cbn [mapM]. rewrite T, E. split; [reflexivity|]. split; [constructor; assumption|]. rewrite !zlen_cons, L. split; [reflexivity|]. intros [|k] x X; cbn [nth_error] in *; [injection X as <-; exists t; split; [reflexivity|exact T]|apply H, X].
Qed.
(** the first line has the IDs of the wave archives; then there is a line for every
    instrument, with its number *)
Theorem C101_bank : forall b, exists t ids L, sbnk_str b = Ok t /\ split 10 t = (asc "<sbnk waveArchiveIDs=" ++ ids) :: L ++ [asc ">"] /\
  (exists v, expr ids = Some v /\ as_list (or_none as_int) v = Some (SbnkModel.bWars b)) /\ zlen L = zlen (SbnkModel.bInsts b) /\
  forall k o, nth_error (SbnkModel.bInsts b) k = Some o ->
    exists pad d s, nth_error L k = Some (spaces 4 ++ [91] ++ spaces pad ++ d ++ [93; 32] ++ s) /\ Forall (fun c => 48 <= c < 58) d /\ undec d = Z.of_nat k /\
      match o with Some i => inst_str i = Ok s | None => s = asc "None" end.
Proof.
  intro b. destruct (slots_total (SbnkModel.bInsts b)) as (ts & E & F & Len & N). unfold sbnk_str. change (mapM _ (SbnkModel.bInsts b)) with (mapM slot_str (SbnkModel.bInsts b)). rewrite E. cbn [bind].
  eexists _, (repr_list (map repr_opt (SbnkModel.bWars b))), (enumeratedListOfStrs ts 4). split; [reflexivity|]. destruct (TextProps.C81_enumerated ts 4 ltac:(lia)) as (Z0 & wd & H). split; [|split; [|split; [exact (eq_trans Z0 Len)|]]].
  - apply split_join; [|discriminate]. constructor.
    + apply flat_app; [apply flat_text; reflexivity|]. unfold repr_list. apply flat_app; [apply flat_text; reflexivity|]. apply flat_app; [|apply flat_text; reflexivity]. apply flat_joined; [apply flat_text; reflexivity|].
      apply Forall_forall. intros x X. apply in_map_iff in X as ([n|] & <- & _); cbn [repr_opt]; [apply flat_num|apply flat_text; reflexivity].
    + apply Forall_app. split; [|constructor; [apply flat_text; reflexivity|constructor]]. apply Forall_forall. intros x X. apply In_nth_error in X as (k & X).
      assert (K : (k < List.length ts)%nat) by (apply (Nat.lt_le_trans _ (List.length (enumeratedListOfStrs ts 4))); [apply nth_error_Some; intro Q; pose proof (eq_trans (eq_sym X) Q); discriminate|apply Nat.eq_le_incl; exact (Nat2Z.inj _ _ Z0)]).
      destruct (nth_error ts k) as [w|] eqn:Ew; [|apply nth_error_None in Ew; lia]. destruct (H k w Ew) as (pad & d & Nk & D & _). pose proof (eq_trans (eq_sym X) Nk) as XN. apply (f_equal (fun o => match o with Some v => v | None => [] end)) in XN; cbv beta iota in XN; rewrite XN.
      rewrite Forall_forall in F. pose proof (F w (nth_error_In _ _ Ew)) as Fw. unfold flat in *. repeat match goal with |- ~ In _ (_ ++ _) => apply not_in_app end; try assumption; try (apply not_in_lit; reflexivity).
      * intro I. apply repeat_spec in I. discriminate.
      * intro I. rewrite Forall_forall in D. apply D in I. lia.
  - apply says_expr, ids_say.
  - intros k o O. destruct (N k o O) as (s & S & Q). destruct (H k s S) as (pad & d & Nk & D & U & _). exists pad, d, s. split; [exact Nk|]. split; [exact D|]. split; [exact U|]. destruct o as [i|]; cbn [slot_str] in Q; [exact Q|]. apply SeqTextLemmas.ok_inj in Q. congruence.
Qed.
Print Assumptions C101_bank.
Example C101_bank_text_ex : sbnk_str {| SbnkModel.bInsts := [Some (one_note 1); None]; SbnkModel.bInacc := []; SbnkModel.bUnk := 0; SbnkModel.bWars := [Some 4; None] |} =
  Ok (asc "<sbnk waveArchiveIDs=[4, None]" ++ [10] ++ asc "    [0] <single-note instrument <note def a'' (PCM: SWAR 3, SWAV 17)>>" ++ [10] ++ asc "    [1] None" ++ [10] ++ asc ">").
Proof. vm_compute. reflexivity. Qed.

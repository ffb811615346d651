(** * C100 for banks, events, sequences and sequence archives *)
From Coq Require Import String Lia.
From Verif Require Import PyBase TextModel TextSpec SeqModel SeqTextSpec SeqTextModel ReprModel ReprSpec ReprObjects ReprMoreSpec ReprMore ReprEvents.
From Verif Require WaveModel SbnkModel SsarModel.

(** ** banks *)
Definition a_note (type : Z) : SbnkModel.note :=
  {| SbnkModel.nWave := 1; SbnkModel.nArch := 2; SbnkModel.nPitch := 60; SbnkModel.nAttack := 127; SbnkModel.nDecay := 126; SbnkModel.nSustain := 125; SbnkModel.nRelease := 124; SbnkModel.nPan := 64; SbnkModel.nType := type |}.
Definition an_instrument (b : SbnkModel.ibody) : SbnkModel.inst := {| SbnkModel.iBody := b; SbnkModel.iKey := 0; SbnkModel.iMerge := 0 |}.

(** an instrument whose note types are numbers without names is printed as the call
    that makes it; with any other, as no expression *)
Theorem C100_instrument : forall i, Forall unnamed_type (body_notes (SbnkModel.iBody i)) -> exists v, expr (inst_repr i) = Some v /\ eval_inst v = Some (SbnkModel.iBody i).
Proof. intros i F. apply says_expr, inst_says, F. Qed.
Print Assumptions C100_instrument.
Theorem C100_region : forall r, unnamed_type (snd r) -> exists v, expr (region_repr r) = Some v /\ eval_region v = Some r.
Proof. intros r F. apply says_expr, region_says, F. Qed.
Print Assumptions C100_region.
Example C100_region_ex : unnamed_type (a_note 7) /\ region_repr (59, a_note 7) = asc "Region(59, NoteDefinition(1, 2, 60, 127, 126, 125, 124, 64, 7))".
Proof. split; [cbv; intuition discriminate|vm_compute; reflexivity]. Qed.
Theorem C100_instrument_expression : forall i, expr (inst_repr i) <> None <-> Forall unnamed_type (body_notes (SbnkModel.iBody i)).
Proof. exact inst_expr. Qed.
Print Assumptions C100_instrument_expression.
Example C100_instrument_ex :
  inst_repr (an_instrument (SbnkModel.Ranged 40 [a_note 5; a_note 0])) =
    asc "RangeInstrument(40, [NoteDefinition(1, 2, 60, 127, 126, 125, 124, 64, 5), NoteDefinition(1, 2, 60, 127, 126, 125, 124, 64, 0)])" /\
  Forall unnamed_type [a_note 5; a_note 0] /\
  inst_repr (an_instrument (SbnkModel.Regional [(59, a_note 5); (127, a_note 2)])) =
    asc "RegionalInstrument([Region(59, NoteDefinition(1, 2, 60, 127, 126, 125, 124, 64, 5)), Region(127, NoteDefinition(1, 2, 60, 127, 126, 125, 124, 64, <NoteType.PSG_SQUARE_WAVE: 2>))])" /\
  ~ unnamed_type (a_note 2).
Proof. split; [vm_compute; reflexivity|]. split; [repeat constructor; cbv; intuition discriminate|]. split; [vm_compute; reflexivity|]. unfold unnamed_type. cbn. lia. Qed.

(** the same for a bank: the instruments and the IDs of the wave archives, and 0 for the
    number that is not shown *)
Theorem C100_bank : forall b, Forall unnamed_type (bank_notes b) ->
  exists v, expr (sbnk_repr b) = Some v /\ eval_bank v = Some (map (option_map SbnkModel.iBody) (SbnkModel.bInsts b), 0, SbnkModel.bWars b).
Proof. intros b F. apply says_expr, bank_says, F. Qed.
Print Assumptions C100_bank.
Theorem C100_bank_expression : forall b, expr (sbnk_repr b) <> None <-> Forall unnamed_type (bank_notes b).
Proof. exact bank_expr. Qed.
Print Assumptions C100_bank_expression.
Theorem C100_bank_refuted : forall b, SbnkModel.bUnk b <> 0 -> forall v, expr (sbnk_repr b) = Some v ->
  eval_bank v <> Some (map (option_map SbnkModel.iBody) (SbnkModel.bInsts b), SbnkModel.bUnk b, SbnkModel.bWars b).
Proof.
  intros b U v E C. assert (F : Forall unnamed_type (bank_notes b)) by (apply bank_expr; congruence). destruct (C100_bank b F) as (w & W & V). assert (w = v) as -> by congruence. congruence.
Qed.
Print Assumptions C100_bank_refuted.
Example C100_bank_ex : let b := {| SbnkModel.bInsts := [None; Some (an_instrument (SbnkModel.Single (a_note 5)))]; SbnkModel.bInacc := []; SbnkModel.bUnk := 9; SbnkModel.bWars := [Some 3; None] |} in
  Forall unnamed_type (bank_notes b) /\ SbnkModel.bUnk b <> 0 /\
  sbnk_repr b = asc "SBNK.fromInstruments([None, SingleNoteInstrument(NoteDefinition(1, 2, 60, 127, 126, 125, 124, 64, 5))], waveArchiveIDs=[3, None])".
Proof. split; [repeat constructor; cbv; intuition discriminate|]. split; [discriminate|vm_compute; reflexivity]. Qed.

(** ** wave archives *)
Theorem C100_wave_archive_refuted : forall s, WaveModel.rWaves s <> [] -> Forall (fun w => short (WaveModel.wData w) \/ long (WaveModel.wData w)) (WaveModel.rWaves s) ->
  exists t, swar_repr s = Ok t /\ expr t = None.
Proof. intros s N F. destruct (swar_lost s N F) as (t & T & L). exists t. split; [exact T|apply lost_expr, L]. Qed.
Print Assumptions C100_wave_archive_refuted.
Theorem C100_empty_archive : forall s, WaveModel.rWaves s = [] -> exists t v, swar_repr s = Ok t /\ expr t = Some v /\ is_empty_archive v = true.
Proof. intros s N. unfold swar_repr. rewrite N. eexists _, _. split; [reflexivity|]. split; vm_compute; reflexivity. Qed.
Print Assumptions C100_empty_archive.
Example C100_wave_archive_ex : let w := {| WaveModel.wType := WaveModel.PCM8; WaveModel.wLooped := true; WaveModel.wRate := 8000; WaveModel.wTime := 5; WaveModel.wLoop := 1; WaveModel.wTotal := 2; WaveModel.wData := [1; 2; 255] |} in
  short (WaveModel.wData w) /\ swar_repr {| WaveModel.rWaves := [w]; WaveModel.rUnk02 := 0 |} =
    Ok (asc "SWAR.fromWaves([SWAV.fromData(b'\1\2\xff', waveType=<WaveType.PCM8: 0>, isLooped=True, sampleRate=8000, time=5, loopOffset=1, totalLength=2)])").
Proof.
  split; [|vm_compute; reflexivity]. cbn [WaveModel.wData]. split; [unfold is_bytes, is_byte; repeat (constructor; [lia|]); constructor|]. split; [vm_compute; discriminate|vm_compute; intuition discriminate].
Qed.

(** ** events *)

(** an event without destination and enumeration member, and with a velocity of seven bits *)
Theorem C100_event : forall ids heap depth e, shown e -> exists s v, ev_repr ids heap (S depth) e = Ok s /\ expr s = Some v /\ eval_ev v = Some e.
Proof.
  intros ids heap k e S. destruct (ev_reads ids heap k e (proj1 S) (shown_readable e S)) as (s & v & E & R & V). exists s, v. split; [exact E|]. split; [apply ReprLemmas.reads_expr, any_reads, R|apply V, (proj2 (proj2 S))].
Qed.
Print Assumptions C100_event.
Theorem C100_event_expression : forall ids heap depth e s, (forall n, proper (heap n)) -> proper e -> ev_repr ids heap depth e = Ok s -> (expr s <> None <-> readable e).
Proof.
  intros ids heap k e s H P E. split.
  - intro X. destruct (readable_dec e) as [Q|Q]; [exact Q|]. exfalso. apply X, stuck_expr, never_stuck. exact (proj1 (ev_never ids heap H k e s P Q E)).
  - intros Q X. destruct k as [|k]; [discriminate E|]. destruct (ev_reads ids heap k e P Q) as (t & v & T & R & _). rewrite E in T. apply SeqRead.ok_inj in T. subst t. pose proof (ReprLemmas.reads_expr _ _ (any_reads _ _ R)). congruence.
Qed.
Print Assumptions C100_event_expression.
Example C100_event_ex : shown (Random 0xC1 [4; -5] 1 2) /\ ev_repr (fun _ => 12345) (fun _ => Rest 2) 9 (Random 0xC1 [4; -5] 1 2) = Ok (asc "RandomSequenceEvent(0xc1, [4, -5], 1, 2)") /\
  ev_repr (fun _ => 12345) (fun _ => Rest 2) 9 (BeginTrack 3 (Some 7)) = Ok (asc "BeginTrackSequenceEvent(3, RestSequenceEvent(2) at 12345)") /\ ~ readable (BeginTrack 3 (Some 7)).
Proof. split; [repeat split|]. split; [vm_compute; reflexivity|]. split; [vm_compute; reflexivity|]. intros []. Qed.

(** ** tracks and sequences *)
Theorem C100_track : forall ids heap depth l, Forall (fun p => shown (snd p)) l -> exists s v, track_repr ids heap (S depth) l = Ok s /\ expr s = Some v /\ eval_track v = Some (map snd l).
Proof. intros ids heap k l F. destruct (track_says ids heap k l F) as (s & E & Y). destruct (says_expr _ _ _ Y) as (v & V & W). exists s, v. repeat split; assumption. Qed.
Print Assumptions C100_track.
Theorem C100_track_expression : forall ids heap depth l s, (forall n, proper (heap n)) -> Forall (fun p => proper (snd p)) l -> track_repr ids heap depth l = Ok s ->
  (expr s <> None <-> Forall (fun p => readable (snd p)) l).
Proof. exact track_expr. Qed.
Print Assumptions C100_track_expression.
Theorem C100_sequence_events : forall ids heap depth s, SsarModel.qParsed s = true -> zlen (SsarModel.qEvents s) <= 8 -> Forall (fun p => shown (snd p)) (SsarModel.qEvents s) ->
  exists t v, sseq_repr ids heap (S depth) s = Ok t /\ expr t = Some v /\ eval_sseq v = Some (map snd (SsarModel.qEvents s), info_list (SsarModel.qInfo s)).
Proof. intros ids heap k s P L F. destruct (sseq_says ids heap k s P L F) as (t & E & Y). destruct (says_expr _ _ _ Y) as (v & V & W). exists t, v. repeat split; assumption. Qed.
Print Assumptions C100_sequence_events.
Theorem C100_music : forall ids heap depth s, SsarModel.qParsed s = true -> zlen (SsarModel.qEvents s) <= 8 -> Forall (fun p => shown (snd p)) (SsarModel.qEvents s) ->
  exists t v, music_repr ids heap (S depth) s = Ok t /\ expr t = Some v /\ eval_music v = Some (map snd (SsarModel.qEvents s), info_list (SsarModel.qInfo s)).
Proof. intros ids heap k s P L F. destruct (music_says ids heap k s P L F) as (t & E & Y). destruct (says_expr _ _ _ Y) as (v & V & W). exists t, v. repeat split; assumption. Qed.
Print Assumptions C100_music.
(** of more than eight events only the first eight are shown, then an ellipsis *)
Theorem C100_sequence_events_refuted : forall ids heap depth s, SsarModel.qParsed s = true -> 8 < zlen (SsarModel.qEvents s) -> Forall (fun p => shown (snd p)) (firstn 8 (SsarModel.qEvents s)) ->
  exists t v, sseq_repr ids heap (S depth) s = Ok t /\ expr t = Some v /\ eval_sseq v = None.
Proof. exact sseq_more. Qed.
Print Assumptions C100_sequence_events_refuted.
Definition some_events : list (Z * ev) := [(1, Byte1 0xC8 1); (2, Note 60 100 true 48); (3, DefTracks [0; 2]); (4, Bare 0xFF)].
Example C100_sequence_events_ex : let s := SsarModel.sseq_fromEvents some_events (1, 2, 3, 4, 5, 6) in
  zlen some_events <= 8 /\ Forall (fun p => shown (snd p)) some_events /\
  track_repr (fun _ => 0) (fun _ => Rest 0) 9 some_events = Ok (asc "Track([TieSequenceEvent(True), NoteSequenceEvent(60, 228, 48), DefineTracksSequenceEvent({0, 2}), EndTrackSequenceEvent()])") /\
  music_repr (fun _ => 0) (fun _ => Rest 0) 9 s =
    Ok (asc "SSEQMusic(SSEQ.fromEvents([TieSequenceEvent(True), NoteSequenceEvent(60, 228, 48), DefineTracksSequenceEvent({0, 2}), EndTrackSequenceEvent()], 1, 2, 3, 4, 5, 6))") /\
  8 < zlen (some_events ++ some_events ++ some_events) /\ Forall (fun p => shown (snd p)) (firstn 8 (some_events ++ some_events ++ some_events)).
Proof.
  assert (F : Forall (fun p => shown (snd p)) some_events) by (repeat constructor; cbn; lia).
  split; [vm_compute; discriminate|]. split; [exact F|]. split; [vm_compute; reflexivity|]. split; [vm_compute; reflexivity|]. split; [vm_compute; reflexivity|]. change (firstn 8 (some_events ++ some_events ++ some_events)) with (some_events ++ some_events). apply Forall_app. split; exact F.
Qed.

(** ** sequence archives *)
Theorem C100_archive : forall printable ids heap depth s, SsarModel.rParsed s = true -> Forall (fun p => shown (snd p)) (SsarModel.rEvents s) -> Forall (sequence_shown heap) (SsarModel.rSeqs s) ->
  exists t v, ssar_repr printable ids heap (S depth) s = Ok t /\ expr t = Some v /\
    eval_ssar v = Some (map snd (SsarModel.rEvents s), map (fun p => (fst p, (first_event heap (snd p), params_list (SsarModel.aParams (snd p))))) (SsarModel.rSeqs s), 0).
Proof. intros pr ids heap k s P F G. destruct (ssar_says pr ids heap k s P F G) as (t & E & Y). destruct (says_expr _ _ _ Y) as (v & V & W). exists t, v. repeat split; assumption. Qed.
Print Assumptions C100_archive.
Example C100_archive_ex : let s := SsarModel.ssar_fromEvents some_events [(Some (asc "A'"), SsarModel.aseq_parsed (Some 7) (1, 2, 3, 4, 5)); (None, SsarModel.aseq_parsed None (0, 127, 64, 50, 0))] 0 in
  Forall (sequence_shown (fun _ => Rest 2)) (SsarModel.rSeqs s) /\
  ssar_repr (fun _ => true) (fun _ => 0) (fun _ => Rest 2) 9 s =
    Ok (asc "SSAR.fromEventsAndSequences([TieSequenceEvent(True), NoteSequenceEvent(60, 228, 48), DefineTracksSequenceEvent({0, 2}), EndTrackSequenceEvent()], [(""A'"", SSARSequence(RestSequenceEvent(2), 1, 2, 3, 4, 5)), (None, SSARSequence(None, 0, 127, 64, 50, 0))])").
Proof. split; [repeat constructor; cbn; lia|vm_compute; reflexivity]. Qed.
(** an archive that is not parsed shows its data, where the constructor expects a file;
    a sequence without a name gets the name None *)
Theorem C100_archive_file : forall printable ids heap depth s, SsarModel.rParsed s = false -> short (SsarModel.rData s) ->
  Forall (fun p => match fst p with Some n => is_text n | None => True end) (SsarModel.rSeqs s) ->
  exists t v, ssar_repr printable ids heap depth s = Ok t /\ expr t = Some v /\
    eval_ssar_file v = Some (SsarModel.rData s, 0, map (fun p => match fst p with Some n => n | None => asc "None" end) (SsarModel.rSeqs s)).
Proof. intros pr ids heap k s P S F. destruct (ssar_file_says pr ids heap k s P S F) as (t & E & Y). destruct (says_expr _ _ _ Y) as (v & V & W). exists t, v. repeat split; assumption. Qed.
Print Assumptions C100_archive_file.
Example C100_archive_file_ex : let s := {| SsarModel.rParsed := false; SsarModel.rEvents := []; SsarModel.rData := [0xFF]; SsarModel.rSeqs := [(Some (asc "A"), SsarModel.aseq_unparsed (Some 0) (1, 2, 3, 4, 5)); (None, SsarModel.aseq_unparsed None (0, 127, 64, 50, 0))]; SsarModel.rUnk := 0 |} in
  short (SsarModel.rData s) /\ ssar_repr (fun _ => true) (fun _ => 0) (fun _ => Rest 2) 9 s = Ok (asc "SSAR(b'\xff', names=['A', 'None'])").
Proof.
  split; [|vm_compute; reflexivity]. cbn [SsarModel.rData]. split; [unfold is_bytes, is_byte; repeat (constructor; [lia|]); constructor|]. split; [vm_compute; discriminate|vm_compute; intuition discriminate].
Qed.

(** ** the representations that are no expressions still begin with the name of what makes the object *)
Theorem C100_class_name : forall ids heap depth g r n w s e d,
  head_of (group_repr g) = Some (asc "GroupEntry.fromFlags") /\ head_of (rom_repr r) = Some (asc "NintendoDSRom") /\ head_of (note_repr n) = Some (asc "NoteDefinition") /\
  (forall t, swav_repr w = Ok t -> head_of t = Some (asc "SWAV.fromData")) /\ (forall t, swar_repr s = Ok t -> head_of t = Some (asc "SWAR.fromWaves")) /\ head_of (sdat_repr d) = Some (asc "SDAT") /\
  (forall t n, ev_repr ids heap depth e = Ok t -> e = Jump n -> head_of t = Some (asc "JumpSequenceEvent")) /\
  (forall t n, ev_repr ids heap depth e = Ok t -> e = Call n -> head_of t = Some (asc "CallSequenceEvent")) /\
  (forall t k n, ev_repr ids heap depth e = Ok t -> e = BeginTrack k n -> head_of t = Some (asc "BeginTrackSequenceEvent")).
Proof.
  intros ids heap depth g r n w s e d. split; [reflexivity|]. split; [reflexivity|]. split; [reflexivity|].
  split; [intros t E; unfold swav_repr in E; apply PyLemmas.bind_ok in E as (x & _ & E); apply SeqRead.ok_inj in E; subst t; reflexivity|].
  split; [intros t E; unfold swar_repr in E; apply PyLemmas.bind_ok in E as (x & _ & E); apply SeqRead.ok_inj in E; subst t; reflexivity|].
  split; [reflexivity|].
  split; [|split].
  - intros t m E ->. destruct depth as [|k]; [discriminate E|]. cbn [ev_repr] in E. apply PyLemmas.bind_ok in E as (x & _ & E). apply SeqRead.ok_inj in E. subst t. reflexivity.
  - intros t m E ->. destruct depth as [|k]; [discriminate E|]. cbn [ev_repr] in E. apply PyLemmas.bind_ok in E as (x & _ & E). apply SeqRead.ok_inj in E. subst t. reflexivity.
  - intros t j m E ->. destruct depth as [|k]; [discriminate E|]. cbn [ev_repr] in E. apply PyLemmas.bind_ok in E as (x & _ & E). apply SeqRead.ok_inj in E. subst t. reflexivity.
Qed.
Print Assumptions C100_class_name.
Example C100_class_name_ex : head_of (asc "SDAT(b'')") = Some (asc "SDAT") /\ head_of (asc "[1, 2]") = None.
Proof. split; vm_compute; reflexivity. Qed.

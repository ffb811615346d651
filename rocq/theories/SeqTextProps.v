(** * Theorems about the printing of sequence events *)
From Coq Require Import String.
From Verif Require Import PyBase PyLemmas SeqModel TextModel TextSpec TextLemmas SeqTextModel SeqTextSpec SeqTextLemmas SeqTextLabels SeqTextRepr.

(** ** C92: one event *)

(** the text of an event without a destination tells which event it is *)
Theorem C92_reads_back : forall ids e, proper e -> plain e -> ~ ambiguous e ->
  exists s f, ev_str ids e = Ok s /\ read_event s = Some f /\ same_event e f.
Proof. intros ids e P L A. destruct (ev_str_total e L) as (s & S). destruct (read_plain ids e s P L A (S ids)) as (f & R & E). exists s, f. split; [apply S|]. split; assumption. Qed.
Print Assumptions C92_reads_back.
(** hence different events have different texts *)
Theorem C92_distinct : forall ids ids' e f, proper e -> plain e -> ~ ambiguous e -> proper f -> plain f -> ~ ambiguous f ->
  ev_str ids e = ev_str ids' f -> same_event e f.
Proof.
  intros ids ids' e f P L A P' L' A' H. destruct (C92_reads_back ids e P L A) as (s & g & S & R & E), (C92_reads_back ids' f P' L' A') as (t & h & T & Q & F). assert (s = t) by congruence. subst t. assert (h = g) by congruence. subst h.
  destruct e, g; cbn [same_event] in E; try discriminate E; destruct f; cbn [same_event] in F; try discriminate F; cbn [same_event]; try congruence. intros x. rewrite E. symmetry. apply F.
Qed.
Print Assumptions C92_distinct.
Example C92_ex : proper (Note 61 100 true 48) /\ plain (Note 61 100 true 48) /\ ~ ambiguous (Note 61 100 true 48) /\
  ev_str (fun _ => 0) (Note 61 100 true 48) = Ok (asc "<c" ++ [9839] ++ asc "' velocity=100 duration=48 unknown-flag>") /\
  ev_str (fun _ => 0) (Arith 0xB9 3 (-2)) = Ok (asc "<(var 3) >= -2>") /\ ev_str (fun _ => 0) (Random 0xC0 [5; 6] 1 2) = Ok (asc "<random 0xc0 5 6 (1, 2)>") /\
  ev_str (fun _ => 0) (Raw [0; 39; 34; 65]) = Ok (asc "<raw data b'\x00\'" ++ [34] ++ asc "A'>") /\ ev_str (fun _ => 0) (DefTracks [3; 0; 3]) = Ok (asc "<define tracks 0 3>").
Proof. repeat split; try reflexivity. intros (v & [=] & _). Qed.
(** the two kinds of portamento events cannot be told apart when the value is neither 0 nor 1 *)
Theorem C92_portamento : forall ids v, v <> 0 -> v <> 1 -> ev_str ids (Byte1 0xCE v) = ev_str ids (Byte1 0xC4 v).
Proof. intros ids v A B. cbn [ev_str]. unfold on_off. replace (v =? 0) with false by lia. replace (v =? 1) with false by lia. reflexivity. Qed.
Print Assumptions C92_portamento.
Theorem C92_portamento_refuted : exists e f s, proper e /\ plain e /\ proper f /\ plain f /\ ~ same_event e f /\ (forall ids, ev_str ids e = Ok s /\ ev_str ids f = Ok s).
Proof. exists (Byte1 0xC4 5), (Byte1 0xCE 5), (asc "<portamento 5>"). cbn [proper plain same_event]. repeat split; first [lia|discriminate|reflexivity]. Qed.
Print Assumptions C92_portamento_refuted.

(** ** C93: lists of events *)

(** the printed list tells the events, numbered from 0, with positions as destinations *)
Theorem C93_list : forall ids heap depth events prefix, events <> [] -> closed events -> ~ In 10 prefix ->
  Forall (fun p => proper (snd p) /\ ~ ambiguous (snd p)) events ->
  exists t R, printSequenceEventList ids heap depth events [] prefix = Ok t /\ read_list prefix t = Some R /\
    Forall2 (fun p q => same_line events (snd p) (snd q)) events R /\ map fst R = map Z.of_nat (seq 0 (length events)).
Proof.
  intros ids heap depth events prefix N C F P. destruct (print_list_ok ids heap depth events prefix N C) as (ets & L & E). destruct (read_plain_lines events prefix (zlen (str_int (zlen events - 1))) ets events 0 F P L) as (FL & R & A & B & D).
  eexists _, R. split; [exact E|]. unfold read_list. rewrite split_join; [|exact FL|apply plain_lines_nonempty; intros ->; apply N; inversion L; reflexivity]. split; [exact A|]. split; [exact B|exact D].
Qed.
Print Assumptions C93_list.
Definition C93_events : list (Z * ev) := [(10, DefTracks [0; 1]); (11, BeginTrack 1 (Some 14)); (12, Note 60 127 false 24); (13, Jump (Some 12)); (14, Rest 96); (15, Bare 0xFF)].
Example C93_ex : closed C93_events /\ Forall (fun p => proper (snd p) /\ ~ ambiguous (snd p)) C93_events /\
  printSequenceEventList (fun _ => 0) (fun _ => Rest 0) 100 C93_events [] (asc "  ") =
    Ok (join_lines [asc "     [0] <define tracks 0 1>,"; asc "     [1] <begin track 1 @4>,"; asc "     [2] <c' velocity=127 duration=24>,"; asc "     [3] <jump @2>,"; asc "     [4] <rest 96>,"; asc "     [5] <end track>"]) /\
  same_line C93_events (Jump (Some 12)) (Jump (Some 2)).
Proof.
  split; [intros e r I D; cbn in I; repeat (destruct I as [<-|I]); try contradiction; cbn in D; repeat (destruct D as [<-|D]); try contradiction; eexists; (split; [reflexivity|cbn; tauto])|].
  split; [repeat (apply Forall_cons; [cbn; (split; [try reflexivity; exact I|intros (v & [=] & _)])|]); apply Forall_nil|]. split; [vm_compute; reflexivity|].
  cbn [same_line points]. split; [lia|]. exists 12. split; [reflexivity|]. split; [reflexivity|]. intros j J. change (Z.to_nat 2) with 2%nat in J. destruct j as [|[|j]]; [discriminate|discriminate|lia].
Qed.
(** hence lists that are printed alike are alike *)
Theorem C93_distinct : forall ids heap depth ids' heap' depth' events events' prefix, events <> [] -> closed events -> events' <> [] -> closed events' -> ~ In 10 prefix ->
  Forall (fun p => proper (snd p) /\ ~ ambiguous (snd p)) events -> Forall (fun p => proper (snd p) /\ ~ ambiguous (snd p)) events' ->
  printSequenceEventList ids heap depth events [] prefix = printSequenceEventList ids' heap' depth' events' [] prefix ->
  exists R, Forall2 (fun p q => same_line events (snd p) q) events R /\ Forall2 (fun p q => same_line events' (snd p) q) events' R.
Proof.
  intros ids heap depth ids' heap' depth' events events' prefix N C N' C' F P P' H.
  destruct (C93_list ids heap depth events prefix N C F P) as (t & R & T & A & B & _), (C93_list ids' heap' depth' events' prefix N' C' F P') as (t' & R' & T' & A' & B' & _).
  assert (t' = t) by congruence. subst t'. assert (R' = R) by congruence. subst R'. exists (map snd R).
  assert (G : forall (ev0 : list (Z * ev)) l S, Forall2 (fun p q : Z * ev => same_line ev0 (snd p) (snd q)) l S -> Forall2 (fun (p : Z * ev) q => same_line ev0 (snd p) q) l (map snd S)) by (intros ev0 l S Q; induction Q; constructor; assumption).
  split; apply G; assumption.
Qed.
Print Assumptions C93_distinct.
(** with labels: the labels that mark nothing come first, and then one line for each
    event, with the labels of the event in a column, its number, and its text *)
Theorem C93_labels : forall ids heap depth events labels prefix, events <> [] -> closed events -> labels_closed events labels ->
  Forall (fun p => proper (snd p) /\ ~ ambiguous (snd p)) events ->
  exists w nw L numeral, (forall i, number (numeral i) = Some i) /\ width_of events labels numeral w /\ zlen L = zlen events /\
    printSequenceEventList ids heap depth events labels prefix = Ok (join_lines (unset_lines prefix labels ++ L)) /\
    forall k n e, nth_error events k = Some (n, e) -> exists col num et f lines,
      in_column prefix w (label_of (names_at events labels (Z.of_nat k) (numeral (Z.of_nat k)))) col lines /\
      zlen num = nw /\ number (drop_spaces num) = Some (Z.of_nat k) /\ read_event et = Some f /\ same_line events e f /\
      nth_error L k = Some (prefix ++ col ++ asc "  [" ++ num ++ asc "] " ++ et ++ (if Nat.eqb (S k) (length events) then [] else asc ",")).
Proof.
  intros ids heap depth events labels prefix N C LC P. destruct (print_labels ids heap depth events labels prefix N C LC) as (w & L & W & LL & E & H).
  exists w, (zlen (str_int (zlen events - 1))), L, str_int. split; [apply number_str|]. split; [exact W|]. split; [unfold zlen; rewrite LL; reflexivity|]. split; [exact E|].
  intros k n e K. destruct (H k (n, e) K) as (col & et & j & I & T & NL). cbn [snd] in T. assert (KE : In (n, e) events) by (eapply nth_error_In; exact K). rewrite Forall_forall in P. destruct (P _ KE) as [P1 P2].
  destruct (line_text_ok events e et P1 P2 T) as (_ & f & R & S). exists col, (fmt_width (Z.of_nat k) (zlen (str_int (zlen events - 1)))), et, f, j. split; [exact I|].
  assert (LT : (k < length events)%nat) by (apply nth_error_Some; congruence). split.
  { unfold fmt_width, str_int. replace (zlen events - 1 <? 0) with false by (unfold zlen; lia). replace (Z.of_nat k <? 0) with false by lia. pose proof (str_nat_len (Z.of_nat k) (zlen events - 1) ltac:(unfold zlen; lia)) as SL. rewrite zlen_app. unfold rep. rewrite zlen_repeat. lia. }
  split; [rewrite drop_fmt; apply number_str|]. split; [exact R|]. split; [exact S|exact NL].
Qed.
Print Assumptions C93_labels.
Example C93_ex_labels : labels_closed C93_events [(Some (asc "intro"), Some 10); (None, Some 12); (Some (asc "gone"), None); (Some (asc "loop"), Some 12)] /\
  printSequenceEventList (fun _ => 0) (fun _ => Rest 0) 100 C93_events [(Some (asc "intro"), Some 10); (None, Some 12); (Some (asc "gone"), None); (Some (asc "loop"), Some 12)] (asc "") =
    Ok (join_lines [asc "gone: (none)"; asc "intro:    [0] <define tracks 0 1>,"; asc "          [1] <begin track 1 @4>,"; asc "2, loop:  [2] <c' velocity=127 duration=24>,"; asc "          [3] <jump @2>,"; asc "          [4] <rest 96>,"; asc "          [5] <end track>"]).
Proof. split; [intros name n I; cbn in I; repeat (destruct I as [[= <- <-]|I]); try discriminate; try contradiction; cbn; tauto|vm_compute; reflexivity]. Qed.

Lemma missing_dangling events e : missing events e = if dangling events e then 1%nat else 0%nat.
Proof.
  unfold missing, dangling. assert (K : forall r, (match index_of 0 events r with Some _ => 0 | None => 1 end)%nat = if match r with Some n => negb (existsb (Z.eqb n) (map fst events)) | None => true end || false then 1%nat else 0%nat).
  { intros r. pose proof (index_points events r) as P. destruct (index_of 0 events r) as [i|]; cbn [points] in P.
    - destruct P as (_ & n & -> & H & _). apply nth_error_In in H. replace (existsb (Z.eqb n) (map fst events)) with true; [reflexivity|]. symmetry. apply existsb_exists. exists n. split; [exact H|apply Z.eqb_refl].
    - destruct r as [n|]; [|reflexivity]. replace (existsb (Z.eqb n) (map fst events)) with false; [reflexivity|]. symmetry. apply not_true_is_false. intros X. apply existsb_exists in X as (m & M & X). apply (P n eq_refl). replace n with m by lia. exact M. }
  destruct e; cbn [dest existsb]; try reflexivity; apply K.
Qed.
(** every destination that is not in the list is shown as NOWHERE, with one warning
    before the list, and there are no other warnings *)
Theorem C93_warnings : forall ids heap depth events prefix t, events <> [] -> Forall (fun p => proper (snd p) /\ ~ ambiguous (snd p)) events -> ~ In 10 prefix ->
  printSequenceEventList ids heap depth events [] prefix = Ok t ->
  exists W u R, t = join_lines (W ++ [u]) /\ length W = length (filter (fun p => dangling events (snd p)) events) /\
    Forall (fun x => exists y, x = prefix ++ asc "(WARNING: " ++ y ++ asc ") not in events list!)") W /\
    read_list prefix u = Some R /\ Forall2 (fun p q => same_line events (snd p) (snd q)) events R.
Proof.
  intros ids heap depth events prefix t N P FP H. unfold printSequenceEventList in H. cbn [foldM bind] in H. cbv zeta iota in H. change (Z.min 0 48 + 1) with 1 in H.
  apply bind_ok in H as ([W L] & A & H). apply ok_inj in H. cbn [fst snd app] in H. destruct (print_events_inv _ _ _ _ _ _ _ _ _ _ _ _ A) as (ets & F & -> & LW & FW).
  set (nw := zlen (str_int (zlen events - 1))) in *. destruct (read_plain_lines events prefix nw ets events 0 FP P F) as (FL & R & RA & RB & _). exists W, (join_lines (plain_lines prefix nw 0 ets)), R.
  assert (NE : plain_lines prefix nw 0 ets <> []) by (apply plain_lines_nonempty; intros ->; apply N; inversion F; reflexivity).
  split.
  { destruct events as [|p events]; [contradiction|]. rewrite drop_comma_lines in H. subst t. generalize (plain_lines prefix nw 0 ets) NE. clear. intros Q NE. induction W as [|x W IH]; [reflexivity|]. cbn [app]. destruct W as [|y W].
    - cbn [app]. destruct Q as [|q Q]; [contradiction|]. reflexivity.
    - cbn [app] in *. cbn [join_lines]. cbn [join_lines] in IH. rewrite IH. reflexivity. }
  split.
  { rewrite LW. clear. assert (G : forall l : list (Z * ev), fold_right plus 0%nat (map (fun p => missing events (snd p)) l) = length (filter (fun p => dangling events (snd p)) l)); [|apply G]. intros l. induction l as [|[n e] l IH]; [reflexivity|]. cbn [map fold_right filter snd]. rewrite IH, missing_dangling. destruct (dangling events e); reflexivity. }
  split; [exact FW|]. unfold read_list. rewrite split_join by assumption. split; [exact RA|exact RB].
Qed.
Print Assumptions C93_warnings.
Example C93_ex_warnings : printSequenceEventList (fun _ => 7) (fun n => if n =? 1 then Jump (Some 9) else Rest 5) 100 [(1, Jump (Some 9)); (2, Rest 5)] [] [] =
    Ok (join_lines [asc "(WARNING: RestSequenceEvent(5) (target of JumpSequenceEvent(RestSequenceEvent(5) at 7)) not in events list!)"; asc "   [0] <jump @NOWHERE>,"; asc "   [1] <rest 5>"])
  /\ dangling [(1, Jump (Some 9)); (2, Rest 5)] (Jump (Some 9)) = true.
Proof. split; vm_compute; reflexivity. Qed.

(** ** sequences and sequence archives *)

Theorem C93_sseq : forall ids heap depth events unk02 bank volume cp pp player, events <> [] -> closed events ->
  Forall (fun p => proper (snd p) /\ ~ ambiguous (snd p)) events ->
  exists b v c p l body R, sseq_str ids heap depth (Some events) (unk02, bank, volume, cp, pp, player) =
      Ok (join_lines [asc "<sseq bankID=" ++ b ++ asc " volume=" ++ v ++ asc " channelPressure=" ++ c ++ asc " polyphonicPressure=" ++ p ++ asc " playerID=" ++ l; body; asc ">"]) /\
    number b = Some bank /\ number v = Some volume /\ number c = Some cp /\ number p = Some pp /\ number l = Some player /\
    read_list (spaces 2) body = Some R /\ Forall2 (fun p q => same_line events (snd p) (snd q)) events R.
Proof.
  intros ids heap depth events unk02 bank volume cp pp player N C P. destruct (C93_list ids heap depth events (spaces 2) N C ltac:(vm_compute; lia) P) as (t & R & T & A & B & _).
  exists (str_int bank), (str_int volume), (str_int cp), (str_int pp), (str_int player), t, R. split; [|rewrite !number_str; repeat split; assumption].
  unfold sseq_str. change (rep 32 2) with (spaces 2). rewrite T. cbn [bind]. reflexivity.
Qed.
Print Assumptions C93_sseq.
Example C93_ex_sseq : sseq_str (fun _ => 0) (fun _ => Rest 0) 100 (Some [(1, Rest 2); (2, Bare 0xFF)]) (0, 3, 127, 64, 50, 1) =
  Ok (join_lines [asc "<sseq bankID=3 volume=127 channelPressure=64 polyphonicPressure=50 playerID=1"; asc "     [0] <rest 2>,"; asc "     [1] <end track>"; asc ">"]).
Proof. vm_compute. reflexivity. Qed.

Lemma set_labels seqs : forall acc, NoDup (map fst (acc ++ seqs)) -> fold_left (fun l p => set_label l (fst p) (snd p)) seqs acc = acc ++ seqs.
Proof.
  assert (S : forall acc name r, ~ In name (map fst acc) -> set_label acc name r = acc ++ [(name, r)]).
  { induction acc as [|[m s] acc IH]; intros name r I; [reflexivity|]. cbn [set_label app]. cbn [map fst In] in I.
    replace (match m, name with Some a, Some b => beq a b | None, None => true | _, _ => false end) with false; [rewrite IH by tauto; reflexivity|].
    destruct m as [a|], name as [b|]; try reflexivity; [symmetry; apply beq_neq; intros ->; tauto|tauto]. }
  induction seqs as [|[name r] seqs IH]; intros acc ND; [symmetry; apply app_nil_r|]. cbn [fold_left fst snd]. rewrite S.
  - rewrite IH; rewrite <- app_assoc; [reflexivity|exact ND].
  - rewrite map_app in ND. apply NoDup_remove_2 in ND. intros I. apply ND, in_app_iff. left. exact I.
Qed.
(** an archive is printed with its sequences as labels, when they have different names *)
Theorem C93_ssar : forall ids heap depth events seqs t, NoDup (map fst seqs) -> printSequenceEventList ids heap depth events seqs (spaces 4) = Ok t ->
  ssar_str ids heap depth events seqs = Ok (join_lines [asc "<ssar"; t; asc ">"]).
Proof. intros ids heap depth events seqs t ND T. unfold ssar_str. rewrite set_labels by exact ND. change (rep 32 4) with (spaces 4). cbn [app]. rewrite T. reflexivity. Qed.
Print Assumptions C93_ssar.
Example C93_ex_ssar : NoDup (map fst [(Some (asc "JUMP"), Some 1); (None, Some 2)]) /\
  ssar_str (fun _ => 0) (fun _ => Rest 0) 100 [(1, Rest 2); (2, Bare 0xFF)] [(Some (asc "JUMP"), Some 1); (None, Some 2)] =
    Ok (join_lines [asc "<ssar"; asc "    JUMP:  [0] <rest 2>,"; asc "    1:     [1] <end track>"; asc ">"]).
Proof. split; [repeat constructor; cbn; intuition discriminate|vm_compute; reflexivity]. Qed.
(** of several sequences without a name, only the last one is shown *)
Theorem C93_ssar_labels_refuted : exists events seqs t, (forall p, In p seqs -> exists n, snd p = Some n /\ In n (map fst events)) /\ closed events /\
  (forall ids heap depth, ssar_str ids heap depth events seqs = Ok t /\ ssar_str ids heap depth events (tl seqs) = Ok t) /\ seqs <> tl seqs /\ length seqs = 2%nat.
Proof.
  exists [(1, Rest 2); (2, Bare 0xFF)], [(None, Some 1); (None, Some 2)], (join_lines [asc "<ssar"; asc "        [0] <rest 2>,"; asc "    1:  [1] <end track>"; asc ">"]).
  split; [intros p [<-|[<-|[]]]; eexists; (split; [reflexivity|cbn; tauto])|]. split; [intros e r [<-|[<-|[]]] []|]. split; [intros ids heap depth; split; vm_compute; reflexivity|]. split; [discriminate|reflexivity].
Qed.
Print Assumptions C93_ssar_labels_refuted.

(** ** C94: representations *)

(** the representation of an event without a destination is a constructor call that
    makes this event again; the members of enumerations are the exception *)
Theorem C94_constructor_call : forall ids heap depth e, (0 < depth)%nat -> proper e -> plain e -> evaluable e ->
  exists s, ev_repr ids heap depth e = Ok s /\ eval_event s = Some e.
Proof. intros ids heap [|k] e D P L V; [lia|]. apply eval_plain; assumption. Qed.
Print Assumptions C94_constructor_call.
Example C94_ex : proper (Byte1 0xCE 1) /\ plain (Byte1 0xCE 1) /\ evaluable (Byte1 0xCE 1) /\
  ev_repr (fun _ => 0) (fun _ => Rest 0) 10 (Byte1 0xCE 1) = Ok (asc "PortamentoOnOffSequenceEvent(True)") /\
  ev_repr (fun _ => 0) (fun _ => Rest 0) 10 (Note 60 5 true 7) = Ok (asc "NoteSequenceEvent(60, 133, 7)") /\
  ev_repr (fun _ => 0) (fun _ => Rest 0) 10 (Random 0xC0 [1; 2] 3 4) = Ok (asc "RandomSequenceEvent(0xc0, [1, 2], 3, 4)") /\
  ev_repr (fun _ => 0) (fun _ => Rest 0) 10 (DefTracks [0; 4]) = Ok (asc "DefineTracksSequenceEvent({0, 4})").
Proof. cbn [proper plain evaluable]. repeat split; first [lia|reflexivity]. Qed.
(** the representation of a member of an enumeration is no Python expression *)
Theorem C94_enumeration_refuted : exists e s, proper e /\ plain e /\ (forall ids heap k, ev_repr ids heap (S k) e = Ok s) /\ eval_event s = None.
Proof. exists (Byte1 0xC7 1), (asc "MonoPolySequenceEvent(<MonoPolySequenceEvent.Value.MONO: 1>)"). cbn [proper plain]. repeat split; first [lia|reflexivity]. Qed.
Print Assumptions C94_enumeration_refuted.
(** which tells name and number of the member *)
Theorem C94_enumeration : forall ids heap k,
  map (fun p => ev_repr ids heap (S k) (Byte1 (fst p) (snd p))) [(0xC7, 0); (0xC7, 1); (0xCC, 0); (0xCC, 1); (0xCC, 2)] =
  [Ok (asc "MonoPolySequenceEvent(<MonoPolySequenceEvent.Value.POLY: 0>)"); Ok (asc "MonoPolySequenceEvent(<MonoPolySequenceEvent.Value.MONO: 1>)");
   Ok (asc "VibratoTypeSequenceEvent(<VibratoTypeSequenceEvent.Value.PITCH: 0>)"); Ok (asc "VibratoTypeSequenceEvent(<VibratoTypeSequenceEvent.Value.VOLUME: 1>)");
   Ok (asc "VibratoTypeSequenceEvent(<VibratoTypeSequenceEvent.Value.PAN: 2>)")].
Proof. intros ids heap k. reflexivity. Qed.
Print Assumptions C94_enumeration.
(** a switch is shown as a bool, and as a number only if it is neither off nor on *)
Theorem C94_switches : forall ids heap k,
  map (fun p => ev_repr ids heap (S k) (Byte1 (fst p) (snd p))) [(0xC8, 0); (0xC8, 1); (0xCE, 0); (0xCE, 1)] =
    [Ok (asc "TieSequenceEvent(False)"); Ok (asc "TieSequenceEvent(True)"); Ok (asc "PortamentoOnOffSequenceEvent(False)"); Ok (asc "PortamentoOnOffSequenceEvent(True)")] /\
  forall v, v <> 0 -> v <> 1 -> exists n, number n = Some v /\
    ev_repr ids heap (S k) (Byte1 0xC8 v) = Ok (asc "TieSequenceEvent(" ++ n ++ asc ")") /\ ev_repr ids heap (S k) (Byte1 0xCE v) = Ok (asc "PortamentoOnOffSequenceEvent(" ++ n ++ asc ")").
Proof.
  intros ids heap k. split; [reflexivity|]. intros v A B. exists (str_int v). split; [apply number_str|]. apply Z.eqb_neq in A, B.
  cbn [ev_repr]. unfold byte_value. rewrite A, B. split; reflexivity.
Qed.
Print Assumptions C94_switches.
Example C94_switches_ex : ev_repr (fun _ => 0) (fun _ => Rest 0) 1 (Byte1 0xCE 127) = Ok (asc "PortamentoOnOffSequenceEvent(127)").
Proof. reflexivity. Qed.
(** a destination is shown inside: the depth needed is the number of destinations that follow one another *)
Theorem C94_depth : forall ids heap depth e, (exists s, ev_repr ids heap depth e = Ok s) <-> exists k, depth = S k /\ ends heap k e.
Proof.
  intros ids heap [|k] e; [split; [intros (s & [=])|intros (k & [=] & _)]|]. destruct (repr_depth ids heap k e) as [A B]. split; [|intros (j & [= <-] & E); exact (A E)].
  intros (s & S). exists k. split; [reflexivity|]. destruct (ends_dec heap k e) as [E|E]; [exact E|]. rewrite (B E) in S. discriminate S.
Qed.
Print Assumptions C94_depth.
(** when following the destinations never comes to an end, as in a loop, there is no representation *)
Theorem C94_endless : forall ids heap e, (forall k, ~ ends heap k e) -> forall depth, ev_repr ids heap depth e = Err RecursionError.
Proof. intros ids heap e E [|k]; [reflexivity|]. exact (proj2 (repr_depth ids heap k e) (E k)). Qed.
Print Assumptions C94_endless.
Example C94_ex_endless : let heap n := if n =? 1 then Jump (Some 2) else if n =? 2 then Call (Some 1) else Rest 3 in
  (forall k, ~ ends heap k (Jump (Some 1))) /\ ends heap 1 (Jump (Some 5)) /\ ev_repr (fun _ => 9) heap 2 (Jump (Some 5)) = Ok (asc "JumpSequenceEvent(RestSequenceEvent(3) at 9)").
Proof.
  cbv zeta. split; [|split; [exact I|vm_compute; reflexivity]]. set (heap := fun n => if n =? 1 then Jump (Some 2) else if n =? 2 then Call (Some 1) else Rest 3).
  assert (H : forall k, ~ ends heap k (Jump (Some 1)) /\ ~ ends heap k (Jump (Some 2)) /\ ~ ends heap k (Call (Some 1))); [|intros k; apply H].
  induction k as [|k (A & B & C)]; [repeat split; intros []|]. repeat split; assumption.
Qed.

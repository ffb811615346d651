(** * Lemmas about the representations of events, sequences and sequence archives *)
From Coq Require Import String Lia.
From Verif Require Import PyBase PyLemmas TextModel TextSpec TextLemmas SeqModel SeqTextModel SeqTextSpec SeqTextLemmas SeqTextRepr ReprModel ReprSpec ReprLemmas ReprObjects ReprMoreSpec ReprMore.
From Verif Require SsarModel.

(** ** a call is read whatever follows it *)
Definition reads_any (s : list Z) (v : value) : Prop := forall fuel t, (2 * length s < fuel)%nat -> parse fuel (s ++ t) = Some (v, t).
Definition never (s : list Z) : Prop := forall fuel t, (2 * length s < fuel)%nat -> parse fuel (s ++ t) = None.
Lemma any_reads s v : reads_any s v -> reads s v.
Proof. intros R fuel t L _. apply R, L. Qed.
Lemma never_stuck s : never s -> stuck s.
Proof. intros R fuel t L _. rewrite (R fuel t L). exact I. Qed.
Lemma call_any f ss vs : is_word f = true -> Forall2 reads ss vs -> reads_any (call f ss) (VCall f vs).
Proof.
  intros W F fuel t L. unfold call in *. change (asc "(") with [40] in *. change (asc ")") with [41] in *. rewrite !app_length in L. cbn [length] in L. destruct fuel as [|k]; [lia|].
  replace ((f ++ [40] ++ joined (asc ", ") ss ++ [41]) ++ t) with (f ++ 40 :: joined (asc ", ") ss ++ 41 :: t) by (rewrite <- !app_assoc; reflexivity).
  rewrite parse_word by (exact W || exact eq_refl). cbn [hd tl Z.eqb Pos.eqb]. rewrite (items_ok ss vs (asc ", ") 41 k t F sep_space ltac:(unfold closer; lia) ltac:(lia)). reflexivity.
Qed.
(** a call whose first argument is read up to a blank, or not at all *)
Definition blank_after (s : list Z) : Prop := forall fuel t, (2 * length s < fuel)%nat -> match parse fuel (s ++ t) with None => True | Some (_, u) => hd 0 u = 32 end.
Lemma call_never f ss vs s : is_word f = true -> Forall2 reads ss vs -> blank_after s -> opens s -> never (call f (ss ++ [s])).
Proof.
  intros W F S O fuel t L. unfold call in *. change (asc "(") with [40] in *. change (asc ")") with [41] in *. rewrite !app_length in L. cbn [length] in L. destruct fuel as [|k]; [lia|].
  replace ((f ++ [40] ++ joined (asc ", ") (ss ++ [s]) ++ [41]) ++ t) with (f ++ 40 :: joined [44; 32] (ss ++ [s]) ++ 41 :: t) by (rewrite <- !app_assoc; reflexivity). change (asc ", ") with [44; 32] in L.
  rewrite parse_word by (exact W || exact eq_refl). cbn [hd tl Z.eqb Pos.eqb].
  rewrite (items_stuck ss vs s [] 41 k t F); [reflexivity| |exact O|unfold closer; lia|lia].
  intros g u G _. specialize (S g u G). destruct (parse g (s ++ u)) as [[v [|c w]]|]; cbn [hd] in S; [discriminate S|subst c; unfold closer; lia|exact Logic.I].
Qed.
(** a call with a text that begins with an angle *)
Lemma angle_blank s : blank_after (asc "<" ++ s).
Proof. intros fuel t L. destruct fuel as [|k]; exact Logic.I. Qed.
Lemma at_blank s v n : reads_any s v -> blank_after (s ++ asc " at " ++ n).
Proof. intros R fuel t L. rewrite app_length in L. rewrite <- app_assoc. rewrite (R fuel) by lia. reflexivity. Qed.
Lemma never_blank s n : never s -> blank_after (s ++ n).
Proof. intros R fuel t L. rewrite app_length in L. rewrite <- app_assoc. rewrite (R fuel) by lia. exact Logic.I. Qed.
Lemma none_blank n : blank_after (asc "None" ++ asc " at " ++ n).
Proof. intros fuel t L. destruct fuel as [|k]; [exact Logic.I|]. rewrite <- !app_assoc. rewrite (parse_word k (asc "None")) by reflexivity. reflexivity. Qed.
Lemma opens_app s t : opens s -> opens (s ++ t).
Proof. intros (c & r & -> & N). exists c, (r ++ t). split; [reflexivity|exact N]. Qed.

(** ** one event *)
Lemma truth_reads v : exists w, reads (if v =? 0 then asc "False" else if v =? 1 then asc "True" else str_int v) w /\ as_number w = Some v.
Proof.
  destruct (Z.eqb_spec v 0) as [->|]; [exists (VWord (asc "False")); split; [apply reads_word; reflexivity|reflexivity]|].
  destruct (Z.eqb_spec v 1) as [->|]; [exists (VWord (asc "True")); split; [apply reads_word; reflexivity|reflexivity]|]. exists (VInt v). split; [apply reads_int|reflexivity].
Qed.
Lemma call_text f (args : list (list Z)) s : s = f ++ asc "(" ++ joined (asc ", ") args ++ asc ")" -> s = call f args.
Proof. intros ->. reflexivity. Qed.
Ltac as_call nm l := match goal with |- context[Ok ?s] => replace s with (call (asc nm) l) by (symmetry; apply call_text; unfold repr_list; flatten) end.
Ltac args_read := repeat (constructor; [first [apply reads_int|apply reads_hex]|]); constructor.
Ltac event_call nm l vs := as_call nm l; exists (call (asc nm) l), (VCall (asc nm) vs); split; [reflexivity|]; split; [apply call_any; [reflexivity|args_read]|].
Lemma ev_reads ids heap k e : proper e -> readable e -> exists s v, ev_repr ids heap (S k) e = Ok s /\ reads_any s v /\ (evaluable e -> eval_ev v = Some e).
Proof.
  intros P L. destruct e as [t v flag d|d|b i|n r|r|r|t args a b|t v u|t v x|t v|t v|t|l|d]; try contradiction; cbn [ev_repr]; cbn [proper readable] in P, L.
  - event_call "NoteSequenceEvent"%string [str_int t; str_int (Z.lor v (if flag then 0x80 else 0)); str_int d] [VInt t; VInt (Z.lor v (if flag then 0x80 else 0)); VInt d].
    intro V. cbn [evaluable] in V. destruct (velocity_bits v flag V) as [E F].
    change (Some (Note t (Z.lor v (if flag then 128 else 0) mod 128) (Z.lor v (if flag then 128 else 0) / 128 mod 2 =? 1) d) = Some (Note t v flag d)). rewrite E, F. reflexivity.
  - event_call "RestSequenceEvent"%string [str_int d] [VInt d]. reflexivity.
  - event_call "InstrumentSwitchSequenceEvent"%string [str_int b; str_int i] [VInt b; VInt i]. reflexivity.
  - as_call "RandomSequenceEvent"%string [hex t; repr_list (map str_int args); str_int a; str_int b]. destruct (says_ints args) as (w & R & E).
    exists (call (asc "RandomSequenceEvent") [hex t; repr_list (map str_int args); str_int a; str_int b]), (VCall (asc "RandomSequenceEvent") [VInt t; w; VInt a; VInt b]).
    split; [reflexivity|]. split; [apply call_any; [reflexivity|repeat (constructor; [first [exact R|apply reads_int|apply reads_hex]|]); constructor]|].
    intros _. unfold eval_ev. rewrite (eq_refl : beq (asc "RandomSequenceEvent") (asc "RawDataSequenceEvent") = false). rewrite (eq_refl : beq (asc "RandomSequenceEvent") (asc "DefineTracksSequenceEvent") = false).
    rewrite (eq_refl : beq (asc "RandomSequenceEvent") (asc "RandomSequenceEvent") = true). rewrite E. reflexivity.
  - destruct u as [u|]; [event_call "FromVariableSequenceEvent"%string [hex t; str_int v; str_int u] [VInt t; VInt v; VInt u]|event_call "FromVariableSequenceEvent"%string [hex t; str_int v] [VInt t; VInt v]]; reflexivity.
  - assert (K : In t [0xB0; 0xB1; 0xB2; 0xB3; 0xB4; 0xB5; 0xB6; 0xB7; 0xB8; 0xB9; 0xBA; 0xBB; 0xBC; 0xBD]) by (unfold is_arith in P; cbn [In]; lia).
    exists (call (arith_class t) [str_int v; str_int x]), (VCall (arith_class t) [VInt v; VInt x]). split; [apply (f_equal Ok), call_text; flatten|].
    split; [apply call_any; [|args_read]|]; cbn [In] in K; repeat (destruct K as [<-|K]); try contradiction; reflexivity.
  - destruct P as (P & _ & _). destruct L as [V1 V2].
    assert (K : In t [0xC8; 0xCE] \/ In t [0xC0; 0xC1; 0xC2; 0xC3; 0xC4; 0xC5; 0xC6; 0xC9; 0xCA; 0xCB; 0xCD; 0xCF; 0xD0; 0xD1; 0xD2; 0xD3; 0xD4; 0xD5; 0xD6; 0xE0]) by (unfold is_byte1 in P; cbn [In]; lia).
    assert (exists w, reads (byte_value t v) w /\ as_number w = Some v) as (w & R & E).
    { destruct K as [K|K]; cbn [In] in K; repeat (destruct K as [<-|K]); try contradiction; first [apply truth_reads|exists (VInt v); split; [apply reads_int|reflexivity]]. }
    exists (call (byte_class t) [byte_value t v]), (VCall (byte_class t) [w]). split; [reflexivity|]. split.
    + apply call_any; [|constructor; [exact R|constructor]]. destruct K as [K|K]; cbn [In] in K; repeat (destruct K as [<-|K]); try contradiction; reflexivity.
    + intros _. unfold eval_ev. cbn [map all_some]. rewrite E. destruct K as [K|K]; cbn [In] in K; repeat (destruct K as [<-|K]); try contradiction; reflexivity.
  - assert (K : In t [0xE1; 0xE3]) by (unfold is_word1 in P; cbn [In]; lia). cbn [In] in K. repeat (destruct K as [<-|K]); try contradiction.
    + event_call "TempoSequenceEvent"%string [str_int v] [VInt v]. reflexivity.
    + event_call "SweepPitchSequenceEvent"%string [str_int v] [VInt v]. reflexivity.
  - assert (K : In t [0xA2; 0xFC; 0xFD; 0xFF]) by (unfold is_bare in P; cbn [In]; lia). cbn [In] in K. repeat (destruct K as [<-|K]); try contradiction.
    + event_call "IfSequenceEvent"%string (@nil (list Z)) (@nil value). reflexivity.
    + event_call "EndLoopSequenceEvent"%string (@nil (list Z)) (@nil value). reflexivity.
    + event_call "ReturnSequenceEvent"%string (@nil (list Z)) (@nil value). reflexivity.
    + event_call "EndTrackSequenceEvent"%string (@nil (list Z)) (@nil value). reflexivity.
  - destruct (set_says l) as (w & R & E). exists (call (asc "DefineTracksSequenceEvent") [repr_set l]), (VCall (asc "DefineTracksSequenceEvent") [w]). split; [reflexivity|].
    split; [apply call_any; [reflexivity|constructor; [exact R|constructor]]|]. intros _. unfold eval_ev. rewrite (eq_refl : beq (asc "DefineTracksSequenceEvent") (asc "RawDataSequenceEvent") = false).
    rewrite (eq_refl : beq (asc "DefineTracksSequenceEvent") (asc "DefineTracksSequenceEvent") = true). rewrite E. reflexivity.
  - exists (call (asc "RawDataSequenceEvent") [repr_bytes d]), (VCall (asc "RawDataSequenceEvent") [VBytes d]). split; [reflexivity|]. split; [apply call_any; [reflexivity|constructor; [apply reads_bytes, P|constructor]]|reflexivity].
Qed.
Lemma readable_dec e : readable e \/ ~ readable e.
Proof. destruct e as [| | | | | | | | |t v| | | |]; cbn [readable]; try tauto. lia. Qed.
Lemma ev_never ids heap : (forall n, proper (heap n)) -> forall k e s, proper e -> ~ readable e -> ev_repr ids heap k e = Ok s -> never s /\ opens s.
Proof.
  intro H. induction k as [|k IH]; intros e s P N E; [discriminate E|].
  assert (D : forall r x, (s0 <- match r with None => Ok (asc "None") | Some n => ev_repr ids heap k (heap n) end ;; Ok (s0 ++ asc " at " ++ str_int (ids r))) = Ok x -> blank_after x /\ opens x).
  { intros r x X. destruct r as [n|].
    - destruct (ev_repr ids heap k (heap n)) as [y|] eqn:Y; cbn [bind] in X; [|discriminate X]. apply SeqRead.ok_inj in X. subst x. destruct (readable_dec (heap n)) as [Q|Q].
      + destruct k as [|k]; [discriminate Y|]. destruct (ev_reads ids heap k (heap n) (H n) Q) as (z & v & Z1 & R & _). rewrite Y in Z1. apply SeqRead.ok_inj in Z1. subst z. split; [eapply at_blank, R|].
        apply opens_app. destruct (reads_head y v (any_reads _ _ R)) as (c & w & -> & A). exists c, w. split; [reflexivity|unfold closer; lia].
      + destruct (IH (heap n) y (H n) Q Y) as [A B]. split; [apply never_blank, A|apply opens_app, B].
    - cbn [bind] in X. apply SeqRead.ok_inj in X. subst x. split; [apply none_blank|]. apply opens_app, (opens_word (asc "None")). reflexivity. }
  destruct e as [t v flag d|d|b i|n r|r|r|t args a b|t v u|t v x|t v|t v|t|l|d]; cbn [readable] in N; try tauto; cbn [ev_repr] in E.
  - destruct (s0 <- match r with None => Ok (asc "None") | Some m => ev_repr ids heap k (heap m) end ;; Ok (s0 ++ asc " at " ++ str_int (ids r))) as [x|] eqn:X; cbn [bind] in E; [|discriminate E]; apply SeqRead.ok_inj in E; subst s; destruct (D r x X) as [A B].
    replace (asc "BeginTrackSequenceEvent(" ++ str_int n ++ asc ", " ++ x ++ asc ")") with (call (asc "BeginTrackSequenceEvent") [str_int n; x]) by (symmetry; apply call_text; flatten). change [str_int n; x] with ([str_int n] ++ [x]).
    split; [eapply call_never; [reflexivity|args_read|exact A|exact B]|unfold call; apply opens_word; reflexivity].
  - destruct (s0 <- match r with None => Ok (asc "None") | Some m => ev_repr ids heap k (heap m) end ;; Ok (s0 ++ asc " at " ++ str_int (ids r))) as [x|] eqn:X; cbn [bind] in E; [|discriminate E]; apply SeqRead.ok_inj in E; subst s; destruct (D r x X) as [A B].
    replace (asc "JumpSequenceEvent(" ++ x ++ asc ")") with (call (asc "JumpSequenceEvent") [x]) by (symmetry; apply call_text; flatten). change [x] with ([] ++ [x]).
    split; [eapply call_never; [reflexivity|constructor|exact A|exact B]|unfold call; apply opens_word; reflexivity].
  - destruct (s0 <- match r with None => Ok (asc "None") | Some m => ev_repr ids heap k (heap m) end ;; Ok (s0 ++ asc " at " ++ str_int (ids r))) as [x|] eqn:X; cbn [bind] in E; [|discriminate E]; apply SeqRead.ok_inj in E; subst s; destruct (D r x X) as [A B].
    replace (asc "CallSequenceEvent(" ++ x ++ asc ")") with (call (asc "CallSequenceEvent") [x]) by (symmetry; apply call_text; flatten). change [x] with ([] ++ [x]).
    split; [eapply call_never; [reflexivity|constructor|exact A|exact B]|unfold call; apply opens_word; reflexivity].
  - apply SeqRead.ok_inj in E. subst s. assert (t = 0xC7 \/ t = 0xCC) as [-> | ->] by lia.
    + change (byte_class 0xC7) with (asc "MonoPolySequenceEvent"). split; [|apply opens_word; reflexivity]. apply (call_never (asc "MonoPolySequenceEvent") [] [] (byte_value 0xC7 v)); [reflexivity|constructor| |].
      * apply angle_blank.
      * apply opens_lt.
    + change (byte_class 0xCC) with (asc "VibratoTypeSequenceEvent"). split; [|apply opens_word; reflexivity]. apply (call_never (asc "VibratoTypeSequenceEvent") [] [] (byte_value 0xCC v)); [reflexivity|constructor| |].
      * apply angle_blank.
      * apply opens_lt.
Qed.

(** ** lists of events *)
Lemma shown_readable e : shown e -> readable e.
Proof. intros (_ & P & V). destruct e; cbn in *; tauto. Qed.
Lemma events_say ids heap k l : Forall (fun p => shown (snd p)) l ->
  exists ss vs, events_repr ids heap (S k) l = Ok ss /\ Forall2 reads ss vs /\ all_some (map eval_ev vs) = Some (map snd l) /\ length ss = length l.
Proof.
  induction 1 as [|[n e] l S F (ss & vs & E & R & A & L)]; [exists [], []; repeat split; constructor|]. cbn [snd] in S. destruct (ev_reads ids heap k e (proj1 S) (shown_readable e S)) as (s & v & Es & Rs & V).
  exists (s :: ss), (v :: vs). unfold events_repr in *. cbn [mapM snd]. rewrite Es, E. split; [reflexivity|]. split; [constructor; [apply any_reads, Rs|exact R]|]. cbn [map all_some snd length]. rewrite (V (proj2 (proj2 S))), A. split; [reflexivity|lia].
Qed.
Lemma ev_item ids heap k e s : (forall n, proper (heap n)) -> proper e -> ev_repr ids heap k e = Ok s -> item_ok s.
Proof.
  intros H P E. destruct (readable_dec e) as [Q|Q].
  - destruct k as [|k]; [discriminate E|]. destruct (ev_reads ids heap k e P Q) as (z & v & Ez & R & _). rewrite E in Ez. apply SeqRead.ok_inj in Ez. subst z. left. exists v. apply any_reads, R.
  - destruct (ev_never ids heap H k e s P Q E) as [A B]. right. split; [apply never_stuck, A|exact B].
Qed.
Lemma events_items ids heap k l ss : (forall n, proper (heap n)) -> Forall (fun p => proper (snd p)) l -> events_repr ids heap k l = Ok ss -> Forall item_ok ss.
Proof.
  intros H F. revert ss. induction F as [|[n e] l P F I]; intros ss E; unfold events_repr in *; cbn [mapM snd] in E; [apply SeqRead.ok_inj in E; subst; constructor|].
  destruct (ev_repr ids heap k e) as [s|] eqn:S; cbn [bind] in E; [|discriminate E]. destruct (mapM (fun e => ev_repr ids heap k (snd e)) l) as [r|] eqn:R; cbn [bind] in E; [|discriminate E]. apply SeqRead.ok_inj in E. subst ss.
  constructor; [exact (ev_item ids heap k e s H P S)|apply I; reflexivity].
Qed.
Lemma events_lost ids heap k l ss : (forall n, proper (heap n)) -> Forall (fun p => proper (snd p)) l -> events_repr ids heap k l = Ok ss -> ~ Forall (fun p => readable (snd p)) l -> exists s, In s ss /\ lost s.
Proof.
  intros H F. revert ss. induction F as [|[n e] l P F I]; intros ss E N; unfold events_repr in *; cbn [mapM snd] in E; [exfalso; apply N; constructor|].
  destruct (ev_repr ids heap k e) as [s|] eqn:S; cbn [bind] in E; [|discriminate E]. destruct (mapM (fun e => ev_repr ids heap k (snd e)) l) as [r|] eqn:R; cbn [bind] in E; [|discriminate E]. apply SeqRead.ok_inj in E. subst ss.
  destruct (readable_dec e) as [Q|Q].
  - destruct (I r eq_refl) as (x & X & L); [intro A; apply N; constructor; assumption|]. exists x. split; [right; exact X|exact L].
  - destruct (ev_never ids heap H k e s P Q S) as [A B]. exists s. split; [left; reflexivity|]. split; [apply never_stuck, A|exact B].
Qed.
Lemma events_read ids heap k l ss : Forall (fun p => proper (snd p)) l -> Forall (fun p => readable (snd p)) l -> events_repr ids heap k l = Ok ss -> exists vs, Forall2 reads ss vs.
Proof.
  intros F G. revert ss. induction F as [|[n e] l P F I]; intros ss E; unfold events_repr in *; cbn [mapM snd] in E; [apply SeqRead.ok_inj in E; subst; exists []; constructor|].
  inversion G as [|? ? Q G']; subst. cbn [snd] in *.
  destruct (ev_repr ids heap k e) as [s|] eqn:S; cbn [bind] in E; [|discriminate E]. destruct (mapM (fun e => ev_repr ids heap k (snd e)) l) as [r|] eqn:R; cbn [bind] in E; [|discriminate E]. apply SeqRead.ok_inj in E. subst ss.
  destruct k as [|k]; [discriminate S|]. destruct (ev_reads ids heap k e P Q) as (z & v & Ez & Rz & _). rewrite S in Ez. apply SeqRead.ok_inj in Ez. subst z. destruct (I G' r eq_refl) as (vs & V). exists (v :: vs). constructor; [apply any_reads, Rz|exact V].
Qed.
Lemma readable_all (l : list (Z * ev)) : Forall (fun p => readable (snd p)) l \/ ~ Forall (fun p => readable (snd p)) l.
Proof.
  induction l as [|[n e] l [I|I]]; [left; constructor| |right; intro F; apply I; inversion F; assumption]. destruct (readable_dec e) as [T|T]; [left; constructor; assumption|right; intro F; apply T; inversion F; assumption].
Qed.

(** ** tracks *)
Lemma track_says ids heap k l : Forall (fun p => shown (snd p)) l -> exists s, track_repr ids heap (S k) l = Ok s /\ says eval_track s (map snd l).
Proof.
  intro F. destruct (events_say ids heap k l F) as (ss & vs & E & R & A & _). unfold track_repr. rewrite E. cbn [bind]. eexists. split; [reflexivity|]. exists (VCall (asc "Track") [VList vs]). split.
  - apply reads_call_args; [reflexivity|]. constructor; [apply reads_repr_list, R|constructor].
  - unfold eval_track, call_of. rewrite (eq_refl : beq (asc "Track") (asc "Track") = true). cbn [obind as_list]. exact A.
Qed.
Lemma track_expr ids heap k l s : (forall n, proper (heap n)) -> Forall (fun p => proper (snd p)) l -> track_repr ids heap k l = Ok s -> (expr s <> None <-> Forall (fun p => readable (snd p)) l).
Proof.
  intros H F E. unfold track_repr in E. destruct (events_repr ids heap k l) as [ss|] eqn:S; cbn [bind] in E; [|discriminate E]. apply SeqRead.ok_inj in E. subst s. split.
  - intro X. destruct (readable_all l) as [Q|Q]; [exact Q|]. exfalso. apply X. destruct (events_lost ids heap k l ss H F S Q) as (s & I & L). pose proof (events_items ids heap k l ss H F S) as O. apply lost_expr.
    eapply call_lost; [reflexivity|constructor; [apply list_ok, O|constructor]|left; reflexivity|]. eapply list_lost; eassumption.
  - intros Q X. destruct (events_read ids heap k l ss F Q S) as (vs & R). pose proof (reads_expr _ _ (reads_call_args (asc "Track") [repr_list ss] [VList vs] eq_refl ltac:(constructor; [apply reads_repr_list, R|constructor]))) as Y. congruence.
Qed.

(** ** sequences *)
Lemma sseq_args vs a b c d e f l : as_list eval_ev (VList vs) = Some l ->
  eval_sseq (VCall (asc "SSEQ.fromEvents") (VList vs :: map VInt [a; b; c; d; e; f])) = Some (l, [a; b; c; d; e; f]).
Proof.
  intro E. unfold eval_sseq, call_of. rewrite (eq_refl : beq (asc "SSEQ.fromEvents") (asc "SSEQ.fromEvents") = true). cbn [obind map].
  rewrite (eq_refl : bind_args 7 [asc "events"; asc "unk02"; asc "bankID"; asc "volume"; asc "channelPressure"; asc "polyphonicPressure"; asc "playerID"] [VList vs; VInt a; VInt b; VInt c; VInt d; VInt e; VInt f] =
    Some [Some (VList vs); Some (VInt a); Some (VInt b); Some (VInt c); Some (VInt d); Some (VInt e); Some (VInt f)]). cbn [obind]. rewrite E. reflexivity.
Qed.
Lemma sseq_says ids heap k s : SsarModel.qParsed s = true -> zlen (SsarModel.qEvents s) <= 8 -> Forall (fun p => shown (snd p)) (SsarModel.qEvents s) ->
  exists t, sseq_repr ids heap (S k) s = Ok t /\ says eval_sseq t (map snd (SsarModel.qEvents s), info_list (SsarModel.qInfo s)).
Proof.
  intros P L F. destruct (events_say ids heap k _ F) as (ss & vs & E & R & A & _). unfold sseq_repr. destruct (SsarModel.qInfo s) as [[[[[a b] c] d] e] f]. rewrite P.
  rewrite slice_firstn by lia. rewrite firstn_all2 by (unfold zlen in L; lia). rewrite E. cbn [bind]. replace (8 <? zlen (SsarModel.qEvents s)) with false by lia. eexists. split; [reflexivity|].
  exists (VCall (asc "SSEQ.fromEvents") (VList vs :: map VInt [a; b; c; d; e; f])). split; [|apply sseq_args, A]. apply reads_call_args; [reflexivity|]. constructor; [apply reads_repr_list, R|apply ints_read].
Qed.
Lemma sseq_more ids heap k s : SsarModel.qParsed s = true -> 8 < zlen (SsarModel.qEvents s) -> Forall (fun p => shown (snd p)) (firstn 8 (SsarModel.qEvents s)) ->
  exists t v, sseq_repr ids heap (S k) s = Ok t /\ expr t = Some v /\ eval_sseq v = None.
Proof.
  intros P L F. destruct (events_say ids heap k _ F) as (ss & vs & E & R & A & Len). unfold sseq_repr. destruct (SsarModel.qInfo s) as [[[[[a b] c] d] e] f]. rewrite P.
  rewrite slice_firstn by lia. change (Z.to_nat 8) with 8%nat. rewrite E. cbn [bind]. replace (8 <? zlen (SsarModel.qEvents s)) with true by lia.
  assert (N : ss <> []) by (intros ->; cbn [length] in Len; rewrite firstn_length in Len; unfold zlen in L; lia).
  assert (T : slice_to (repr_list ss) (-1) ++ asc ", ...]" = repr_list (ss ++ [asc "..."])).
  { unfold repr_list. rewrite app_assoc. rewrite slice_to_end by reflexivity. rewrite joined_snoc by exact N. rewrite <- !app_assoc. reflexivity. }
  rewrite T. exists (call (asc "SSEQ.fromEvents") (repr_list (ss ++ [asc "..."]) :: map str_int [a; b; c; d; e; f])), (VCall (asc "SSEQ.fromEvents") (VList (vs ++ [VDots]) :: map VInt [a; b; c; d; e; f])).
  split; [reflexivity|]. split.
  - apply reads_expr, reads_call_args; [reflexivity|]. constructor; [|apply ints_read]. apply reads_repr_list, Forall2_app; [exact R|]. constructor; [apply reads_dots|constructor].
  - unfold eval_sseq, call_of. rewrite (eq_refl : beq (asc "SSEQ.fromEvents") (asc "SSEQ.fromEvents") = true). cbn [obind map].
    rewrite (eq_refl : bind_args 7 [asc "events"; asc "unk02"; asc "bankID"; asc "volume"; asc "channelPressure"; asc "polyphonicPressure"; asc "playerID"] [VList (vs ++ [VDots]); VInt a; VInt b; VInt c; VInt d; VInt e; VInt f] =
      Some [Some (VList (vs ++ [VDots])); Some (VInt a); Some (VInt b); Some (VInt c); Some (VInt d); Some (VInt e); Some (VInt f)]). cbn [obind as_list]. rewrite map_app, all_some_none; [reflexivity|]. apply in_or_app. right. left. reflexivity.
Qed.
Lemma music_says ids heap k s : SsarModel.qParsed s = true -> zlen (SsarModel.qEvents s) <= 8 -> Forall (fun p => shown (snd p)) (SsarModel.qEvents s) ->
  exists t, music_repr ids heap (S k) s = Ok t /\ says eval_music t (map snd (SsarModel.qEvents s), info_list (SsarModel.qInfo s)).
Proof.
  intros P L F. destruct (sseq_says ids heap k s P L F) as (t & E & v & R & V). unfold music_repr. rewrite E. cbn [bind]. eexists. split; [reflexivity|]. exists (VCall (asc "SSEQMusic") [v]). split.
  - apply reads_call_args; [reflexivity|]. constructor; [exact R|constructor].
  - unfold eval_music, call_of. rewrite (eq_refl : beq (asc "SSEQMusic") (asc "SSEQMusic") = true). exact V.
Qed.

(** ** sequence archives *)
Lemma eval_ev_none : eval_ev (VWord (asc "None")) = None.
Proof. reflexivity. Qed.
Lemma aseq_parsed_says ids heap k s : SsarModel.aParsed s = true -> match SsarModel.aFirst s with Some n => shown (heap n) | None => True end ->
  exists t, aseq_repr ids heap (S k) s = Ok t /\ says eval_aseq_parsed t (first_event heap s, params_list (SsarModel.aParams s)).
Proof.
  intros P F. unfold aseq_repr. destruct (SsarModel.aParams s) as [[[[b v] c] p] y]. rewrite P.
  assert (exists t, repr_ref ids heap (S k) (SsarModel.aFirst s) = Ok t /\ says (or_none eval_ev) t (first_event heap s)) as (t & T & w & R & V).
  { unfold first_event. destruct (SsarModel.aFirst s) as [n|]; cbn [repr_ref option_map].
    - destruct (ev_reads ids heap k (heap n) (proj1 F) (shown_readable _ F)) as (t & w & T & R & V). exists t. split; [exact T|]. apply says_some; [exact eval_ev_none|]. exists w. split; [apply any_reads, R|apply V, (proj2 (proj2 F))].
    - exists (asc "None"). split; [reflexivity|apply says_none]. }
  rewrite T. cbn [bind]. eexists. split; [reflexivity|]. exists (VCall (asc "SSARSequence") (w :: map VInt [b; v; c; p; y])). split.
  - apply reads_call_args; [reflexivity|]. cbn [app map]. constructor; [exact R|]. repeat (constructor; [apply reads_int|]). constructor.
  - unfold eval_aseq_parsed, call_of. rewrite (eq_refl : beq (asc "SSARSequence") (asc "SSARSequence") = true). cbn [obind].
    assert (B : bind_args 6 [asc "firstEvent_firstEventOffset"; asc "bankID"; asc "volume"; asc "channelPressure"; asc "polyphonicPressure"; asc "playerID"; asc "parsed"] (w :: map VInt [b; v; c; p; y]) =
      Some [Some w; Some (VInt b); Some (VInt v); Some (VInt c); Some (VInt p); Some (VInt y); None]) by (destruct w; try discriminate V; reflexivity).
    rewrite B. cbn [obind or_else]. rewrite V. reflexivity.
Qed.
Lemma name_says printable n : match n with Some s => is_text s | None => True end -> says (or_none as_str) (repr_name printable n) n.
Proof. intro H. destruct n as [s|]; cbn [repr_name]; [apply says_some; [reflexivity|apply says_str, H]|apply says_none]. Qed.
Lemma ssar_says printable ids heap k s : SsarModel.rParsed s = true -> Forall (fun p => shown (snd p)) (SsarModel.rEvents s) -> Forall (sequence_shown heap) (SsarModel.rSeqs s) ->
  exists t, ssar_repr printable ids heap (S k) s = Ok t /\
    says eval_ssar t (map snd (SsarModel.rEvents s), map (fun p => (fst p, (first_event heap (snd p), params_list (SsarModel.aParams (snd p))))) (SsarModel.rSeqs s), 0).
Proof.
  intros P F G. destruct (events_say ids heap k _ F) as (ss & vs & E & R & A & _).
  assert (exists q ws, mapM (fun p => t <- aseq_repr ids heap (S k) (snd p) ;; Ok (repr_pair (repr_name printable (fst p)) t)) (SsarModel.rSeqs s) = Ok q /\ Forall2 reads q ws /\
    all_some (map (eval_named eval_aseq_parsed) ws) = Some (map (fun p => (fst p, (first_event heap (snd p), params_list (SsarModel.aParams (snd p))))) (SsarModel.rSeqs s))) as (q & ws & Q & Rq & Aq).
  { induction G as [|[n a] l (S1 & S2 & S3) G (q & ws & Q & Rq & Aq)]; [exists [], []; repeat split; constructor|]. cbn [fst snd] in *.
    destruct (aseq_parsed_says ids heap k a S1 S3) as (t & T & w & Rw & Ew). destruct (name_says printable n S2) as (m & Rm & Em).
    exists (repr_pair (repr_name printable n) t :: q), (VTuple [m; w] :: ws). cbn [mapM fst snd]. rewrite T. cbn [bind]. rewrite Q. split; [reflexivity|]. split; [constructor; [apply reads_pair; assumption|exact Rq]|].
    cbn [map all_some eval_named fst snd]. rewrite Em. cbn [obind]. rewrite Ew, Aq. reflexivity. }
  unfold ssar_repr. rewrite P, E. cbn [bind]. rewrite Q. cbn [bind]. eexists. split; [reflexivity|]. exists (VCall (asc "SSAR.fromEventsAndSequences") [VList vs; VList ws]). split.
  - apply reads_call_args; [reflexivity|]. constructor; [apply reads_repr_list, R|]. constructor; [apply reads_repr_list, Rq|constructor].
  - unfold eval_ssar, call_of. rewrite (eq_refl : beq (asc "SSAR.fromEventsAndSequences") (asc "SSAR.fromEventsAndSequences") = true). cbn [obind].
    rewrite (eq_refl : bind_args 3 [asc "events"; asc "sequences"; asc "unk02"] [VList vs; VList ws] = Some [Some (VList vs); Some (VList ws); None]). cbn [obind as_list]. rewrite A. cbn [obind]. rewrite Aq. reflexivity.
Qed.
Lemma is_text_none : is_text (asc "None").
Proof. change (asc "None") with [78; 111; 110; 101]. unfold is_text. repeat (constructor; [lia|]). constructor. Qed.
Lemma ssar_file_says printable ids heap depth s : SsarModel.rParsed s = false -> short (SsarModel.rData s) -> Forall (fun p => match fst p with Some n => is_text n | None => True end) (SsarModel.rSeqs s) ->
  exists t, ssar_repr printable ids heap depth s = Ok t /\
    says eval_ssar_file t (SsarModel.rData s, 0, map (fun p => match fst p with Some n => n | None => asc "None" end) (SsarModel.rSeqs s)).
Proof.
  intros P S F. destruct (short_reads _ S) as (d & E & R). unfold ssar_repr. rewrite P, E. cbn [bind]. eexists. split; [reflexivity|].
  destruct (says_map as_str (fun p : option (list Z) * SsarModel.aseq => repr_str printable (str_name (fst p))) (fun p => match fst p with Some n => n | None => asc "None" end) (SsarModel.rSeqs s)) as (v & Rv & Ev).
  { eapply Forall_impl; [|exact F]. intros [[n|] a] H; cbn [fst str_name] in *; apply says_str; [exact H|apply is_text_none]. }
  exists (VCall (asc "SSAR") [VBytes (SsarModel.rData s); VNamed (asc "names") v]). split.
  - apply reads_call_args; [reflexivity|]. constructor; [exact R|]. constructor; [|constructor]. apply (reads_named (asc "names")); [reflexivity|exact Rv].
  - unfold eval_ssar_file, call_of. rewrite (eq_refl : beq (asc "SSAR") (asc "SSAR") = true). cbn [obind].
    rewrite (eq_refl : bind_args 3 [asc "file"; asc "unk02"; asc "names"] [VBytes (SsarModel.rData s); VNamed (asc "names") v] = Some [Some (VBytes (SsarModel.rData s)); None; Some v]). cbn [obind as_bytes or_else]. rewrite Ev. reflexivity.
Qed.

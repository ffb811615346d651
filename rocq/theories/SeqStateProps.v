(** C98: SSEQ and SSAR objects hold either data or events *)
From Coq Require Import String.
From Verif Require Import PyBase PyLemmas WaveModel WaveLemmas SeqModel SsarModel SsarLemmas SeqStateModel SeqStateSpec SeqState.

(** ** SSEQ: every history of accesses *)
Theorem C98_sseq_loaded : forall depth d post i ops, 0x1C + zlen d < 2 ^ 32 ->
  exists s, sseq_load (sseq_bytes d ++ post) i = Ok s /\ qrun depth s ops = expecteds depth i (Unread d) ops.
Proof. intros depth d post i ops L. eexists. split; [apply sseq_load_bytes; exact L|]. rewrite qrun_expected. reflexivity. Qed.
Print Assumptions C98_sseq_loaded.
Theorem C98_sseq_made : forall depth l i ops, qrun depth (sseq_fromEvents l i) ops = expecteds depth i (Read l) ops.
Proof. intros depth l i ops. rewrite qrun_expected. reflexivity. Qed.
Print Assumptions C98_sseq_made.
(** [parsed] cannot be assigned; a parse that fails changes nothing; neither do the
    events assigned to an object that is not parsed and the data assigned to one
    that is *)
Theorem C98_sseq_unchanged : forall depth s o ops k, snd (qstep depth s o) = Err k -> qrun depth s (o :: ops) = Err k :: qrun depth s ops.
Proof.
  intros depth s o ops k H. rewrite !qrun_expected. cbn [expecteds]. pose proof (qstep_expected depth s o) as Q. destruct (qstep depth s o) as [s' x]. cbn [snd] in H. destruct Q as [Q _]. rewrite <- Q. cbn [fst snd].
  subst x. f_equal. f_equal. destruct (content_of s) as [d|l], o; cbn [expected] in Q; try (injection Q as Q _; exact Q); try discriminate Q.
  destruct (readSequenceEvents depth d []) as [[l x]|k']; [discriminate Q|]. injection Q as Q _. exact Q.
Qed.
Print Assumptions C98_sseq_unchanged.
Theorem C98_sseq_ignored : forall depth s ops l d, 
  (qParsed s = false -> qrun depth s (QSetEvents l :: ops) = Ok SDone :: qrun depth s ops) /\
  (qParsed s = true -> qrun depth s (QSetData d :: ops) = Ok SDone :: qrun depth s ops).
Proof. intros depth s ops l d. split; intros P; rewrite !qrun_expected; unfold content_of; rewrite P; reflexivity. Qed.
Print Assumptions C98_sseq_ignored.
(** once parsed, always parsed *)
Theorem C98_sseq_stays_parsed : forall depth s o, qParsed s = true -> qParsed (fst (qstep depth s o)) = true.
Proof.
  intros depth s o P. pose proof (qstep_expected depth s o) as Q. destruct (qstep depth s o) as [s' x]. destruct Q as [Q _]. unfold content_of in Q. rewrite P in Q. cbn [fst].
  destruct (qParsed s'); [reflexivity|]. destruct o; discriminate Q.
Qed.
Print Assumptions C98_sseq_stays_parsed.
Example C98_sseq_ex : let d := [0x80; 5; 0xFF] in
  qrun 10 {| qParsed := false; qEvents := []; qData := d; qInfo := (0, 0, 127, 64, 50, 0) |}
    [QParsed; QEvents; QSetEvents [(1, Rest 9)]; QData; QSetParsed true; QParsed; QParse; QParsed; QEvents; QData; QSetData [0xFF]; QParse; QSave] =
  [Ok (SBool false); Err ValueError; Ok SDone; Ok (SData d); Err RuntimeError; Ok (SBool false); Ok SDone; Ok (SBool true); Ok (SEvents [(0, Rest 5); (2, Bare 0xFF)]); Err ValueError; Ok SDone; Ok SDone;
   Ok (SFile (sseq_bytes d) (0, 0, 127, 64, 50, 0))].
Proof. vm_compute. reflexivity. Qed.
Example C98_failed_ex : let s := {| qParsed := false; qEvents := []; qData := [0x80]; qInfo := (0, 0, 127, 64, 50, 0) |} in
  exists k, snd (qstep 10 s QParse) = Err k /\ qrun 10 s [QParse; QParsed; QData] = [Err k; Ok (SBool false); Ok (SData [0x80])].
Proof. eexists. split; vm_compute; reflexivity. Qed.

(** ** SSAR: what cannot be read is not used *)
Theorem C98_ssar_alike : forall depth r s ops, alike r s -> rrun depth r ops = rrun depth s ops.
Proof. intros depth r s ops. apply alike_run. Qed.
Print Assumptions C98_ssar_alike.
Theorem C98_ssar_unchanged : forall depth r o ops k, snd (rstep depth r o) = Err k -> rrun depth r (o :: ops) = Err k :: rrun depth r ops.
Proof.
  intros depth r o ops k H. cbn [rrun]. destruct (rstep depth r o) as [r' x] eqn:E. cbn [snd] in H. subst x. f_equal.
  destruct o; cbn [rstep] in E; try (injection E as <- _; reflexivity); try discriminate E.
  - destruct (ssar_parse depth r); injection E; intros; subst; [discriminate|reflexivity].
  - unfold set_seq in E. destruct (seq_at r i); injection E; intros; subst; [discriminate|reflexivity].
  - unfold set_seq in E. destruct (seq_at r i); injection E; intros; subst; [discriminate|reflexivity].
Qed.
Print Assumptions C98_ssar_unchanged.
Theorem C98_ssar_ignored : forall depth r ops l d i n s v o,
  (rParsed r = false -> rrun depth r (RSetEvents l :: ops) = Ok SDone :: rrun depth r ops) /\
  (rParsed r = true -> rrun depth r (RSetData d :: ops) = Ok SDone :: rrun depth r ops) /\
  (nth_error (rSeqs r) i = Some (n, s) -> aParsed s = false -> rrun depth r (RSetFirst i v :: ops) = Ok SDone :: rrun depth r ops) /\
  (nth_error (rSeqs r) i = Some (n, s) -> aParsed s = true -> rrun depth r (RSetOffset i o :: ops) = Ok SDone :: rrun depth r ops).
Proof.
  intros depth r ops l d i n s v o. split; [|split; [|split]].
  - intros P. cbn [rrun rstep]. f_equal. apply alike_run. repeat split; cbn [ssar_setEvents rParsed rEvents rSeqs]; [apply alike_seqs_refl|congruence].
  - intros P. cbn [rrun rstep]. f_equal. apply alike_run. repeat split; cbn [ssar_setData rParsed rEvents rSeqs]; [apply alike_seqs_refl|congruence].
  - intros N P. cbn [rrun rstep]. unfold set_seq, seq_at. rewrite N. f_equal. apply alike_run. split; [reflexivity|]. split; [reflexivity|]. split; [|split; reflexivity]. cbn [ssar_setSeqs rSeqs].
    apply (on_seq_hidden _ _ i n s N). repeat split; cbn [fst snd aseq_setFirst aParsed aFirst aOffset]; congruence.
  - intros N P. cbn [rrun rstep]. unfold set_seq, seq_at. rewrite N. f_equal. apply alike_run. split; [reflexivity|]. split; [reflexivity|]. split; [|split; reflexivity]. cbn [ssar_setSeqs rSeqs].
    apply (on_seq_hidden _ _ i n s N). repeat split; cbn [fst snd aseq_setOffset aParsed aFirst aOffset]; congruence.
Qed.
Print Assumptions C98_ssar_ignored.
(** an assignment is seen by the next read *)
Theorem C98_ssar_assigned : forall depth r l d i n s v o,
  (rParsed r = true -> rrun depth r [RSetEvents l; REvents] = [Ok SDone; Ok (SEvents l)]) /\
  (rParsed r = false -> rrun depth r [RSetData d; RData] = [Ok SDone; Ok (SData d)]) /\
  (nth_error (rSeqs r) i = Some (n, s) -> aParsed s = true -> rrun depth r [RSetFirst i v; RFirst i] = [Ok SDone; Ok (SFirst v)]) /\
  (nth_error (rSeqs r) i = Some (n, s) -> aParsed s = false -> rrun depth r [RSetOffset i o; ROffset i] = [Ok SDone; Ok (SOffset o)]).
Proof.
  intros depth r l d i n s v o.
  assert (H : forall f l i n s, nth_error l i = Some (n, s) -> nth_error (on_seq f i l) i = Some (n, f s)).
  { clear. intros f l. induction l as [|[m t] l IH]; intros [|i] n s H; try discriminate; cbn [nth_error on_seq] in *; [injection H as -> ->; reflexivity|apply IH; exact H]. }
  split; [|split; [|split]].
  - intros P. cbn [rrun rstep]. unfold ssar_events. cbn [ssar_setEvents rParsed rEvents]. rewrite P. reflexivity.
  - intros P. cbn [rrun rstep]. unfold ssar_eventsData. cbn [ssar_setData rParsed rData]. rewrite P. reflexivity.
  - intros N P. cbn [rrun rstep]. unfold set_seq, seq_at. rewrite N. cbn [ssar_setSeqs rSeqs]. rewrite (H _ _ _ _ _ N). cbn [bind snd]. unfold aseq_firstEvent. cbn [aseq_setFirst aParsed aFirst]. rewrite P. reflexivity.
  - intros N P. cbn [rrun rstep]. unfold set_seq, seq_at. rewrite N. cbn [ssar_setSeqs rSeqs]. rewrite (H _ _ _ _ _ N). cbn [bind snd]. unfold aseq_firstEventOffset. cbn [aseq_setOffset aParsed aOffset]. rewrite P. reflexivity.
Qed.
Print Assumptions C98_ssar_assigned.
(** states: events can be read exactly if data cannot, and never go back *)
Theorem C98_ssar_states : forall depth r o,
  ((exists l, ssar_events r = Ok l) /\ ssar_eventsData r = Err ValueError \/ (exists d, ssar_eventsData r = Ok d) /\ ssar_events r = Err ValueError) /\
  (rParsed r = true -> rParsed (fst (rstep depth r o)) = true) /\ (rParsed r = false -> rParsed (fst (rstep depth r o)) = true -> o = RParse).
Proof.
  intros depth r o. split; [|split].
  - unfold ssar_events, ssar_eventsData. destruct (rParsed r); [left|right]; split; eauto.
  - intros P. destruct o; cbn [rstep fst]; try exact P; unfold set_seq; try (destruct (seq_at r i); exact P). unfold ssar_parse. rewrite P. exact P.
  - intros P Q. destruct o; cbn [rstep fst] in Q; try reflexivity; exfalso; unfold set_seq in Q; try (destruct (seq_at r i)); cbn in Q; congruence.
Qed.
Print Assumptions C98_ssar_states.
(** there is no sequence after the last *)
Theorem C98_ssar_missing : forall depth r i v o ops, zlen (rSeqs r) <= Z.of_nat i ->
  rrun depth r (RFirst i :: RSetFirst i v :: ROffset i :: RSetOffset i o :: ops) =
  Err IndexError :: Err IndexError :: Err IndexError :: Err IndexError :: rrun depth r ops.
Proof.
  intros depth r i v o ops L. assert (N : nth_error (rSeqs r) i = None) by (apply nth_error_None; unfold zlen in L; lia).
  do 4 (cbn [rrun rstep]; unfold set_seq, seq_at; rewrite ?N; cbn [bind]). reflexivity.
Qed.
Print Assumptions C98_ssar_missing.
Example C98_ssar_ex :
  let r := {| rParsed := false; rEvents := []; rData := [0x80; 5; 0xFF]; rSeqs := [(None, aseq_unparsed (Some 2) (0, 127, 64, 50, 0)); (None, aseq_unparsed (Some 0) (0, 127, 64, 50, 0))]; rUnk := 0 |} in
  rrun 10 r [RSetFirst 0 (Some 7); RFirst 0; ROffset 0; RSetOffset 1 (Some 2); RParse; RFirst 0; RFirst 1; ROffset 0; RFirst 5; REvents; RData] =
  [Ok SDone; Err ValueError; Ok (SOffset (Some 2)); Ok SDone; Ok SDone; Ok (SFirst (Some 2)); Ok (SFirst (Some 2)); Err ValueError; Err IndexError; Ok (SEvents [(0, Raw [0x80; 5]); (2, Bare 0xFF)]); Err ValueError].
Proof. vm_compute. reflexivity. Qed.

(** Proofs about SSEQ and SSAR objects used through their properties *)
From Coq Require Import String.
From Verif Require Import PyBase PyLemmas WaveModel WaveLemmas SeqModel SeqRead SsarModel SsarLemmas SeqStateModel SeqStateSpec.

(** ** SSEQ *)
Definition content_of (s : sseq) : content := if qParsed s then Read (qEvents s) else Unread (qData s).
Lemma sseq_save_file s : (' (f, i) <- sseq_save s ;; Ok (SFile f i)) = (d <- sseq_data s ;; file_of d (qInfo s)).
Proof.
  destruct (sseq_data s) as [d|k] eqn:E; cbn [bind].
  - unfold file_of. change (2 ^ 32) with 4294967296. destruct (28 + zlen d <? 4294967296) eqn:L.
    + rewrite (sseq_save_eq s d E) by lia. reflexivity.
    + unfold sseq_save. change (if qParsed s then _ else _) with (sseq_data s). rewrite E. cbn [bind]. cbv zeta.
      assert (std_pack (asc "SSEQ") 256 (28 + zlen d) 1 = Err StructError) as ->; [|reflexivity].
      unfold std_pack, pack_us. cbn [mapM fst snd]. rewrite (pack_u_err 4) by (change (256 ^ Z.of_nat 4) with 4294967296; lia). reflexivity.
  - unfold sseq_save. change (if qParsed s then _ else _) with (sseq_data s). rewrite E. reflexivity.
Qed.
Lemma qstep_expected depth s o : let '(s', x) := qstep depth s o in
  (content_of s', x) = expected depth (qInfo s) (content_of s) o /\ qInfo s' = qInfo s.
Proof.
  destruct s as [p l d i]. unfold content_of. destruct p, o; cbn [qstep expected qParsed qEvents qData qInfo sseq_setEvents sseq_setData sseq_events sseq_eventsData sseq_setParsed bind]; try (split; reflexivity).
  - rewrite sseq_save_file. unfold sseq_data. cbn [qParsed qEvents qInfo]. split; [|reflexivity]. f_equal. destruct (saveSequenceEvents l []) as [[f x]|k]; reflexivity.
  - unfold sseq_parse. cbn [qParsed qData qInfo]. destruct (readSequenceEvents depth d []) as [[l' x]|k]; cbn [bind qParsed qEvents qData qInfo]; split; reflexivity.
  - rewrite sseq_save_file. split; reflexivity.
Qed.
Lemma qrun_expected depth ops : forall s, qrun depth s ops = expecteds depth (qInfo s) (content_of s) ops.
Proof.
  induction ops as [|o r IH]; intros s; [reflexivity|]. cbn [qrun expecteds]. pose proof (qstep_expected depth s o) as H. destruct (qstep depth s o) as [s' x]. destruct H as [H I].
  rewrite IH, I, <- H. reflexivity.
Qed.

(** ** SSAR *)
Lemma alike_seq_refl p : alike_seq p p.
Proof. repeat split. Qed.
Lemma alike_seqs_refl l : Forall2 alike_seq l l.
Proof. induction l; constructor; [apply alike_seq_refl|assumption]. Qed.
Lemma alike_refl r : alike r r.
Proof. split; [reflexivity|]. split; [reflexivity|]. split; [apply alike_seqs_refl|split; reflexivity]. Qed.
Lemma mapM_alike {B} (f : option (list Z) * aseq -> res B) l m : (forall p q, alike_seq p q -> f p = f q) -> Forall2 alike_seq l m -> mapM f l = mapM f m.
Proof. intros F. induction 1 as [|p q l m A _ IH]; [reflexivity|]. cbn [mapM]. rewrite (F p q A), IH. reflexivity. Qed.
Lemma alike_first p q : alike_seq p q -> aseq_firstEvent (snd p) = aseq_firstEvent (snd q).
Proof. intros (_ & _ & P & F & _). unfold aseq_firstEvent. rewrite <- P. destruct (aParsed (snd p)); [rewrite F by reflexivity|]; reflexivity. Qed.
Lemma alike_offset p q : alike_seq p q -> aseq_firstEventOffset (snd p) = aseq_firstEventOffset (snd q).
Proof. intros (_ & _ & P & _ & O). unfold aseq_firstEventOffset. rewrite <- P. destruct (aParsed (snd p)); [|rewrite O by reflexivity]; reflexivity. Qed.
Lemma alike_names l m : Forall2 alike_seq l m -> map fst l = map fst m.
Proof. induction 1 as [|p q l m (N & _) _ IH]; [reflexivity|]. cbn [map]. rewrite N, IH. reflexivity. Qed.
Lemma alike_length l m : Forall2 alike_seq l m -> zlen l = zlen m.
Proof. induction 1 as [|p q l m _ _ IH]; [reflexivity|]. rewrite !zlen_cons, IH. reflexivity. Qed.
Lemma alike_body r s : alike r s -> ssar_body r = ssar_body s.
Proof.
  intros (P & _ & Q & E & D). unfold ssar_body. rewrite <- P. destruct (rParsed r) eqn:PR.
  - rewrite (E eq_refl). rewrite (mapM_alike (fun p => aseq_firstEvent (snd p)) _ _ alike_first Q).
    destruct (mapM (fun p => aseq_firstEvent (snd p)) (rSeqs s)) as [firsts|k] eqn:M; [|reflexivity]. cbn [bind]. destruct (saveSequenceEvents _ _) as [[x offs]|k]; [|reflexivity]. cbn [bind].
    match goal with |- context [mapM ?f (rSeqs r)] => assert (RW : mapM f (rSeqs r) = mapM f (rSeqs s)) end; [|rewrite RW; reflexivity].
    generalize (flat_map (fun f : ref => match f with Some i => [i] | None => [] end) firsts). intros starts. revert firsts M. clear - Q.
    induction Q as [|p q l m A Q IH]; intros firsts M; [reflexivity|]. cbn [mapM] in *. apply bind_ok in M as (f & M1 & M). apply bind_ok in M as (fs & M2 & _).
    rewrite (IH _ M2). destruct A as (_ & PP & PA & F & _). rewrite PP. assert (PQ : aParsed (snd q) = true) by (unfold aseq_firstEvent in M1; destruct (aParsed (snd q)); [reflexivity|discriminate]).
    rewrite F by congruence. reflexivity.
  - rewrite (D eq_refl). match goal with |- context [mapM ?f (rSeqs r)] => assert (RW : mapM f (rSeqs r) = mapM f (rSeqs s)) end; [|rewrite RW; reflexivity].
    apply mapM_alike; [|exact Q]. intros p q A. rewrite (alike_offset p q A). destruct A as (_ & -> & _). reflexivity.
Qed.
Lemma alike_save r s : alike r s -> ssar_save r = ssar_save s.
Proof.
  intros A. unfold ssar_save. rewrite (alike_body r s A). destruct A as (_ & U & Q & _). rewrite (alike_length _ _ Q), U, (alike_names _ _ Q). reflexivity.
Qed.
Lemma offsets_unparsed l offs : startOffs l = Ok offs -> Forall (fun p => aParsed (snd p) = false) l.
Proof.
  unfold startOffs. intros H. apply bind_ok in H as (x & M & _). revert x M. induction l as [|p l IH]; intros x M; constructor.
  - cbn [mapM] in M. apply bind_ok in M as (o & M & _). unfold aseq_firstEventOffset in M. destruct (aParsed (snd p)); [discriminate|reflexivity].
  - cbn [mapM] in M. apply bind_ok in M as (o & _ & M). apply bind_ok in M as (y & M & _). exact (IH _ M).
Qed.
Lemma assign_alike z p q : aParsed (snd p) = false -> alike_seq p q -> alike_seq (fst p, assign_first z (snd p)) (fst q, assign_first z (snd q)).
Proof.
  intros PF (N & PP & PA & F & O). unfold assign_first. rewrite <- (O PF). destruct (usable (aOffset (snd p))) as [o|]; [|repeat split; cbn [fst snd]; assumption].
  assert (H : forall s t : aseq, aParams s = aParams t -> aParsed s = aParsed t -> (aParsed s = true -> aFirst s = aFirst t) -> aOffset s = aOffset t ->
    alike_seq (fst p, fold_left (fun s (p : Z * Z) => if snd p =? o then {| aParsed := true; aFirst := Some (fst p); aOffset := aOffset s; aParams := aParams s |} else s) z s)
              (fst q, fold_left (fun s (p : Z * Z) => if snd p =? o then {| aParsed := true; aFirst := Some (fst p); aOffset := aOffset s; aParams := aParams s |} else s) z t)).
  { induction z as [|[i x] z IH]; intros s t H1 H2 H3 H4; cbn [fold_left].
    - repeat split; cbn [fst snd]; auto.
    - cbn [fst snd]. destruct (x =? o); apply IH; cbn [aParams aParsed aFirst aOffset]; auto. }
  apply H; auto.
Qed.
Lemma alike_parse depth r s : alike r s ->
  match ssar_parse depth r, ssar_parse depth s with Ok r', Ok s' => alike r' s' | Err k, Err k' => k = k' | _, _ => False end.
Proof.
  intros A. pose proof A as (P & U & Q & E & D). unfold ssar_parse. rewrite <- P. destruct (rParsed r) eqn:PR; [exact A|].
  assert (SO : startOffs (rSeqs r) = startOffs (rSeqs s)) by (unfold startOffs; rewrite (mapM_alike (fun p => aseq_firstEventOffset (snd p)) _ _ alike_offset Q); reflexivity).
  rewrite SO, (D eq_refl). destruct (startOffs (rSeqs s)) as [offs|k] eqn:S; [|reflexivity]. cbn [bind]. destruct (readSequenceEvents depth (rData s) offs) as [[events starts]|k]; [|reflexivity]. cbn [bind].
  split; [reflexivity|]. split; [exact U|]. split; [|split; reflexivity]. cbn [rSeqs]. apply offsets_unparsed in SO. revert Q SO. generalize (rSeqs s). generalize (rSeqs r). clear.
  intros l m Q F. induction Q as [|p q l m A Q IH]; [constructor|]. inversion F; subst. cbn [map]. constructor; [|apply IH; assumption]. apply assign_alike; assumption.
Qed.
Lemma alike_on_seq f i : (forall p q, alike_seq p q -> alike_seq (fst p, f (snd p)) (fst q, f (snd q))) -> forall l m, Forall2 alike_seq l m -> Forall2 alike_seq (on_seq f i l) (on_seq f i m).
Proof.
  intros F. induction i as [|i IH]; intros l m Q; destruct Q as [|[n s] [n' s'] l m A Q]; cbn [on_seq]; constructor; try assumption; [exact (F _ _ A)|apply IH; exact Q].
Qed.
Lemma alike_at r s i : alike r s -> match nth_error (rSeqs r) i, nth_error (rSeqs s) i with Some p, Some q => alike_seq p q | None, None => True | _, _ => False end.
Proof. intros (_ & _ & Q & _). revert i. induction Q as [|p q l m A Q IH]; intros [|i]; cbn [nth_error]; try exact I; [exact A|apply IH]. Qed.
Lemma alike_seqs r s l m : alike r s -> Forall2 alike_seq l m -> alike (ssar_setSeqs r l) (ssar_setSeqs s m).
Proof. intros (P & U & _ & E & D) Q. repeat split; try assumption. Qed.
Lemma alike_step depth r s o : alike r s -> alike (fst (rstep depth r o)) (fst (rstep depth s o)) /\ snd (rstep depth r o) = snd (rstep depth s o).
Proof.
  intros A. pose proof A as (P & U & Q & E & D). destruct o; cbn [rstep fst snd].
  - split; [exact A|]. unfold ssar_events. rewrite <- P. destruct (rParsed r); [rewrite E by reflexivity|]; reflexivity.
  - split; [|reflexivity]. repeat split; try assumption.
  - split; [exact A|]. unfold ssar_eventsData. rewrite <- P. destruct (rParsed r); [|rewrite D by reflexivity]; reflexivity.
  - split; [|reflexivity]. repeat split; try assumption.
  - split; [exact A|]. rewrite P. reflexivity.
  - pose proof (alike_parse depth r s A) as H. destruct (ssar_parse depth r), (ssar_parse depth s); cbn [fst snd]; try contradiction; [split; [exact H|reflexivity]|subst; split; [exact A|reflexivity]].
  - split; [exact A|]. rewrite (alike_save r s A). reflexivity.
  - split; [exact A|]. pose proof (alike_at r s i A) as H. unfold seq_at. destruct (nth_error (rSeqs r) i), (nth_error (rSeqs s) i); try contradiction; [|reflexivity]. cbn [bind]. rewrite (alike_first _ _ H). reflexivity.
  - pose proof (alike_at r s i A) as H. unfold set_seq, seq_at. destruct (nth_error (rSeqs r) i), (nth_error (rSeqs s) i); try contradiction; [|split; [exact A|reflexivity]]. split; [|reflexivity]. cbn [fst].
    apply alike_seqs; [exact A|]. apply alike_on_seq; [|exact Q]. intros x y (H1 & H2 & H3 & H4 & H5). repeat split; cbn [fst snd aseq_setFirst aParams aParsed aFirst aOffset]; auto.
  - split; [exact A|]. pose proof (alike_at r s i A) as H. unfold seq_at. destruct (nth_error (rSeqs r) i), (nth_error (rSeqs s) i); try contradiction; [|reflexivity]. cbn [bind]. rewrite (alike_offset _ _ H). reflexivity.
  - pose proof (alike_at r s i A) as H. unfold set_seq, seq_at. destruct (nth_error (rSeqs r) i), (nth_error (rSeqs s) i); try contradiction; [|split; [exact A|reflexivity]]. split; [|reflexivity]. cbn [fst].
    apply alike_seqs; [exact A|]. apply alike_on_seq; [|exact Q]. intros x y (H1 & H2 & H3 & H4 & H5). repeat split; cbn [fst snd aseq_setOffset aParams aParsed aFirst aOffset]; auto.
Qed.
Lemma alike_run depth ops : forall r s, alike r s -> rrun depth r ops = rrun depth s ops.
Proof.
  induction ops as [|o t IH]; intros r s A; [reflexivity|]. cbn [rrun]. destruct (alike_step depth r s o A) as [H1 H2]. destruct (rstep depth r o), (rstep depth s o). cbn [fst snd] in *. rewrite H2, (IH _ _ H1). reflexivity.
Qed.

(** an assignment to the property that cannot be read changes nothing *)
Lemma on_seq_hidden f l : forall i n s, nth_error l i = Some (n, s) -> alike_seq (n, f s) (n, s) -> Forall2 alike_seq (on_seq f i l) l.
Proof.
  induction l as [|[m t] l IH]; intros [|i] n s H A; try discriminate; cbn [nth_error on_seq] in *.
  - injection H as -> ->. constructor; [exact A|apply alike_seqs_refl].
  - constructor; [apply alike_seq_refl|exact (IH _ _ _ H A)].
Qed.

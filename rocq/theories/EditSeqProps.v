(** * C128: sequences are changed

    An arbitrary sequence file is loaded and parsed, events are removed, reordered, changed
    and added, and it is saved and read again. *)
From Coq Require Import String.
From Verif Require Import PyBase PyLemmas PyTac SeqModel SeqSpec SeqLemmas SeqSave SeqParse SeqRead SeqTotal SeqGood SeqProps SeqStraightProps SsarModel SsarLemmas ViewTexProps.

(** whatever is read is in the range of the format *)
Theorem C128_read : forall depth d os l ns, is_bytes d -> readSequenceEvents depth d os = Ok (l, ns) -> Forall (fun p => ev_fits (snd p) /\ ev_small (snd p)) l.
Proof.
  intros depth d os l ns BD H. unfold readSequenceEvents in H. cbv zeta in H.
  destruct (parse_starts _ _ _) as [st|] eqn:P; [|discriminate]. cbn [bind] in H.
  destruct (walk _ _ _ _) as [L|] eqn:W; [|discriminate]. cbn [bind] in H.
  destruct (mapM _ os) as [ns'|] eqn:M; [|discriminate]. cbn [bind] in H. apply ok_inj in H. injection H as -> _.
  pose proof (starts_good _ BD _ _ _ P) as G.
  destruct (walk_laid d BD (psEvents st) (fun o e Q => proj1 (G o e Q)) _ 0 l ltac:(lia) W) as [_ F].
  eapply Forall_impl; [|exact F]. cbv beta. intros p [Q|(R & Q & _)].
  - destruct (G _ _ Q) as [(A & B & _) _]. split; assumption.
  - split; [exact Q|]. destruct (snd p); try discriminate R. exact Logic.I.
Qed.
Print Assumptions C128_read.

(** [l1] has events of [l] and new ones in the range of the format; each object once, and
    all destinations are in the list.  FromVariable events are not read as they are written
    (C38), and raw data is no event *)
Record rearranged (l l1 : list (Z * ev)) : Prop := {
  ra_once : NoDup (map fst l1);
  ra_known : forall p, In p l1 -> In (snd p) (map snd l) \/ (ev_fits (snd p) /\ ev_small (snd p));
  ra_kinds : forall p, In p l1 -> is_fromvar (snd p) = false /\ is_raw (snd p) = false;
  ra_closed : forall p, In p l1 -> has_ref (snd p) = true -> exists d, ev_ref (snd p) = Some d /\ In d (map fst l1)
}.
Lemma rearranged_ok depth d os l ns l1 : is_bytes d -> readSequenceEvents depth d os = Ok (l, ns) -> rearranged l l1 -> seq_ok l1.
Proof.
  intros B H [N K D C]. split; [exact N|]. apply Forall_forall. intros p I. pose proof (C128_read _ _ _ _ _ B H) as F. rewrite Forall_forall in F.
  assert (Q : ev_fits (snd p) /\ ev_small (snd p)). { destruct (K p I) as [X|X]; [|exact X]. apply in_map_iff in X as (q & E & X). rewrite <- E. exact (F q X). }
  destruct Q as (Q1 & Q2). destruct (D p I) as (D1 & D2). repeat match goal with |- _ /\ _ => split end; try assumption. exact (C p I).
Qed.

(** the file written has the events of [evs1] one after the other, with the places of their
    destinations, and that is what is read if all are reached from the first; reading
    succeeds if the last event ends the track, no event is a Return, and the recursion limit
    is not exceeded *)
Theorem C128_edited : forall depth depth' f info s s' evs1 data1 info1 f1 i1, is_bytes f -> sseq_load f info = Ok s -> sseq_parse depth s = Ok s' ->
  rearranged (qEvents s') evs1 -> evs1 <> [] -> sseq_save {| qParsed := true; qEvents := evs1; qData := data1; qInfo := info1 |} = Ok (f1, i1) ->
  i1 = info1 /\ exists s1 pos P, (forall post, sseq_load (f1 ++ post) i1 = Ok s1) /\ qInfo s1 = info1 /\ placed pos 0 evs1 P /\ qData s1 = concat (map snd P) /\
    ((forall o, In o (map (fun x => fst (fst x)) P) -> reachable [0] P o) -> forall s2, sseq_parse depth' s1 = Ok s2 -> qEvents s2 = map fst P) /\
    ((length evs1 < depth')%nat -> (exists p, last (map Some evs1) None = Some p /\ is_end (snd p) = true) -> (forall i, ~ In (i, Bare 0xFD) evs1) -> exists s2, sseq_parse depth' s1 = Ok s2).
Proof.
  intros depth depth' f info s s' evs1 data1 info1 f1 i1 B L PS R NE SV.
  assert (LD : qParsed s = false /\ is_bytes (qData s)).
  { unfold sseq_load in L. do 5 (apply bind_ok in L as (? & _ & L)). apply ok_inj in L. subst s. split; [reflexivity|]. apply is_bytes_slice. exact B. }
  destruct LD as (NP & BD). unfold sseq_parse in PS. rewrite NP in PS. apply bind_ok in PS as ([l ns] & RD & PS). apply ok_inj in PS. subst s'. cbn [qEvents] in R.
  pose proof (rearranged_ok _ _ _ _ _ _ BD RD R) as K. apply sseq_save_inv in SV as (d & E & LL & SV). injection SV as -> ->. cbn [qInfo]. split; [reflexivity|].
  unfold sseq_data in E. cbn [qParsed qEvents] in E. apply bind_ok in E as ([d' os] & E & X). apply ok_inj in X. subst d'.
  assert (O : os = []). { destruct (C39_list_roundtrip_partial 0 _ _ _ _ K NE E) as (? & ? & _ & _ & F & _). inversion F. reflexivity. } subst os.
  destruct (C39_list_exact depth' _ _ _ _ K NE E) as (pos & P & PL & ED & _ & X).
  exists {| qParsed := false; qEvents := []; qData := d; qInfo := info1 |}, pos, P. split; [intros post; apply sseq_load_bytes; exact LL|]. split; [reflexivity|]. split; [exact PL|]. split; [exact ED|]. split.
  - intros RE s2 PS. unfold sseq_parse in PS. cbn [qParsed qData] in PS. apply bind_ok in PS as ([l2 ns2] & RD2 & PS). apply ok_inj in PS. subst s2. cbn [qEvents]. exact (proj1 (X RE l2 ns2 RD2)).
  - intros D (p & LE & EN) NR. destruct (C39_list_roundtrip_partial depth' _ _ _ _ K NE E) as (pos0 & P0 & _ & _ & _ & Y). unfold sseq_parse. cbn [qParsed qData].
    destruct (readSequenceEvents depth' d []) as [[l2 ns2]|e]; [eexists; reflexivity|]. exfalso. destruct Y as [[_ Y]|[[_ (q & Y1 & Y2)]|[_ (i & Y)]]]; [lia|congruence|exact (NR i Y)].
Qed.
Print Assumptions C128_edited.
(** without jumps, calls and other tracks what is read is what was saved *)
Theorem C128_straight : forall depth depth' f info s s' evs1 i data1 info1 f1 i1, is_bytes f -> sseq_load f info = Ok s -> sseq_parse depth s = Ok s' ->
  rearranged (qEvents s') (evs1 ++ [(i, Bare 0xFF)]) -> (forall p, In p evs1 -> is_control (snd p) = false) -> (length evs1 + 1 < depth')%nat ->
  sseq_save {| qParsed := true; qEvents := evs1 ++ [(i, Bare 0xFF)]; qData := data1; qInfo := info1 |} = Ok (f1, i1) ->
  i1 = info1 /\ exists s1 s2, sseq_load f1 i1 = Ok s1 /\ qInfo s1 = info1 /\ sseq_parse depth' s1 = Ok s2 /\ qInfo s2 = info1 /\ map snd (qEvents s2) = map snd evs1 ++ [Bare 0xFF].
Proof.
  intros depth depth' f info s s' evs1 i data1 info1 f1 i1 B L PS R NC D SV.
  assert (LD : qParsed s = false /\ is_bytes (qData s)).
  { unfold sseq_load in L. do 5 (apply bind_ok in L as (? & _ & L)). apply ok_inj in L. subst s. split; [reflexivity|]. apply is_bytes_slice. exact B. }
  destruct LD as (NP & BD). unfold sseq_parse in PS. rewrite NP in PS. apply bind_ok in PS as ([l ns] & RD & PS). apply ok_inj in PS. subst s'. cbn [qEvents] in R.
  destruct (rearranged_ok _ _ _ _ _ _ BD RD R) as (ND & F). apply sseq_save_inv in SV as (d & E & LL & SV). injection SV as -> ->. cbn [qInfo]. split; [reflexivity|].
  apply Forall_app in F as [F _]. rewrite Forall_forall in F.
  destruct (C39_straight depth' evs1 i D ND) as (d' & evs' & E' & RD' & M).
  { apply Forall_forall. intros p I. destruct (F p I) as (A1 & A2 & A3 & A4 & _). unfold straight. repeat match goal with |- _ /\ _ => split end; try assumption. exact (NC p I). }
  unfold sseq_data in E. cbn [qParsed qEvents] in E. rewrite E' in E. apply ok_inj in E. subst d'.
  exists {| qParsed := false; qEvents := []; qData := d; qInfo := info1 |}, {| qParsed := true; qEvents := evs'; qData := d; qInfo := info1 |}.
  split; [rewrite <- (app_nil_r (sseq_bytes d)); apply sseq_load_bytes; exact LL|]. split; [reflexivity|]. split; [unfold sseq_parse; cbn [qParsed qData qInfo]; rewrite RD'; reflexivity|]. split; [reflexivity|exact M].
Qed.
Print Assumptions C128_straight.

(** a rest, a volume and the end are read; the volume is changed, a note is put in front, and
    the track is made to loop from the rest if a condition holds *)
Definition short_sequence : bytes := sseq_bytes [0x80; 5; 0xC1; 90; 0xFF].
Definition ex_loop : list (Z * ev) := [(50, Note 60 100 false 48); (0, Rest 5); (51, Byte1 0xC1 70); (53, Bare 0xA2); (52, Jump (Some 0)); (4, Bare 0xFF)].
Example C128_ex : is_bytes short_sequence /\ exists s s', sseq_load short_sequence (0, 1, 2, 3, 4, 5) = Ok s /\ sseq_parse 9 s = Ok s' /\ qEvents s' = [(0, Rest 5); (2, Byte1 0xC1 90); (4, Bare 0xFF)] /\
  rearranged (qEvents s') ex_loop /\ (exists p, last (map Some ex_loop) None = Some p /\ is_end (snd p) = true) /\
  match (r <- sseq_save {| qParsed := true; qEvents := ex_loop; qData := []; qInfo := (0, 1, 2, 3, 4, 5) |} ;; s1 <- sseq_load (fst r) (snd r) ;; sseq_parse 9 s1) with Err _ => False | Ok s2 =>
    qEvents s2 = [(0, Note 60 100 false 48); (3, Rest 5); (5, Byte1 0xC1 70); (7, Bare 0xA2); (8, Jump (Some 3)); (12, Bare 0xFF)] end.
Proof.
  split; [all_bytes|]. eexists. eexists. split; [vm_compute; reflexivity|]. split; [vm_compute; reflexivity|]. split; [reflexivity|]. cbn [qEvents]. split; [|split; [eexists; split; reflexivity|vm_compute; reflexivity]]. constructor.
  - cbn [map fst ex_loop]. repeat constructor; cbn [In]; lia.
  - intros p [<-|[<-|[<-|[<-|[<-|[<-|[]]]]]]]; [right|left; left; reflexivity|right|right|right|left; right; right; left; reflexivity]; split; cbn; lia.
  - intros p [<-|[<-|[<-|[<-|[<-|[<-|[]]]]]]]; split; reflexivity.
  - intros p [<-|[<-|[<-|[<-|[<-|[<-|[]]]]]]] H; try discriminate H. exists 0. split; [reflexivity|]. right. left. reflexivity.
Qed.
Definition ex_longer : list (Z * ev) := [(50, Note 60 100 false 48); (0, Rest 5); (51, Rest 5); (2, Byte1 0xC1 90)].
Example C128_straight_ex : rearranged [(0, Rest 5); (2, Byte1 0xC1 90); (4, Bare 0xFF)] (ex_longer ++ [(4, Bare 0xFF)]) /\ (forall p, In p ex_longer -> is_control (snd p) = false) /\
  match (r <- sseq_save {| qParsed := true; qEvents := ex_longer ++ [(4, Bare 0xFF)]; qData := []; qInfo := (0, 1, 2, 3, 4, 5) |} ;; s1 <- sseq_load (fst r) (snd r) ;; sseq_parse 9 s1) with Err _ => False | Ok s2 =>
    map snd (qEvents s2) = [Note 60 100 false 48; Rest 5; Rest 5; Byte1 0xC1 90; Bare 0xFF] end.
Proof.
  split; [|split; [intros p [<-|[<-|[<-|[<-|[]]]]]; reflexivity|vm_compute; reflexivity]]. constructor.
  - cbn [map fst ex_longer app]. repeat constructor; cbn [In]; lia.
  - intros p [<-|[<-|[<-|[<-|[<-|[]]]]]]; [right; split; cbn; lia|left; left; reflexivity|left; left; reflexivity|left; right; left; reflexivity|left; right; right; left; reflexivity].
  - intros p [<-|[<-|[<-|[<-|[<-|[]]]]]]; split; reflexivity.
  - intros p [<-|[<-|[<-|[<-|[<-|[]]]]]] H; discriminate H.
Qed.

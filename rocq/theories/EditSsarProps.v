(** * C128: sequence archives are changed

    An arbitrary sequence archive is loaded and parsed, its events and its sequences are
    removed, reordered, changed and added, and it is saved and read again. *)
From Coq Require Import String.
From Verif Require Import PyBase PyLemmas PyTac SeqModel SeqSpec SeqLemmas SeqSave SeqParse SeqRead SeqTotal SeqGood SeqProps SsarModel SsarLemmas EditSeqProps ViewTexProps.

Lemma placed_nonneg pos off evs P : 0 <= off -> placed pos off evs P -> forall o, In o (offs P) -> 0 <= o.
Proof.
  intros H PL. revert H. induction PL as [|off i e b r r' A B C IH]; intros H o I; [destruct I|].
  cbn [offs map fst] in I. destruct I as [<-|I]; [exact H|]. pose proof (zlen_nonneg b). apply IH; [lia|exact I].
Qed.
Lemma index_at (R : Z -> Z -> Prop) is os : Forall2 R is os -> forall i k o, list_index is i = Ok k -> get os k = Ok o -> R i o /\ 0 <= k.
Proof.
  induction 1 as [|a b is os H F IH]; intros i k o E G; cbn [list_index] in E; [discriminate|]. destruct (Z.eqb_spec a i) as [->|N].
  - apply ok_inj in E. subst k. rewrite get_0 in G. apply ok_inj in G. subst b. split; [exact H|lia].
  - apply bind_ok in E as (j & E & K). apply ok_inj in K. subst k. assert (J : 0 <= j).
    { clear - E. revert j E. induction is as [|x is IH]; intros j E; cbn [list_index] in E; [discriminate|]. destruct (x =? i); [apply ok_inj in E; lia|]. apply bind_ok in E as (q & E & K). apply ok_inj in K. apply IH in E. lia. }
    rewrite get_cons in G by lia. replace (j + 1 - 1) with j in G by lia. destruct (IH i j o E G). split; [assumption|lia].
Qed.

Lemma parse_with depth xs d u r' : let os := filter (fun o => negb (o =? -1)) (offsets_of xs) in
  (forall evs ns, readSequenceEvents depth d os = Ok (evs, ns) -> ns = os) ->
  ssar_parse depth {| rParsed := false; rEvents := []; rData := d; rSeqs := mk_seqs xs; rUnk := u |} = Ok r' ->
  exists evs, readSequenceEvents depth d os = Ok (evs, os) /\
  r' = {| rParsed := true; rEvents := evs; rData := []; rSeqs := map (parsed_seq os) xs; rUnk := u |}.
Proof.
  cbv zeta. intros B H. unfold ssar_parse in H. cbn [rParsed rSeqs rData rUnk] in H. rewrite startOffs_mk in H. cbn [bind] in H.
  set (os := filter _ _) in *. apply bind_ok in H as ([evs ns] & E & H). apply ok_inj in H. pose proof (B _ _ E). subst ns. exists evs. split; [exact E|]. rewrite <- H. f_equal.
  unfold mk_seqs. rewrite map_map. apply map_ext_in. intros [n [o p]] Hp. cbn [fst snd]. unfold parsed_seq. cbn [fst snd]. f_equal.
  unfold assign_first. cbn [aseq_unparsed aOffset]. destruct (Z.eqb_spec o (-1)) as [->|]; cbn [usable]; [reflexivity|].
  destruct (Z.eqb_spec o (-1)); [congruence|]. rewrite assign_fold by (cbn [aseq_unparsed aOffset]; destruct (Z.eqb_spec o (-1)); congruence).
  replace (existsb (Z.eqb o) os) with true; [reflexivity|]. symmetry. apply existsb_exists. exists o. split; [|apply Z.eqb_refl].
  unfold os. apply filter_In. split; [unfold offsets_of; apply in_map_iff; exists (n, (o, p)); split; [reflexivity|exact Hp]|].
  destruct (Z.eqb_spec o (-1)); [congruence|reflexivity].
Qed.

(** each sequence keeps its name and its settings, and starts where its first event is
    written; the events are read if all are reached from the first events, and then the
    sequences have them as first events.  Reading succeeds if the last event ends the track,
    no event is a Return, and the recursion limit is not exceeded *)
Definition starts_at (pos : list (Z * Z)) (get : aseq -> ref) (p q : option (list Z) * aseq) : Prop :=
  fst q = fst p /\ aParams (snd q) = aParams (snd p) /\ get (snd q) = pos_of pos (aFirst (snd p)) /\ get (snd q) <> None.
Theorem C128_archive : forall depth depth' f u names r r' evs1 seqs1 data1 u1 f1 v1 l1, is_bytes f -> ssar_load f u names = Ok r -> ssar_parse depth r = Ok r' ->
  rearranged (rEvents r') evs1 -> evs1 <> [] -> (forall p, In p seqs1 -> aParsed (snd p) = true /\ aFirst (snd p) <> None) ->
  ssar_save {| rParsed := true; rEvents := evs1; rData := data1; rSeqs := seqs1; rUnk := u1 |} = Ok (f1, v1, l1) ->
  v1 = u1 /\ l1 = map fst seqs1 /\ exists r1 pos P os, (forall post, ssar_load (f1 ++ post) v1 l1 = Ok r1) /\ rUnk r1 = u1 /\ placed pos 0 evs1 P /\ rData r1 = concat (map snd P) /\
    Forall2 (starts_at pos aOffset) seqs1 (rSeqs r1) /\ Forall2 (fun p o => pos_of pos (aFirst (snd p)) = Some o) seqs1 os /\
    ((forall o, In o (map (fun x => fst (fst x)) P) -> reachable (match os with [] => [0] | _ => os end) P o) -> forall r2, ssar_parse depth' r1 = Ok r2 ->
       rEvents r2 = map fst P /\ rUnk r2 = u1 /\ Forall2 (starts_at pos aFirst) seqs1 (rSeqs r2)) /\
    ((length evs1 < depth')%nat -> (exists p, last (map Some evs1) None = Some p /\ is_end (snd p) = true) -> (forall i, ~ In (i, Bare 0xFD) evs1) -> exists r2, ssar_parse depth' r1 = Ok r2).
Proof.
  intros depth depth' f u names r r' evs1 seqs1 data1 u1 f1 v1 l1 B LD PS R NE SQ SV.
  assert (BD : rParsed r = false /\ is_bytes (rData r)).
  { unfold ssar_load in LD. do 10 (apply bind_ok in LD as (? & _ & LD)). apply ok_inj in LD. subst r. split; [reflexivity|]. apply is_bytes_slice. exact B. }
  destruct BD as (NP & BD). unfold ssar_parse in PS. rewrite NP in PS. apply bind_ok in PS as (so & _ & PS). apply bind_ok in PS as ([l ns] & RD & PS). apply ok_inj in PS. subst r'. cbn [rEvents] in R.
  pose proof (rearranged_ok _ _ _ _ _ _ BD RD R) as K. pose proof SV as SV0. apply ssar_save_inv in SV as (t & d & E & LL & -> & ->). cbn [rUnk rSeqs] in *. split; [reflexivity|]. split; [reflexivity|].
  pose proof E as E0. unfold ssar_body in E. cbn [rParsed rSeqs rEvents] in E. apply bind_ok in E as (fi & FI & E).
  assert (Q : exists is, fi = map Some is /\ map (fun p => aFirst (snd p)) seqs1 = map Some is).
  { clear - SQ FI. revert fi FI. induction seqs1 as [|p s IH]; intros fi FI; cbn [mapM] in FI; [apply ok_inj in FI; subst; exists []; split; reflexivity|].
    apply bind_ok in FI as (x & X & FI). apply bind_ok in FI as (y & Y & FI). apply ok_inj in FI. subst fi. destruct (SQ p (or_introl eq_refl)) as (A & C). unfold aseq_firstEvent in X. rewrite A in X. apply ok_inj in X. subst x.
    destruct (aFirst (snd p)) as [i|] eqn:EA; [|congruence]. destruct (IH (fun p I => SQ p (or_intror I)) y Y) as (is & -> & M). exists (i :: is). cbn [map]. rewrite EA, M. split; reflexivity. }
  destruct Q as (is & -> & FM). cbv zeta in E. rewrite flat_some in E. apply bind_ok in E as ([d' os] & ES & E). apply bind_ok in E as (rows & ER & E). apply ok_inj in E. injection E as <- <-.
  destruct (seq_placed _ _ _ _ K ES) as (pos' & P' & PL' & _ & FN' & IO). assert (OS : forall o, In o os -> 0 <= o) by (intros o I; eapply placed_nonneg; [|exact PL'|apply IO, I]; lia). clear pos' P' PL' FN' IO.
  destruct (C39_list_exact depth' _ _ _ _ K NE ES) as (pos & P & PL & ED & FN & X).
  assert (XS : exists xs, rows = map arow (map snd xs) /\ Forall2 (fun (p : option (list Z) * aseq) (x : option (list Z) * (Z * seqParams)) => fst x = fst p /\ snd (snd x) = aParams (snd p) /\ pos_of pos (aFirst (snd p)) = Some (fst (snd x)) /\ i32 (fst (snd x)) /\ params_ok (snd (snd x))) seqs1 xs).
  { assert (G : forall s, (forall p, In p s -> In p seqs1) -> forall rows, mapM (fun p : option (list Z) * aseq => off <- match aFirst (snd p) with Some i => k <- list_index is i ;; get os k | None => Ok (-1) end ;; ssar_row off (aParams (snd p))) s = Ok rows ->
      exists xs, rows = map arow (map snd xs) /\ Forall2 (fun (p : option (list Z) * aseq) (x : option (list Z) * (Z * seqParams)) => fst x = fst p /\ snd (snd x) = aParams (snd p) /\ pos_of pos (aFirst (snd p)) = Some (fst (snd x)) /\ i32 (fst (snd x)) /\ params_ok (snd (snd x))) s xs).
    { clear - FN SQ. induction s as [|p s IH]; intros I rows H; cbn [mapM] in H; [apply ok_inj in H; subst; exists []; split; [reflexivity|constructor]|].
      apply bind_ok in H as (x & H & H'). apply bind_ok in H' as (y & Y & H'). apply ok_inj in H'. subst rows. destruct (IH (fun q J => I q (or_intror J)) y Y) as (xs & -> & F). apply bind_ok in H as (o & O & H). apply ssar_row_inv in H as (H1 & H2 & ->).
      destruct (aFirst (snd p)) as [i|] eqn:EA; [|exfalso; exact (proj2 (SQ p (I p (or_introl eq_refl))) EA)]. apply bind_ok in O as (k & K & O). destruct (index_at _ _ _ FN _ _ _ K O) as (PO & _).
      exists ((fst p, (o, aParams (snd p))) :: xs). cbn [map snd]. split; [reflexivity|]. constructor; [|exact F]. cbn [fst snd]. rewrite EA. repeat match goal with |- _ /\ _ => split end; try reflexivity; try assumption. }
    exact (G seqs1 (fun p I => I) rows ER). }
  destruct XS as (xs & -> & F2).
  assert (OF : offsets_of xs = os).
  { assert (A : map Some (offsets_of xs) = map Some os).
    { transitivity (map (fun i => pos_of pos i) (map (fun p => aFirst (snd p)) seqs1)).
      - clear - F2. induction F2 as [|p x s xs (_ & _ & H & _) F IH]; [reflexivity|]. cbn [map offsets_of] in *. rewrite H. f_equal. exact IH.
      - rewrite FM. clear - FN. induction FN as [|i o is os H F IH]; [reflexivity|]. cbn [map]. rewrite H. f_equal. exact IH. }
    clear - A. revert os A. induction (offsets_of xs) as [|a l IH]; intros [|b os] A; try discriminate A; [reflexivity|]. cbn [map] in A. injection A as -> A. f_equal. apply IH. exact A. }
  assert (FL : filter (fun o => negb (o =? -1)) (offsets_of xs) = os).
  { rewrite OF. apply filter_all. intros o I. pose proof (OS o I). apply Bool.negb_true_iff. lia. }
  assert (LN : zlen xs = zlen seqs1) by (clear - F2; unfold zlen; f_equal; induction F2; cbn [length]; congruence).
  assert (NM : map fst seqs1 = map fst xs) by (clear - F2; induction F2 as [|p x s xs (H & _) F IH]; [reflexivity|]; cbn [map]; rewrite H; f_equal; exact IH).
  assert (US : unparsed_seqs xs). { intros x I. clear - F2 I. induction F2 as [|p y s xs (_ & _ & _ & H) F IH]; [destruct I|]. destruct I as [<-|I]; [exact H|exact (IH I)]. }
  assert (F1 : f1 = ssar_bytes (map snd xs) d').
  { rewrite (ssar_save_eq _ (map snd xs) d' E0) in SV0 by (cbn [rSeqs]; rewrite zlen_map_snd; lia). apply ok_inj in SV0. injection SV0 as <-. reflexivity. }
  subst f1. exists {| rParsed := false; rEvents := []; rData := d'; rSeqs := mk_seqs xs; rUnk := u1 |}, pos, P, os.
  split; [intros post; rewrite NM; apply ssar_load_bytes; [exact US|lia|reflexivity]|]. split; [reflexivity|]. split; [exact PL|]. split; [exact ED|]. cbn [rSeqs].
  assert (PN : forall x, In x xs -> (fst (snd x) =? -1) = false). { intros x I. assert (0 <= fst (snd x)) by (apply OS; rewrite <- OF; unfold offsets_of; apply in_map_iff; exists x; split; [reflexivity|exact I]). lia. }
  split. { clear - F2 PN. induction F2 as [|p x s xs (H1 & H2 & H3 & _) F IH]; cbn [mk_seqs map]; constructor; [|apply IH; intros y I; apply PN; right; exact I]. unfold starts_at. cbn [fst snd aseq_unparsed aParams aOffset]. rewrite (PN x (or_introl eq_refl)), H3. repeat match goal with |- _ /\ _ => split end; try assumption; [reflexivity|discriminate]. }
  split. { clear - FN FM. revert is FM FN. revert os. induction seqs1 as [|p s IH]; intros os is FM FN; destruct is as [|i is]; try discriminate FM; inversion FN; subst; [constructor|]. cbn [map] in FM. injection FM as EA FM. constructor; [rewrite EA; assumption|]. eapply IH; eassumption. }
  destruct (C39_list_roundtrip_partial depth' _ _ _ _ K NE ES) as (pos0 & P0 & _ & _ & _ & Y).
  split.
  - intros RE r2 PS. apply parse_with in PS as (evs2 & RD2 & ->). 2:{ rewrite FL. intros evs ns' HR. rewrite HR in Y. destruct Y as (vis & _ & _ & -> & _). reflexivity. }
    rewrite FL in RD2. cbn [rEvents rUnk rSeqs]. split; [exact (proj1 (X RE _ _ RD2))|]. split; [reflexivity|]. generalize (filter (fun o => negb (o =? -1)) (offsets_of xs)). clear - F2 PN. intros os0.
    induction F2 as [|p x s xs (H1 & H2 & H3 & _) F IH]; cbn [map]; constructor; [|apply IH; intros y I; apply PN; right; exact I]. unfold starts_at, parsed_seq. cbn [fst snd]. rewrite (PN x (or_introl eq_refl)), H3. cbn [aParams aFirst]. repeat match goal with |- _ /\ _ => split end; try assumption; [reflexivity|discriminate].
  - intros D (p & LE & EN) NR. unfold ssar_parse. cbn [rParsed rSeqs rData]. rewrite startOffs_mk, FL. cbn [bind].
    destruct (readSequenceEvents depth' d' os) as [[l2 ns2]|e]; [eexists; reflexivity|]. exfalso. destruct Y as [[_ Y]|[[_ (q & Y1 & Y2)]|[_ (i & Y)]]]; [lia|congruence|exact (NR i Y)].
Qed.
Print Assumptions C128_archive.

(** an archive with a rest, a volume and the end: a note is put in front, the second sequence
    starts at the rest, and a third that starts at the volume is added *)
Definition short_archive : bytes := ssar_bytes [(0, (700, 127, 64, 50, 3)); (2, (701, 127, 64, 50, 3))] [0x80; 5; 0xC1; 90; 0xFF].
Definition ex_events : list (Z * ev) := [(50, Note 60 100 false 48); (0, Rest 5); (2, Byte1 0xC1 90); (4, Bare 0xFF)].
Definition ex_entries : list (option (list Z) * aseq) :=
  [(Some [65], aseq_parsed (Some 50) (700, 127, 64, 50, 3)); (Some [66], aseq_parsed (Some 0) (701, 100, 64, 50, 3)); (None, aseq_parsed (Some 2) (702, 127, 64, 50, 3))].
Example C128_archive_ex : is_bytes short_archive /\ exists r r', ssar_load short_archive 9 [Some [65]; Some [66]] = Ok r /\ ssar_parse 9 r = Ok r' /\ rEvents r' = [(0, Rest 5); (2, Byte1 0xC1 90); (4, Bare 0xFF)] /\
  map (fun p => aFirst (snd p)) (rSeqs r') = [Some 0; Some 2] /\ rearranged (rEvents r') ex_events /\ (forall p, In p ex_entries -> aParsed (snd p) = true /\ aFirst (snd p) <> None) /\
  (exists p, last (map Some ex_events) None = Some p /\ is_end (snd p) = true) /\
  match (o <- ssar_save {| rParsed := true; rEvents := ex_events; rData := []; rSeqs := ex_entries; rUnk := 9 |} ;; r1 <- ssar_load (fst (fst o)) (snd (fst o)) (snd o) ;; ssar_parse 9 r1) with Err _ => False | Ok r2 =>
    rEvents r2 = [(0, Note 60 100 false 48); (3, Rest 5); (5, Byte1 0xC1 90); (7, Bare 0xFF)] /\ map (fun p => (fst p, aFirst (snd p))) (rSeqs r2) = [(Some [65], Some 0); (Some [66], Some 3); (None, Some 5)] end.
Proof.
  split; [all_bytes|]. eexists. eexists. split; [vm_compute; reflexivity|]. split; [vm_compute; reflexivity|]. split; [reflexivity|]. split; [reflexivity|]. cbn [rEvents]. split; [constructor|].
  - cbn [map fst ex_events]. repeat constructor; cbn [In]; lia.
  - intros p [<-|[<-|[<-|[<-|[]]]]]; [right; split; cbn; lia|left; left; reflexivity|left; right; left; reflexivity|left; right; right; left; reflexivity].
  - intros p [<-|[<-|[<-|[<-|[]]]]]; split; reflexivity.
  - intros p [<-|[<-|[<-|[<-|[]]]]] H; discriminate H.
  - split; [intros p [<-|[<-|[<-|[]]]]; split; [reflexivity|discriminate|reflexivity|discriminate|reflexivity|discriminate]|]. split; [eexists; split; reflexivity|]. vm_compute. split; reflexivity.
Qed.

(** * Proofs about whole sequences (SSEQMusic) *)
From Coq Require Import Lia Sorting.Sorted Sorting.Permutation.
From Verif Require Import PyBase PyLemmas PyTac SeqModel SeqParse SeqSave SsarModel SbnkModel SbnkBank MusicModel MusicSpec MusicLemmas MusicEdit MusicTrack.

Definition head_name (l : evs) : ref := match l with (n, _) :: _ => Some n | [] => None end.
Definition heads (S : tracks) : list (Z * ref) := map (fun x => (fst x, head_name (snd x))) S.

Lemma nodup_app {A} (a b : list A) : NoDup (a ++ b) <-> NoDup a /\ NoDup b /\ (forall x, In x a -> ~ In x b).
Proof.
  induction a as [|x a IH]; cbn [app].
  - split; [intros H; repeat split; [constructor|exact H|intros y []]|tauto].
  - rewrite !NoDup_cons_iff, IH, in_app_iff. cbn [In]. split.
    + intros (N & A1 & A2 & A3). repeat split; try tauto. intros y [<-|Y]; [tauto|apply A3; exact Y].
    + intros ((N & A1) & A2 & A3). repeat split; try assumption; [|intros y Y; apply A3; right; exact Y]. intros [C|C]; [tauto|]. apply (A3 x); [left; reflexivity|exact C].
Qed.
Lemma is_end_iff e : is_end e = true <-> e = Bare 0xFF.
Proof. destruct e; cbn; try (split; discriminate). rewrite Z.eqb_eq. split; [intros ->; reflexivity|intros H; injection H as ->; reflexivity]. Qed.
Lemma ended_proper new l : proper l -> (ended new l = l \/ ended new l = l ++ [(new, Bare 0xFF)]) /\ track_new (ended new l) = l.
Proof.
  intros (a & n & e & -> & NE). unfold ended. rewrite rev_app_distr. cbn [rev app]. assert (E : is_end e = false) by (destruct (is_end e) eqn:E; [apply is_end_iff in E; contradiction|reflexivity]). rewrite E. cbn [orb].
  destruct (is_jump e).
  - split; [left; reflexivity|]. unfold track_new. rewrite rev_app_distr. cbn [rev app]. rewrite E. reflexivity.
  - split; [right; reflexivity|]. unfold track_new. rewrite (rev_app_distr (a ++ [(n, e)])). cbn [rev app is_end]. rewrite Z.eqb_refl. rewrite rev_involutive. reflexivity.
Qed.
Lemma proper_cons l : proper l -> exists n e r, l = (n, e) :: r.
Proof. intros (a & n & e & -> & _). destruct a as [|(k & f) a]; [exists n, e, []; reflexivity|exists k, f, (a ++ [(n, e)]); reflexivity]. Qed.
Lemma track_length_tail starts (T post : evs) : Forall (fun p => in_refs (fst p) starts = false) T ->
  (post = [] \/ exists n e r, post = (n, e) :: r /\ in_refs n starts = true) -> track_length starts (T ++ post) = 1 + zlen T.
Proof.
  intros F P. induction F as [|(n & e) T H F IH]; cbn [app].
  - destruct P as [->|(n & e & r & -> & I)]; cbn [track_length]; [reflexivity|]. rewrite I. reflexivity.
  - cbn [track_length]. cbn [fst] in H. rewrite H, IH, zlen_cons. lia.
Qed.
Lemma track_at_ok starts pre n e (T post : evs) i : i = zlen pre -> Forall (fun p => in_refs (fst p) starts = false) T ->
  (post = [] \/ exists n e r, post = (n, e) :: r /\ in_refs n starts = true) -> track_at (pre ++ ((n, e) :: T) ++ post) starts i = (n, e) :: T.
Proof.
  intros -> F P. unfold track_at. pose proof (zlen_nonneg pre).
  replace (skipn (Z.to_nat (zlen pre + 1)) (pre ++ ((n, e) :: T) ++ post)) with (T ++ post).
  - rewrite (track_length_tail starts T post F P). apply slice_mid; [reflexivity|]. rewrite zlen_cons. lia.
  - rewrite <- app_comm_cons. change ((n, e) :: T ++ post) with ([(n, e)] ++ T ++ post). rewrite app_assoc. replace (Z.to_nat (zlen pre + 1)) with (length (pre ++ [(n, e)])) by (rewrite app_length; unfold zlen; cbn [length]; lia).
    rewrite skipn_app, skipn_all, Nat.sub_diag. reflexivity.
Qed.
Lemma index_ok n e (pre post : evs) : ~ In n (map fst pre) -> forall i, index_of (pre ++ (n, e) :: post) (Some n) i = Ok (i + zlen pre).
Proof.
  induction pre as [|(k & f) pre IH]; intros N i; cbn [app index_of].
  - rewrite Z.eqb_refl. change (zlen (@nil (Z * ev))) with 0. f_equal. lia.
  - cbn [map fst In] in N. destruct (k =? n) eqn:E; [apply Z.eqb_eq in E; tauto|]. rewrite IH by tauto. rewrite zlen_cons. f_equal. lia.
Qed.
(** the saved contents, track by track *)
Lemma saved_first new S b c : save_tracks new S = (b, c) -> Forall (fun x => proper (snd x)) S -> forall k l S', S = (k, l) :: S' ->
  exists b' c', save_tracks (new + 2) S' = (b', c') /\ c = ended (new + 1) l ++ c' /\ b = (if k =? 0 then b' else (new, BeginTrack k (head_name l)) :: b').
Proof.
  intros H F k l S' ->. inversion F as [|? ? P _]; subst. cbn [snd] in P. destruct (proper_cons l P) as (n & e & r & ->). cbn [save_tracks] in H. destruct (save_tracks (new + 2) S') as (b' & c') eqn:E. injection H as <- <-. exists b', c'. repeat split; reflexivity.
Qed.
Lemma ended_names new l n : proper l -> In n (map fst (ended new l)) -> In n (map fst l) \/ n = new.
Proof. intros P. destruct (ended_proper new l P) as ([->| ->] & _); [tauto|]. rewrite map_app, in_app_iff. cbn [map fst In]. intuition congruence. Qed.
Lemma ended_cons new n e r : proper ((n, e) :: r) -> exists r', ended new ((n, e) :: r) = (n, e) :: r' /\ (forall k, In k (map fst r') -> In k (map fst r) \/ k = new).
Proof.
  intros P. destruct (ended_proper new _ P) as ([->| ->] & _).
  - exists r. split; [reflexivity|tauto].
  - exists (r ++ [(new, Bare 0xFF)]). split; [reflexivity|]. intros k. rewrite map_app, in_app_iff. cbn [map fst In]. intuition congruence.
Qed.
Lemma reload_tracks N starts : (forall n, N <= n -> in_refs n starts = false) ->
  forall S new b c pre d, N <= new -> save_tracks new S = (b, c) -> Forall (fun x => proper (snd x)) S ->
  NoDup (names S) -> Forall (fun n => n < N) (names S) ->
  (forall n, In n (names S) -> ~ In n (map fst pre)) ->
  (forall x, In x S -> forall n e r, snd x = (n, e) :: r -> in_refs n starts = true /\ forall k, In k (map fst r) -> in_refs k starts = false) ->
  NoDup (map fst S) -> (forall k, In k (map fst S) -> ~ In k (map fst d)) ->
  foldM (fun d b => i <- index_of (pre ++ c) (snd b) 0 ;; Ok (dict_set d (fst b) (track_new (track_at (pre ++ c) starts i)))) d (heads S) = Ok (d ++ S).
Proof.
  intros HN. induction S as [|(k & l) S IH]; intros new b c pre d NN H F ND BN DJ ST KD KN; [cbn [heads map foldM]; rewrite app_nil_r; reflexivity|].
  destruct (saved_first _ _ _ _ H F k l S eq_refl) as (b' & c' & H' & EC & _). inversion F as [|? ? P F']; subst. cbn [snd] in P. destruct (proper_cons l P) as (n & e & r & ->).
  destruct (ended_cons (new + 1) n e r P) as (r' & ER & NR). cbn [heads map fst snd head_name foldM].
  destruct (ST _ (or_introl eq_refl) n e r eq_refl) as (I1 & I2).
  assert (NB : forall q, In q (map fst ((n, e) :: r)) -> q < N). { intros q Q. rewrite Forall_forall in BN. apply BN. unfold names. cbn [flat_map snd]. apply in_app_iff. left. exact Q. }
  assert (IX : index_of (pre ++ ended (new + 1) ((n, e) :: r) ++ c') (Some n) 0 = Ok (zlen pre)).
  { rewrite ER, <- app_comm_cons. rewrite index_ok; [f_equal; lia|]. apply DJ. left. reflexivity. }
  rewrite IX. cbn [bind]. unfold names in ND, DJ, BN. cbn [flat_map snd] in ND, DJ, BN.
  assert (NDS : NoDup (names S) /\ forall q, In q (map fst ((n, e) :: r)) -> ~ In q (names S)).
  { apply nodup_app in ND as (_ & ND2 & DJ2). split; [exact ND2|exact DJ2]. }
  destruct NDS as (ND' & DIS).
  rewrite ER, (track_at_ok starts pre n e r' c' (zlen pre) eq_refl).
  - rewrite <- ER. rewrite (proj2 (ended_proper (new + 1) _ P)). rewrite dict_set_new by (apply KN; left; reflexivity). rewrite app_assoc. rewrite (IH (new + 2) b' c'); [rewrite <- app_assoc; reflexivity|lia|exact H'|exact F'|exact ND'| | | | |].
    + apply Forall_app in BN as (_ & BN). exact BN.
    + intros q Q. rewrite map_app, in_app_iff. intros [C|C].
      * apply (DJ q); [apply in_app_iff; right; exact Q|exact C].
      * apply (ended_names (new + 1) _ q P) in C as [C|C]; [apply (DIS q C Q)|]. apply Forall_app in BN as (_ & BN). rewrite Forall_forall in BN. specialize (BN q Q). lia.
    + intros x X. apply ST. right. exact X.
    + inversion KD; assumption.
    + intros q Q. rewrite map_app, in_app_iff. cbn [map fst In]. intros [C|[C|[]]]; [apply (KN q); [right; exact Q|exact C]|]. subst q. inversion KD; contradiction.
  - rewrite Forall_forall. intros (q & f) Q. cbn [fst]. apply (in_map fst) in Q. cbn [fst] in Q. apply NR in Q as [Q| ->]; [apply I2; exact Q|apply HN; lia].
  - destruct S as [|(k2 & l2) S2]; [left; cbn [save_tracks] in H'; injection H' as _ <-; reflexivity|right].
    destruct (saved_first _ _ _ _ H' F' k2 l2 S2 eq_refl) as (b'' & c'' & _ & EC2 & _). inversion F' as [|? ? P2 _]; subst. cbn [snd] in P2. destruct (proper_cons l2 P2) as (n2 & e2 & r2 & ->). destruct (ended_cons (new + 2 + 1) n2 e2 r2 P2) as (r2' & ER2 & _).
    exists n2, e2, (r2' ++ c''). split; [rewrite ER2; reflexivity|]. apply (ST _ (or_intror (or_introl eq_refl)) n2 e2 r2 eq_refl).
Qed.
Definition not_begin (l : evs) : Prop := exists n e r, l = (n, e) :: r /\ is_begin e = false.
Lemma begins_ok X : not_begin X -> forall S new b c, save_tracks new S = (b, c) -> Forall (fun x => proper (snd x)) S -> ~ In 0 (map fst S) ->
  begins (b ++ X) = Ok (heads S) /\ zlen b = zlen S /\ forall n, In n (map fst b) -> new <= n.
Proof.
  intros (xn & xe & xr & -> & NB). induction S as [|(k & l) S IH]; intros new b c H F NZ.
  - cbn [save_tracks] in H. injection H as <- <-. cbn [app]. split; [|split; [reflexivity|intros n []]]. cbn [begins heads map]. destruct xe; try reflexivity. discriminate NB.
  - destruct (saved_first _ _ _ _ H F k l S eq_refl) as (b' & c' & H' & _ & EB). inversion F as [|? ? _ F']; subst. cbn [map fst In] in NZ. rewrite (proj2 (Z.eqb_neq k 0)) by tauto.
    destruct (IH (new + 2) b' c' H' F') as (I1 & I2 & I3); [tauto|]. cbn [app begins]. rewrite I1. cbn [bind heads map fst snd]. split; [reflexivity|]. rewrite !zlen_cons, I2. split; [reflexivity|].
    intros n [<-|I]; [cbn [fst]; lia|]. apply I3 in I. lia.
Qed.
Lemma contents_first new S b c : save_tracks new S = (b, c) -> Forall (fun x => proper (snd x)) S -> forall x S', S = x :: S' -> first_not (fun e => is_begin e = true) (snd x) -> not_begin c.
Proof.
  intros H F (k & l) S' -> FN. destruct (saved_first _ _ _ _ H F k l S' eq_refl) as (b' & c' & _ & -> & _). inversion F as [|? ? P _]; subst. cbn [snd] in *. destruct (proper_cons l P) as (n & e & r & ->). destruct (ended_cons (new + 1) n e r P) as (r' & -> & _).
  exists n, e, (r' ++ c'). split; [reflexivity|]. cbn in FN. destruct (is_begin e); [tauto|reflexivity].
Qed.
Lemma in_heads S n : Forall (fun x => proper (snd x)) S -> in_refs n (map snd (heads S)) = true <-> exists x e r, In x S /\ snd x = (n, e) :: r.
Proof.
  intros F. unfold in_refs, heads. rewrite existsb_exists. split.
  - intros (q & Q & E). rewrite map_map in Q. apply in_map_iff in Q as (x & <- & I). cbn [snd] in E. rewrite Forall_forall in F. specialize (F x I). destruct (proper_cons _ F) as (m & e & r & EX). rewrite EX in E. cbn [head_name] in E. apply Z.eqb_eq in E. subst m. exists x, e, r. split; assumption.
  - intros (x & e & r & I & EX). exists (Some n). split; [|apply Z.eqb_refl]. rewrite map_map. apply in_map_iff. exists x. cbn [snd]. rewrite EX. split; [reflexivity|exact I].
Qed.
Lemma names_in S x n : In x S -> In n (map fst (snd x)) -> In n (names S).
Proof. intros I J. unfold names. apply in_flat_map. exists x. split; assumption. Qed.
Lemma names_once S x y n : NoDup (map fst S) -> NoDup (names S) -> In x S -> In y S -> In n (map fst (snd x)) -> In n (map fst (snd y)) -> x = y.
Proof.
  intros KD ND. revert KD ND. induction S as [|z S IH]; intros KD ND IX IY NX NY; [destruct IX|]. unfold names in ND. cbn [flat_map] in ND. apply nodup_app in ND as (_ & ND & DJ). cbn [map] in KD. apply NoDup_cons_iff in KD as (_ & KD).
  destruct IX as [->|IX], IY as [->|IY]; [reflexivity| | |apply IH; assumption].
  - exfalso. apply (DJ n NX). exact (names_in S y n IY NY).
  - exfalso. apply (DJ n NY). exact (names_in S x n IX NX).
Qed.
(** heads of tracks are not among the later events of any track *)
Lemma tails_not_heads S R : Forall (fun x => proper (snd x)) R -> (forall x, In x R -> In x S) -> NoDup (map fst S) -> NoDup (names S) ->
  forall x, In x S -> forall n e r, snd x = (n, e) :: r -> forall k, In k (map fst r) -> in_refs k (map snd (heads R)) = false.
Proof.
  intros F SUB KD ND x IX n e r EX k IK. destruct (in_refs k (map snd (heads R))) eqn:E; [exfalso|reflexivity]. apply (in_heads R k F) in E as (y & e' & r' & IY & EY).
  assert (x = y). { apply (names_once S x y k KD ND IX (SUB y IY)); [rewrite EX; right; exact IK|rewrite EY; left; reflexivity]. }
  subst y. rewrite EX in EY. injection EY as -> _ _. assert (NX : NoDup (map fst (snd x))).
  { clear -IX ND. induction S as [|z S IH]; [destruct IX|]. unfold names in ND. cbn [flat_map] in ND. apply nodup_app in ND as (N1 & N2 & _). destruct IX as [->|IX]; [exact N1|exact (IH N2 IX)]. }
  rewrite EX in NX. cbn [map fst] in NX. apply NoDup_cons_iff in NX as (NX & _). contradiction.
Qed.
Lemma sort_strict (t : tracks) : NoDup (map fst t) -> StronglySorted (fun a b => fst a < fst b) (sort_by fst t).
Proof.
  intros ND. pose proof (sort_sorted (@fst Z evs) t) as S. assert (ND2 : NoDup (map fst (sort_by fst t))) by (apply Permutation_NoDup with (map fst t); [apply Permutation_map; symmetry; apply sort_perm|exact ND]).
  induction S as [|x r S IH F]; [constructor|]. cbn [map] in ND2. apply NoDup_cons_iff in ND2 as (NI & ND2). constructor; [exact (IH ND2)|]. rewrite Forall_forall in *. intros y Y. specialize (F y Y). assert (fst x <> fst y) by (intros C; apply NI; rewrite C; apply in_map; exact Y). lia.
Qed.
Lemma inb_iff x l : inb x l = true <-> In x l.
Proof. unfold inb. rewrite existsb_exists. split; [intros (y & I & E); apply Z.eqb_eq in E; subst y; exact I|intros I; exists x; split; [exact I|apply Z.eqb_refl]]. Qed.
Lemma save_general new t : (forall l, t <> [(0, l)]) ->
  music_save new t = let '(b, c) := save_tracks (new + 1) (sort_by fst t) in Ok ((new, DefTracks (sort_by (fun k => k) (map fst t))) :: b ++ c).
Proof.
  intros H. destruct t as [|([|p|p] & l) [|y t]]; try reflexivity. - exfalso. apply (H l). reflexivity. - destruct l; reflexivity.
Qed.
Lemma music_roundtrip new t : t <> [] -> NoDup (map fst t) -> Forall (fun x => 0 <= fst x) t -> Forall (fun x => proper (snd x)) t -> NoDup (names t) -> Forall (fun n => n < new) (names t) ->
  Forall (fun x => first_not (fun e => is_begin e = true \/ is_define e = true) (snd x)) t ->
  exists l, music_save new t = Ok l /\ tracks_of l = Ok (sort_by fst t).
Proof.
  intros NE KD KP PR ND BN FN.
  assert (D : (exists l, t = [(0, l)]) \/ forall l, t <> [(0, l)]).
  { destruct t as [|(k & l) [|y t]]; [congruence| |right; intros l' C; discriminate]. destruct (Z.eq_dec k 0) as [->|]; [left; eauto|right; intros l' C; injection C; congruence]. }
  destruct D as [(l & ->)|D].
  { inversion PR as [|? ? P _]; subst. inversion FN as [|? ? F _]; subst. cbn [snd] in *. destruct (proper_cons l P) as (n & e & r & EL). exists (ended new l). split; [subst l; reflexivity|].
    destruct (ended_cons new n e r) as (r' & ER & _); [rewrite <- EL; exact P|]. pose proof (proj2 (ended_proper new l P)) as TN. rewrite EL in *. rewrite ER in *. unfold tracks_of. change (get ((n, e) :: r') 0) with (Ok (n, e)). cbn [bind]. cbn in F.
    destruct e; try (rewrite TN; reflexivity). exfalso. apply F. right. reflexivity. }
  rewrite (save_general new t D). set (S := sort_by fst t). destruct (save_tracks (new + 1) S) as (b & c) eqn:ES. eexists. split; [reflexivity|].
  assert (PM : Permutation S t) by apply sort_perm. assert (SS : StronglySorted (fun a b => fst a < fst b) S) by (apply sort_strict; exact KD).
  assert (PRS : Forall (fun x => proper (snd x)) S) by (apply (Permutation_Forall (Permutation_sym PM)); exact PR).
  assert (FNS : Forall (fun x => first_not (fun e => is_begin e = true \/ is_define e = true) (snd x)) S) by (apply (Permutation_Forall (Permutation_sym PM)); exact FN).
  assert (KPS : Forall (fun x => 0 <= fst x) S) by (apply (Permutation_Forall (Permutation_sym PM)); exact KP).
  assert (PN : Permutation (names S) (names t)) by (unfold names; apply Permutation_flat_map; exact PM).
  assert (NDS : NoDup (names S)) by (apply (Permutation_NoDup (Permutation_sym PN)); exact ND).
  assert (BNS : Forall (fun n => n < new) (names S)) by (apply (Permutation_Forall (Permutation_sym PN)); exact BN).
  assert (KDS : NoDup (map fst S)) by (apply (Permutation_NoDup (Permutation_map fst (Permutation_sym PM))); exact KD).
  assert (K0 : inb 0 (sort_by (fun k => k) (map fst t)) = inb 0 (map fst S)).
  { destruct (inb 0 (map fst S)) eqn:E.
    - apply inb_iff. apply inb_iff in E. apply (Permutation_in _ (Permutation_sym (sort_perm _ _))). apply (Permutation_in _ (Permutation_map fst PM)). exact E.
    - destruct (inb 0 (sort_by (fun k => k) (map fst t))) eqn:E2; [|reflexivity]. apply inb_iff in E2. apply (Permutation_in _ (sort_perm _ _)) in E2. apply (Permutation_in _ (Permutation_map fst (Permutation_sym PM))) in E2. apply inb_iff in E2. congruence. }
  assert (NES : S <> []) by (intros C; rewrite C in PM; apply Permutation_nil in PM; contradiction).
  set (nums := sort_by (fun k => k) (map fst t)) in *. clearbody nums. clearbody S. clear t NE KD KP PR ND BN FN D PM PN. destruct S as [|(k & l) R]; [congruence|]. clear NES.
  unfold tracks_of. match goal with |- context [get (?h :: ?r) 0] => change (get (h :: r) 0) with (Ok h); change (skipn 1 (h :: r)) with r; set (HD := h) end.
  unfold HD at 1. cbn [bind]. cbv iota beta. rewrite K0.
  assert (FN1 : first_not (fun e => is_begin e = true) l). { inversion FNS as [|? ? F1 _]; subst. cbn [snd] in F1. destruct l as [|(n & e) l]; [exact I|]. cbn in *. tauto. }
  pose proof (contents_first _ _ _ _ ES PRS (k, l) R eq_refl FN1) as NB.
  inversion SS as [|? ? SS' FS]; subst. inversion KPS as [|? ? KP0 KPR]; subst. cbn [fst] in KP0. inversion PRS as [|? ? P0 PRR]; subst. cbn [snd] in P0.
  assert (RP : ~ In 0 (map fst R)). { intros I. apply in_map_iff in I as (x & E0 & I). rewrite Forall_forall in FS, KPR. specialize (FS x I). cbn [fst] in FS. lia. }
  destruct (Z.eq_dec k 0) as [->|NK].
  - cbn [map fst inb existsb]. change (inb 0 (0 :: map fst R)) with true. cbv iota.
    destruct (saved_first _ _ _ _ ES PRS 0 l R eq_refl) as (b' & c' & ES' & -> & ->). change (0 =? 0) with true in *. cbv iota in *.
    destruct (begins_ok _ NB R _ _ _ ES' PRR RP) as (B1 & B2 & B3). rewrite B1. cbn [bind]. cbv zeta.
    destruct (proper_cons l P0) as (n0 & e0 & r0 & EL). destruct (ended_cons (new + 1 + 1) n0 e0 r0) as (r0' & ER & NR); [rewrite <- EL; exact P0|].
    set (starts := map snd (heads R)).
    assert (HN : forall n, new <= n -> in_refs n starts = false).
    { intros n L. unfold starts. destruct (in_refs n (map snd (heads R))) eqn:E; [exfalso|reflexivity]. apply (in_heads R n PRR) in E as (x & e & r & IX & EX). rewrite Forall_forall in BNS. specialize (BNS n (names_in ((0, l) :: R) x n (or_intror IX) ltac:(rewrite EX; left; reflexivity))). lia. }
    assert (T0 : track_at (HD :: b' ++ ended (new + 1 + 1) l ++ c') starts (1 + zlen (heads R)) = ended (new + 1 + 1) l).
    { rewrite app_comm_cons. rewrite EL, ER. apply track_at_ok.
      - rewrite zlen_cons, B2. unfold heads. rewrite zlen_map. reflexivity.
      - rewrite Forall_forall. intros (q & f) Q. cbn [fst]. apply (in_map fst) in Q. cbn [fst] in Q. apply NR in Q as [Q| ->]; [|apply HN; lia].
        apply (tails_not_heads ((0, l) :: R) R PRR (fun x I => or_intror I) KDS NDS (0, l) (or_introl eq_refl) n0 e0 r0); [exact EL|exact Q].
      - destruct R as [|(k2 & l2) R2]; [left; cbn [save_tracks] in ES'; injection ES' as _ <-; reflexivity|right].
        destruct (saved_first _ _ _ _ ES' PRR k2 l2 R2 eq_refl) as (b'' & c'' & _ & EC2 & _). inversion PRR as [|? ? P2 _]; subst. cbn [snd] in P2. destruct (proper_cons l2 P2) as (n2 & e2 & r2 & EL2). subst l2. destruct (ended_cons (new + 1 + 2 + 1) n2 e2 r2 P2) as (r2' & ER2 & _).
        exists n2, e2, (r2' ++ c''). split; [rewrite ER2; reflexivity|]. unfold starts. apply in_heads; [exact PRR|]. exists (k2, (n2, e2) :: r2), e2, r2. split; [left; reflexivity|reflexivity]. }
    rewrite T0. rewrite (proj2 (ended_proper (new + 1 + 1) l P0)).
    change (HD :: b' ++ ended (new + 1 + 1) l ++ c') with ((HD :: b') ++ ended (new + 1 + 1) l ++ c'). rewrite app_assoc.
    pose proof NDS as NDS0. unfold names in NDS, BNS. cbn [flat_map snd] in NDS, BNS. apply nodup_app in NDS as (_ & NDR & DJ). apply Forall_app in BNS as (BN0 & BNR).
    rewrite (reload_tracks new starts HN R (new + 1 + 2) b' c' _ [(0, l)]); [reflexivity|lia|exact ES'|exact PRR|exact NDR|exact BNR| | | |].
    + intros n I. rewrite map_app, in_app_iff. intros [C|C].
      * rewrite Forall_forall in BNR. specialize (BNR n I). cbn [map] in C. destruct C as [C|C]; [unfold HD in C; cbn [fst] in C; lia|]. apply B3 in C. lia.
      * apply (ended_names _ _ _ P0) in C as [C|C]; [exact (DJ n C I)|]. rewrite Forall_forall in BNR. specialize (BNR n I). lia.
    + intros x IX n e r EX. split.
      * unfold starts. apply in_heads; [exact PRR|]. exists x, e, r. split; assumption.
      * intros q Q. apply (tails_not_heads ((0, l) :: R) R PRR (fun x I => or_intror I) KDS NDS0 x (or_intror IX) n e r EX q Q).
    + cbn [map] in KDS. apply NoDup_cons_iff in KDS as (_ & KDS). exact KDS.
    + intros q Q [<-|[]]. cbn [fst] in Q. contradiction.
  - assert (NZ : ~ In 0 (map fst ((k, l) :: R))) by (cbn [map fst In]; tauto).
    assert (I0 : inb 0 (map fst ((k, l) :: R)) = false) by (destruct (inb 0 (map fst ((k, l) :: R))) eqn:E; [apply inb_iff in E; contradiction|reflexivity]). rewrite I0.
    destruct (begins_ok _ NB _ _ _ _ ES PRS NZ) as (B1 & B2 & B3). rewrite B1. cbn [bind]. cbv zeta. set (starts := map snd (heads ((k, l) :: R))).
    assert (HN : forall n, new <= n -> in_refs n starts = false).
    { intros n L. unfold starts. destruct (in_refs n (map snd (heads ((k, l) :: R)))) eqn:E; [exfalso|reflexivity]. apply (in_heads _ n PRS) in E as (x & e & r & IX & EX). rewrite Forall_forall in BNS. specialize (BNS n (names_in ((k, l) :: R) x n IX ltac:(rewrite EX; left; reflexivity))). lia. }
    rewrite app_comm_cons. rewrite (reload_tracks new starts HN ((k, l) :: R) (new + 1) b c (HD :: b) []); [reflexivity|lia|exact ES|exact PRS|exact NDS|exact BNS| | |exact KDS|intros q Q []].
    + intros n I C. rewrite Forall_forall in BNS. specialize (BNS n I). cbn [map] in C. destruct C as [C|C]; [unfold HD in C; cbn [fst] in C; lia|]. apply B3 in C. lia.
    + intros x IX n e r EX. split.
      * unfold starts. apply in_heads; [exact PRS|]. exists x, e, r. split; assumption.
      * intros q Q. apply (tails_not_heads ((k, l) :: R) ((k, l) :: R) PRS (fun x I => I) KDS NDS x IX n e r EX q Q).
Qed.

(** ** The saved events *)
Lemma written_ended new l : proper l -> written l (ended new l).
Proof.
  intros (a & n & e & -> & NE). unfold written, ended. rewrite rev_app_distr. cbn [rev app]. assert (E : is_end e = false) by (destruct (is_end e) eqn:E; [apply is_end_iff in E; contradiction|reflexivity]). rewrite E. cbn [orb].
  destruct (is_jump e) eqn:J.
  - left. split; [|reflexivity]. destruct e; try discriminate J. exists a, n, destination. reflexivity.
  - right. split; [|exists new; reflexivity]. intros (a' & n' & d & H). apply app_inj_tail in H as (_ & H). injection H as _ ->. discriminate J.
Qed.
Lemma save_written S : forall new b c, save_tracks new S = (b, c) -> Forall (fun x => proper (snd x)) S ->
  map snd b = map opening (filter (fun x => negb (fst x =? 0)) S) /\ exists cs, c = concat cs /\ Forall2 (fun x c => written (snd x) c) S cs.
Proof.
  induction S as [|(k & l) S IH]; intros new b c H F.
  - cbn [save_tracks] in H. injection H as <- <-. split; [reflexivity|]. exists []. split; [reflexivity|constructor].
  - destruct (saved_first _ _ _ _ H F k l S eq_refl) as (b' & c' & H' & -> & ->). inversion F as [|? ? P F']; subst. cbn [snd] in P. destruct (IH _ _ _ H' F') as (B & cs & -> & FC). split.
    + cbn [filter fst]. destruct (k =? 0); cbn [negb map snd]; [exact B|]. rewrite B. reflexivity.
    + exists (ended (new + 1) l :: cs). split; [reflexivity|]. constructor; [apply written_ended; exact P|exact FC].
Qed.
Lemma sort_keys_strict (l : list Z) : NoDup l -> StronglySorted Z.lt (sort_by (fun k => k) l).
Proof.
  intros ND. pose proof (sort_sorted (fun k : Z => k) l) as S. assert (ND2 : NoDup (sort_by (fun k => k) l)) by (apply Permutation_NoDup with l; [symmetry; apply sort_perm|exact ND]).
  induction S as [|x r S IH F]; [constructor|]. apply NoDup_cons_iff in ND2 as (NI & ND2). constructor; [exact (IH ND2)|]. rewrite Forall_forall in *. intros y Y. specialize (F y Y). assert (x <> y) by (intros ->; contradiction). lia.
Qed.

(** ** collapseTrackIDs *)
Lemma filter_perm {A} (f : A -> bool) a b : Permutation a b -> Permutation (filter f a) (filter f b).
Proof.
  induction 1 as [|x a b P IH|x y a|a b c P1 I1 P2 I2]; [constructor| | |exact (perm_trans I1 I2)]; cbn [filter].
  - destruct (f x); [constructor; exact IH|exact IH].
  - destruct (f x), (f y); try reflexivity. apply perm_swap.
Qed.
Lemma firstn_in {A} n (l : list A) x : In x (firstn n l) -> In x l.
Proof. intros H. rewrite <- (firstn_skipn n l). apply in_app_iff. left. exact H. Qed.
Lemma skipn_in {A} n (l : list A) x : In x (skipn n l) -> In x l.
Proof. intros H. rewrite <- (firstn_skipn n l). apply in_app_iff. right. exact H. Qed.
Lemma enum_fst {A} (l : list A) : forall i, map fst (enumerate_from i l) = range_z i (length l).
Proof. induction l as [|x l IH]; intros i; [reflexivity|]. cbn [enumerate_from map fst length range_z]. rewrite IH. reflexivity. Qed.
Lemma enum_lookup {A} (l : list A) : forall i k x, nth_error l k = Some x -> lookup (i + Z.of_nat k) (enumerate_from i l) = Some x.
Proof.
  induction l as [|y l IH]; intros i k x H; [destruct k; discriminate|]. cbn [enumerate_from]. rewrite lookup_cons. destruct k as [|k].
  - cbn in H. injection H as ->. rewrite Z.add_0_r, Z.eqb_refl. reflexivity.
  - cbn [nth_error] in H. rewrite (proj2 (Z.eqb_neq i (i + Z.of_nat (S k)))) by lia. rewrite <- (IH (i + 1) k x H). f_equal. lia.
Qed.
Lemma collapse_lookup t k l : NoDup (map fst t) -> In (k, l) t -> lookup (zlen (filter (fun j => j <? k) (map fst t))) (collapse t) = Some l.
Proof.
  intros ND I. unfold collapse. set (S := sort_by fst t). assert (PM : Permutation S t) by apply sort_perm. pose proof (sort_strict t ND) as SS. fold S in SS.
  apply (Permutation_in _ (Permutation_sym PM)) in I. apply in_split in I as (A & B & E).
  assert (CL : zlen (filter (fun j => j <? k) (map fst t)) = zlen A).
  { unfold zlen. rewrite <- (Permutation_length (filter_perm (fun j => j <? k) _ _ (Permutation_map fst PM))). rewrite E, map_app. cbn [map fst]. rewrite filter_app. cbn [filter]. rewrite Z.ltb_irrefl.
    rewrite E in SS. assert (FA : filter (fun j => j <? k) (map fst A) = map fst A /\ filter (fun j => j <? k) (map fst B) = []).
    { clear -SS. induction A as [|x A IH]; cbn [app] in SS; inversion SS as [|? ? SS' F]; subst.
      - split; [reflexivity|]. clear -F. induction F as [|y B H F IH]; [reflexivity|]. cbn [map filter fst] in *. rewrite (proj2 (Z.ltb_ge (fst y) k)) by lia. exact IH.
      - destruct (IH SS') as (I1 & I2). split; [|exact I2]. cbn [map filter]. rewrite I1. rewrite Forall_forall in F. specialize (F (k, l) ltac:(apply in_app_iff; right; left; reflexivity)). cbn [fst] in F. rewrite (proj2 (Z.ltb_lt (fst x) k) F). reflexivity. }
    destruct FA as (-> & ->). rewrite app_nil_r, map_length. reflexivity. }
  rewrite CL. replace (zlen A) with (0 + Z.of_nat (length A)) by (unfold zlen; lia). apply enum_lookup. rewrite E, map_app. cbn [map snd]. rewrite nth_error_app2 by (rewrite map_length; lia). rewrite map_length, Nat.sub_diag. reflexivity.
Qed.

(** ** loop of all tracks *)
Lemma loop_names l new time cut append todo : forall i el md l' r, move_loop l new time cut append todo i el md = (l', r) -> forall n, In n (map fst l') -> In n (map fst l) \/ n = new.
Proof.
  induction todo as [|(k & e) todo IH]; intros i el md l' r H n; cbn [move_loop] in H.
  - destruct append; injection H as <- _; [rewrite map_app, in_app_iff; cbn [map fst In]; intuition congruence|tauto].
  - match type of H with context [if ?c then _ else _] => destruct c end; [injection H as <- _; tauto|].
    destruct (time <=? _); [|apply (IH _ _ _ _ _ H)].
    destruct e; try (injection H as <- _; tauto). destruct cut; [|injection H as <- _; tauto].
    injection H as <- _. unfold insert. rewrite map_app, in_app_iff. cbn [map fst In].
    assert (AS : map fst (assign k (Rest (time - el)) l) = map fst l) by (unfold assign; rewrite map_map; apply map_ext; intros (q & f); cbn [fst]; destruct (q =? k) eqn:Q; [apply Z.eqb_eq in Q; subst; reflexivity|reflexivity]).
    intros [C|[C|C]]; [|right; congruence|]; left; rewrite <- AS; apply in_map_iff in C as (x & <- & C); apply in_map; [eapply firstn_in|eapply skipn_in]; exact C.
Qed.
Lemma move_names l new start time m cut append l' r : moveInTime l new start time m cut append = Ok (l', r) -> forall n, In n (map fst l') -> In n (map fst l) \/ n = new.
Proof.
  unfold moveInTime. destruct (time <? 0); [discriminate|]. destruct (time =? 0); [intros H n; injection H as <- _; tauto|]. destruct (zlen l <? start); [discriminate|]. destruct (start <? - zlen l); [discriminate|].
  intros H. injection H as H. exact (loop_names _ _ _ _ _ _ _ _ _ _ _ H).
Qed.
Lemma track_loop_names l new s e c all l' : track_loop_all l new s e c = Ok (all, l') -> forall n, In n (map fst all) -> In n (map fst l) \/ new <= n < new + 3.
Proof.
  unfold track_loop_all. destruct (looped l); [discriminate|]. intros H.
  apply bind_ok in H as ((l1 & (i1 & t1) & m1) & H1 & H). apply bind_ok in H as (u & _ & H). apply bind_ok in H as ((l2 & (i2 & t2) & m2) & H2 & H). apply bind_ok in H as (u' & _ & H). apply bind_ok in H as ((tn & te) & _ & H).
  cbv zeta in H. match type of H with Ok (?a, _) = _ => assert (EA : a = all) by (injection H; auto) end. rewrite <- EA. clear H EA. intros n. unfold insert. rewrite map_app, in_app_iff. cbn [map fst In].
  assert (G : In n (map fst l2) -> In n (map fst l) \/ new <= n < new + 3). { intros I. apply (move_names _ _ _ _ _ _ _ _ _ H2) in I as [I|I]; [|right; lia]. apply (move_names _ _ _ _ _ _ _ _ _ H1) in I as [I|I]; [left; exact I|right; lia]. }
  intros [C|[C|C]]; [apply G|right; lia|apply G]; apply in_map_iff in C as (x & <- & C); apply in_map; [eapply firstn_in|eapply skipn_in]; exact C.
Qed.
Lemma refresh_other from to : (forall n, In n (map fst to) -> ~ In n (map fst from)) -> refresh from to = to.
Proof.
  intros H. unfold refresh. rewrite <- (map_id to) at 2. apply map_ext_in. intros (n & e) I. cbn [fst]. assert (N : lookup n from = None).
  { specialize (H n ltac:(apply in_map_iff; exists (n, e); split; [reflexivity|exact I])). clear -H. induction from as [|(k & f) from IH]; [reflexivity|]. rewrite lookup_cons. cbn [map fst In] in H. destruct (k =? n) eqn:E; [apply Z.eqb_eq in E; tauto|]. apply IH. tauto. }
  rewrite N. reflexivity.
Qed.
Lemma refresh_tracks from (A : tracks) : (forall n, In n (names A) -> ~ In n (map fst from)) -> map (fun t : Z * evs => (fst t, refresh from (snd t))) A = A.
Proof.
  intros H. rewrite <- (map_id A) at 2. apply map_ext_in. intros (k & l) I. cbn [fst snd]. rewrite refresh_other; [reflexivity|]. intros n IN. apply H. apply (names_in A (k, l) n I IN).
Qed.
Lemma keep_names all l' (l : evs) new s e c : track_loop_all l new s e c = Ok (all, l') -> forall n, In n (map fst l') -> In n (map fst all).
Proof.
  unfold track_loop_all. destruct (looped l); [discriminate|]. intros H.
  apply bind_ok in H as ((l1 & (i1 & t1) & m1) & H1 & H). apply bind_ok in H as (u & _ & H). apply bind_ok in H as ((l2 & (i2 & t2) & m2) & H2 & H). apply bind_ok in H as (u' & _ & H). apply bind_ok in H as ((tn & te) & _ & H).
  cbv zeta in H. match type of H with Ok (?a, ?b) = _ => assert (EA : a = all) by (injection H; auto); assert (EB : b = l') by (injection H; auto) end. rewrite <- EA, <- EB. clear H. destruct c; [|tauto].
  intros n I. apply in_map_iff in I as (x & <- & I). apply in_map. unfold slice_to, slice in I. apply firstn_in in I. apply skipn_in in I. exact I.
Qed.
(** tracks that share no event object are looped one by one *)
Lemma music_loop_each new s e c : forall B A, NoDup (names B) -> Forall (fun n => n < new) (names B) ->
  (forall n, In n (names A) -> ~ In n (names B) /\ n < new + 3 * zlen A) ->
  foldM (music_loop_one new s e c) (A ++ B) (range_z (zlen A) (length B)) =
  (B' <- mapM (fun p => l' <- track_loop (snd (snd p)) (new + 3 * fst p) s e c ;; Ok (fst (snd p), l')) (enumerate_from (zlen A) B) ;; Ok (A ++ B')).
Proof.
  induction B as [|(k & l) B IH]; intros A ND BN DA; [reflexivity|]. cbn [length range_z foldM enumerate_from mapM fst snd]. unfold music_loop_one at 1. rewrite get_mid by reflexivity. cbn [bind]. unfold track_loop at 1.
  destruct (track_loop_all l (new + 3 * zlen A) s e c) as [(all & l')|x] eqn:H; [|reflexivity]. cbn [bind].
  unfold names in ND, BN. cbn [flat_map snd] in ND, BN. apply nodup_app in ND as (NL & NDB & DJ). apply Forall_app in BN as (BL & BB). rewrite Forall_forall in BL, BB.
  pose proof (track_loop_names _ _ _ _ _ _ _ H) as TN. pose proof (zlen_nonneg A) as ZA.
  rewrite map_app. cbn [map fst snd]. rewrite (refresh_tracks all A), (refresh_tracks all B).
  - assert (SL : setl (A ++ (k, refresh all l) :: B) (zlen A) (k, l') = Ok (A ++ (k, l') :: B)).
    { unfold setl. rewrite (proj2 (Z.ltb_ge (zlen A) 0)) by lia. rewrite (proj2 (Z.ltb_ge (zlen A) 0)) by lia. rewrite zlen_app, zlen_cons. pose proof (zlen_nonneg B). rewrite (proj2 (Z.leb_gt (zlen A + (1 + zlen B)) (zlen A))) by lia. cbn [orb]. f_equal.
      replace (Z.to_nat (zlen A)) with (length A) by (unfold zlen; lia). apply upd_at. }
    rewrite SL. cbn [bind]. change ((k, l') :: B) with ([(k, l')] ++ B). rewrite app_assoc. replace (zlen A + 1) with (zlen (A ++ [(k, l')])) by (rewrite zlen_app; reflexivity). rewrite IH.
    + destruct (mapM _ (enumerate_from _ B)) as [B'|x]; [|reflexivity]. cbn [bind]. rewrite <- app_assoc. reflexivity.
    + exact NDB.
    + rewrite Forall_forall. exact BB.
    + intros n I. unfold names in I. rewrite flat_map_app, in_app_iff in I. cbn [flat_map snd] in I. rewrite app_nil_r in I. rewrite zlen_app. change (zlen [(k, l')]) with 1. destruct I as [I|I].
      * destruct (DA n I) as (D1 & D2). split; [|lia]. intros C. apply D1. unfold names. cbn [flat_map snd]. apply in_app_iff. right. exact C.
      * apply (keep_names _ _ _ _ _ _ _ H) in I. apply TN in I as [I|I]; [split; [exact (DJ n I)|specialize (BL n I); lia]|]. split; [|lia]. intros C. specialize (BB n C). lia.
  - intros n I C. apply TN in C as [C|C]; [exact (DJ n C I)|]. specialize (BB n I). lia.
  - intros n I C. destruct (DA n I) as (D1 & D2). apply TN in C as [C|C]; [|lia]. apply D1. unfold names. cbn [flat_map snd]. apply in_app_iff. left. exact C.
Qed.

(** * Minification keeps what is heard *)
From Coq Require Import Lia Sorting.Sorted Sorting.Permutation.
From Verif Require Import PyBase PyLemmas PyTac SeqModel SeqParse SeqSave SsarModel SbnkModel SbnkBank MusicModel MusicSpec MusicLemmas MusicEdit MusicTrack MusicSseq MinifyModel MinifySpec MinifyLemmas.

Lemma mapM_some {A B} (f : A -> res B) l : (forall x, In x l -> exists y, f x = Ok y) -> exists r, mapM f l = Ok r.
Proof.
  induction l as [|x l IH]; intros H; [eexists; reflexivity|]. destruct (H x (or_introl eq_refl)) as (y & E). destruct IH as (r & R); [intros z I; apply H; right; exact I|]. exists (y :: r). cbn [mapM]. rewrite E, R. reflexivity.
Qed.
(** ** Renumbered definitions *)
Lemma renumber_note_ok used d : In (wave_of d) used -> exists j d', renumber_note used d = Ok d' /\ nth_error used j = Some (wave_of d) /\ nWave d' = Z.of_nat j /\ timbre d' = timbre d.
Proof.
  intros I. destruct (index_by_ok wave_eqb wave_eqb_iff used (wave_of d) 0 I) as (j & E & N). exists j, (with_wave d (0 + Z.of_nat j)). unfold renumber_note. rewrite E. cbn [bind]. repeat split; auto.
Qed.
Lemma regions_renumbered used p d d' rs : forall rs', region_for rs p = Some d -> wave_in (wave_of d) used = true -> renumber_note used d = Ok d' ->
  mapM (fun r : Z * note => d <- renumber_note used (snd r) ;; Ok (fst r, d)) (filter (fun r => wave_in (wave_of (snd r)) used) rs) = Ok rs' -> region_for rs' p = Some d'.
Proof.
  induction rs as [|(e & x) rs IH]; intros rs' R K D M; [discriminate R|]. cbn [region_for filter snd] in *. destruct (Z.leb_spec p e).
  - injection R as ->. rewrite K in M. cbn [mapM snd fst] in M. rewrite D in M. cbn [bind] in M. apply bind_ok in M as (t & ET & M). injection M as <-. cbn [region_for]. rewrite (proj2 (Z.leb_le p e)) by lia. reflexivity.
  - destruct (wave_in (wave_of x) used); [|apply IH; assumption]. cbn [mapM snd fst] in M. apply bind_ok in M as (t & ET & M). apply bind_ok in ET as (x' & EX & ET). injection ET as <-. apply bind_ok in M as (t' & ET' & M). injection M as <-. cbn [region_for]. rewrite (proj2 (Z.leb_gt p e)) by lia. apply IH; assumption.
Qed.
Lemma open_last_for rs p d : p <= 127 -> region_for rs p = Some d -> region_for (open_last rs) p = Some d.
Proof.
  intros P. induction rs as [|(e & x) rs IH]; [discriminate|]. cbn [region_for]. destruct rs as [|r rs].
  - cbn [region_for open_last]. rewrite (proj2 (Z.leb_le p 127)) by lia. destruct (p <=? e); [auto|discriminate].
  - cbn [open_last]. cbn [region_for]. destruct (p <=? e); [auto|apply IH].
Qed.
Lemma body_renumbered used b b' p d d' : renumber_body used b = Ok b' -> p <= 127 -> definition_for b p = Some d -> wave_in (wave_of d) used = true -> renumber_note used d = Ok d' -> definition_for b' p = Some d'.
Proof.
  intros H P D K R. destruct b as [x|f ns|rs]; cbn [renumber_body definition_for] in *.
  - injection D as ->. rewrite R in H. injection H as <-. reflexivity.
  - apply bind_ok in H as (d0 & E0 & H). apply bind_ok in H as (dummy & E1 & H). apply bind_ok in H as (ns' & E2 & H). injection H as <-. cbn [definition_for]. destruct (p <? f); [discriminate D|]. destruct (mapM_ok_nth _ _ _ _ _ E2 D) as (y & -> & F). rewrite K in F. congruence.
  - apply bind_ok in H as (rs' & E & H). injection H as <-. cbn [definition_for]. apply open_last_for; [exact P|]. exact (regions_renumbered used p d d' rs rs' D K R E).
Qed.
Lemma body_silent used b b' p : renumber_body used b = Ok b' -> (forall rs, b = Regional rs -> rs = [] \/ region_for rs 127 <> None) -> p <= 127 -> definition_for b p = None -> definition_for b' p = None.
Proof.
  intros H Q P D. destruct b as [x|f ns|rs]; cbn [renumber_body definition_for] in *; [discriminate D| |].
  - apply bind_ok in H as (d0 & E0 & H). apply bind_ok in H as (dummy & E1 & H). apply bind_ok in H as (ns' & E2 & H). injection H as <-. cbn [definition_for]. destruct (p <? f); [reflexivity|]. apply nth_error_None. rewrite (mapM_ok_length _ _ _ E2). apply nth_error_None. exact D.
  - apply bind_ok in H as (rs' & E & H). injection H as <-. destruct (Q rs eq_refl) as [->|N]; [cbn in E; injection E as <-; reflexivity|]. exfalso. apply N. clear -D P. induction rs as [|(e & x) rs IH]; [reflexivity|]. cbn [region_for] in *. destruct (Z.leb_spec p e); [discriminate D|]. rewrite (proj2 (Z.leb_gt 127 e)); [apply IH; exact D|lia].
Qed.
Lemma body_total used b : (forall first, b <> Ranged first []) -> (forall d, b = Single d -> In (wave_of d) used) -> exists b', renumber_body used b = Ok b'.
Proof.
  intros NE SI. assert (R : forall d, wave_in (wave_of d) used = true -> exists d', renumber_note used d = Ok d').
  { intros d I. apply wave_in_iff in I. destruct (renumber_note_ok used d I) as (_ & d' & E & _). eauto. }
  destruct b as [d|f ns|rs]; cbn [renumber_body].
  - destruct (R d) as (d' & ->); [apply wave_in_iff, SI; reflexivity|]. eexists. reflexivity.
  - destruct ns as [|d0 ns]; [destruct (NE f eq_refl)|]. change (get (d0 :: ns) 0) with (Ok d0). cbn [bind].
    assert (D : exists dummy, (if wave_in (wave_of d0) used then renumber_note used d0 else Ok d0) = Ok dummy) by (destruct (wave_in (wave_of d0) used) eqn:E; [apply R; exact E|eauto]). destruct D as (dummy & ->). cbn [bind].
    destruct (mapM_some (fun d => if wave_in (wave_of d) used then renumber_note used d else Ok dummy) (d0 :: ns)) as (r & ->); [|eexists; reflexivity].
    intros d _. destruct (wave_in (wave_of d) used) eqn:E; [apply R; exact E|eauto].
  - destruct (mapM_some (fun r : Z * note => d <- renumber_note used (snd r) ;; Ok (fst r, d)) (filter (fun r => wave_in (wave_of (snd r)) used) rs)) as (r & ->); [|eexists; reflexivity].
    intros x I. apply filter_In in I as (_ & I). destruct (R _ I) as (d' & ->). eexists. reflexivity.
Qed.

(** ** The whole function *)
Section Main.
Context {W : Type} (l : evs) (b : sbnk) (swars : list (list W)).
Hypothesis (ND : NoDup (map fst l)) (CO : complete l (bInsts b) swars) (PI : pitched l).
Let used := sort_by (fun x : Z => x) (map fst (playedNotes l)).
Let insts := map (fun i => nth (Z.to_nat i) (bInsts b) None) used.
Let perInst := map (pitches l) used.
Let waves := used_waves insts perInst.
Lemma used_iff i : In i used <-> switched l i.
Proof. unfold used. rewrite <- (proj2 (played_keys l)). split; apply Permutation_in; [|apply Permutation_sym]; apply sort_perm. Qed.
Lemma used_sorted : StronglySorted Z.lt used.
Proof. apply sort_keys_strict, played_keys. Qed.
Lemma insts_ok : mapM (get (bInsts b)) used = Ok insts.
Proof.
  apply mapM_map. intros i I. apply used_iff in I. destruct (proj1 CO i I) as (R & _). destruct (get_some (bInsts b) i R) as (x & -> & N). f_equal. symmetry. apply nth_error_nth. exact N.
Qed.
Lemma pitches_range i p : In p (pitches l i) -> 0 <= p <= 127.
Proof. intros I. apply pitches_iff in I as (a & n & v & u & d & c & E & _). apply (PI n p v u d). rewrite E. apply in_app_iff. right. left. reflexivity. Qed.
Lemma instrument_nth i x : switched l i -> (nth (Z.to_nat i) (bInsts b) None = Some x -> instrument (bInsts b) i = Some (iBody x)).
Proof.
  intros S E. destruct (proj1 CO i S) as (R & _). unfold instrument. rewrite (proj2 (Z.ltb_ge i 0)) by lia. destruct (nth_error (bInsts b) (Z.to_nat i)) as [y|] eqn:N.
  - rewrite (nth_error_nth _ _ _ N) in E. subst y. reflexivity.
  - apply nth_error_None in N. unfold zlen in R. lia.
Qed.
Lemma combine_map {A B C} (f : A -> B) (g : A -> C) (k : list A) : combine (map f k) (map g k) = map (fun x => (f x, g x)) k.
Proof. induction k as [|x k IH]; [reflexivity|]. cbn [map combine]. rewrite IH. reflexivity. Qed.
Lemma waves_iff w : In w waves <-> exists d, wanted l (bInsts b) d /\ w = wave_of d.
Proof.
  unfold waves, used_waves. transitivity (In w (fold_left inst_waves (combine insts perInst) [])). { split; apply Permutation_in; [|apply Permutation_sym]; apply sort_perm. }
  unfold insts, perInst. rewrite combine_map, used_waves_iff.
  2:{ intros x ns p I J. apply in_map_iff in I as (i & E & _). injection E as _ <-. apply pitches_range in J. lia. }
  split.
  - intros [[]|(x & ns & I & B)]. apply in_map_iff in I as (i & E & I). injection E as E <-. apply used_iff in I. pose proof (instrument_nth i x I E) as J. destruct B as [(d & B & ->)|(p & d & P & D & ->)].
    + exists d. split; [|reflexivity]. exists i, (iBody x). split; [exact I|]. split; [exact J|]. left. exact B.
    + exists d. split; [|reflexivity]. exists i, (iBody x). split; [exact I|]. split; [exact J|]. right. exists p. split; [apply pitches_iff; exact P|exact D].
  - intros (d & (i & c & S & J & B) & ->). right. unfold instrument in J. destruct (i <? 0); [discriminate J|]. destruct (nth_error (bInsts b) (Z.to_nat i)) as [[x|]|] eqn:N; try discriminate J. injection J as J.
    exists x, (pitches l i). split; [apply in_map_iff; exists i; split; [rewrite (nth_error_nth _ _ _ N); reflexivity|apply used_iff; exact S]|]. rewrite J. destruct B as [->|(p & P & D)]; [left; eauto|right; exists p, d; split; [apply pitches_iff; exact P|auto]].
Qed.
Lemma waves_nodup : NoDup waves.
Proof. unfold waves, used_waves. apply (Permutation_NoDup (Permutation_sym (sort_perm _ _))). apply used_waves_nodup. constructor. Qed.

(** the new number of an instrument *)
Definition renumbered (i : Z) : Z := match index_by Z.eqb used i 0 with Ok j => j | Err _ => 0 end.
Lemma renumbered_nth i : switched l i -> index_by Z.eqb used i 0 = Ok (renumbered i) /\ 0 <= renumbered i /\ nth_error used (Z.to_nat (renumbered i)) = Some i.
Proof.
  intros S. apply used_iff in S. destruct (index_by_ok Z.eqb Z.eqb_eq used i 0 S) as (j & E & N). unfold renumbered. rewrite E. split; [reflexivity|]. split; [lia|]. rewrite Nat2Z.id || replace (Z.to_nat (0 + Z.of_nat j)) with j by lia. exact N.
Qed.
Definition renamed (p : Z * ev) : Z * ev := match p with (n, Instr c i) => (n, Instr c (renumbered i)) | _ => p end.
Lemma events_ok : renumber_events used l = Ok (map renamed l).
Proof.
  unfold renumber_events. pose proof (each_object (fun l n => match lookup n l with Some (Instr b i) => j <- index_by Z.eqb used i 0 ;; Ok (assign n (Instr b j) l) | _ => Ok l end)
    (fun e => match e with Instr b i => j <- index_by Z.eqb used i 0 ;; Ok (Instr b j) | _ => Ok e end)) as H.
  specialize (H ltac:(intros a n e c NA NB; cbv beta; rewrite (lookup_at a n e c NA); destruct e; try reflexivity; destruct (index_by _ _ _ _); [cbn [bind]; rewrite assign_at by assumption; reflexivity|reflexivity]) l [] ND). cbn [app] in H. rewrite H. clear H.
  cbn [app]. rewrite (mapM_map _ renamed); [reflexivity|]. intros (n & e) I. cbn [fst snd]. destruct e; try reflexivity. destruct (renumbered_nth instrumentID) as (-> & _); [exists n, bankID; exact I|]. reflexivity.
Qed.

(** the waves kept *)
Lemma keep_ok : exists swars', keep_waves waves swars = Ok swars' /\ length swars' = length swars /\
  forall k ws ws', nth_error swars k = Some ws -> nth_error swars' k = Some ws' -> Forall2 (fun w x => nth_error ws (Z.to_nat (snd w)) = Some x) (filter (fun w => Z.of_nat k =? fst w) waves) ws'.
Proof.
  unfold keep_waves. assert (R : forall k ws, nth_error swars k = Some ws -> forall w, In w (filter (fun w => Z.of_nat k =? fst w) waves) -> exists x, get ws (snd w) = Ok x /\ nth_error ws (Z.to_nat (snd w)) = Some x).
  { intros k ws N w I. apply filter_In in I as (I & E). apply Z.eqb_eq in E. apply waves_iff in I as (d & D & ->). cbn [wave_of fst snd] in *. destruct (proj2 CO d D) as (A & B & C). apply get_some. split; [exact B|]. apply C. rewrite <- E, Nat2Z.id. exact N. }
  destruct (mapM_some (fun p : Z * list W => mapM (fun w => get (snd p) (snd w)) (filter (fun w => fst p =? fst w) waves)) (enumerate_from 0 swars)) as (s' & E).
  - intros (k & ws) I. apply in_enumerate in I as (K & N). apply mapM_some. intros w J. cbn [fst snd] in *. replace k with (Z.of_nat (Z.to_nat (k - 0))) in J by lia. destruct (R _ _ N w J) as (x & H & _). eauto.
  - exists s'. split; [exact E|]. assert (L : length (enumerate_from 0 swars) = length swars) by (generalize 0; clear; induction swars as [|x s IH]; intros i; [reflexivity|]; cbn [enumerate_from length]; rewrite IH; reflexivity).
    split; [rewrite (mapM_ok_length _ _ _ E); exact L|]. intros k ws ws' N N'.
    assert (NE : nth_error (enumerate_from 0 swars) k = Some (Z.of_nat k, ws)).
    { clear -N. change (Z.of_nat k) with (0 + Z.of_nat k). revert k N. generalize 0. induction swars as [|x s IH]; intros i k N; [destruct k; discriminate N|]. destruct k as [|k]; cbn [enumerate_from nth_error] in *; [injection N as ->; f_equal; f_equal; lia|]. rewrite (IH (i + 1) k N). f_equal. f_equal. lia. }
    destruct (mapM_ok_nth _ _ _ _ _ E NE) as (y & Y1 & Y2). rewrite N' in Y1. injection Y1 as <-. cbn [fst snd] in Y2. apply mapM_Forall2 in Y2.
    assert (R' := R k ws N). clear -Y2 R'. induction Y2 as [|w x f r Q Y IH]; constructor; [|apply IH; intros v I; apply R'; right; exact I]. destruct (R' w (or_introl eq_refl)) as (z & G & H). congruence.
Qed.
Lemma insts_total : exists insts', mapM (renumber_inst waves) insts = Ok insts'.
Proof.
  apply mapM_some. intros x I. unfold insts in I. apply in_map_iff in I as (i & E & I). apply used_iff in I. destruct x as [x|]; [|eexists; reflexivity]. pose proof (instrument_nth i x I E) as J.
  destruct (body_total waves (iBody x)) as (b' & B).
  - intros f F. destruct (proj1 CO i I) as (_ & Q). apply (Q f). rewrite J, F. reflexivity.
  - intros d F. apply waves_iff. exists d. split; [|reflexivity]. exists i, (iBody x). split; [exact I|]. split; [exact J|]. left. exact F.
  - cbn [renumber_inst]. rewrite B. eexists. reflexivity.
Qed.
Lemma insts_at insts' i : mapM (renumber_inst waves) insts = Ok insts' -> switched l i -> match instrument (bInsts b) i with Some c => exists c', instrument insts' (renumbered i) = Some c' /\ renumber_body waves c = Ok c' | None => instrument insts' (renumbered i) = None end.
Proof.
  intros M S. destruct (renumbered_nth i S) as (_ & P & N). destruct (proj1 CO i S) as (R & _).
  assert (NI : nth_error insts (Z.to_nat (renumbered i)) = Some (nth (Z.to_nat i) (bInsts b) None)) by (unfold insts; apply (map_nth_error (fun i => nth (Z.to_nat i) (bInsts b) None)) in N; exact N).
  destruct (mapM_ok_nth _ _ _ _ _ M NI) as (y & Y & Q). unfold instrument. rewrite (proj2 (Z.ltb_ge i 0)), (proj2 (Z.ltb_ge (renumbered i) 0)), Y by lia.
  destruct (nth_error (bInsts b) (Z.to_nat i)) as [x|] eqn:NX; [|apply nth_error_None in NX; unfold zlen in R; lia]. rewrite (nth_error_nth _ _ _ NX) in Q.
  destruct x as [x|]; cbn [renumber_inst] in Q; [|injection Q as <-; reflexivity]. apply bind_ok in Q as (c & C & Q). injection Q as <-. exists c. split; [reflexivity|exact C].
Qed.
Lemma minify_ok : exists swars' insts', minifyByEvents l b (Some swars) = Ok (map renamed l, {| bInsts := insts'; bInacc := []; bUnk := bUnk b; bWars := bWars b |}, swars') /\
  keep_waves waves swars = Ok swars' /\ mapM (renumber_inst waves) insts = Ok insts'.
Proof.
  destruct keep_ok as (s' & K & _). destruct insts_total as (i' & I). exists s', i'. split; [|auto]. unfold minifyByEvents. fold used. rewrite insts_ok. cbn [bind]. rewrite events_ok. cbn [bind]. change (map (fun i => match lookup i (playedNotes l) with Some ps => ps | None => [] end) used) with perInst. fold waves. rewrite K. cbn [bind]. rewrite I. reflexivity.
Qed.
End Main.

(** ** Several tracks *)
Lemma names_concat (t : tracks) : names t = map fst (concat (map snd t)).
Proof. unfold names. induction t as [|x t IH]; [reflexivity|]. cbn [map concat flat_map]. rewrite map_app, <- IH. reflexivity. Qed.
Lemma lookup_map (g : Z * ev -> Z * ev) l p : (forall q, fst (g q) = fst q) -> NoDup (map fst l) -> In p l -> lookup (fst p) (map g l) = Some (snd (g p)).
Proof.
  intros G. induction l as [|q l IH]; intros ND I; [destruct I|]. cbn [map]. rewrite (surjective_pairing (g q)), lookup_cons, G. cbn [map] in ND. inversion ND as [|? ? NI ND2]; subst. destruct I as [->|I]; [rewrite Z.eqb_refl; reflexivity|].
  destruct (Z.eqb_spec (fst q) (fst p)) as [E|E]; [|apply IH; assumption]. exfalso. apply NI. rewrite E. apply in_map. exact I.
Qed.
Lemma refresh_map (g : Z * ev -> Z * ev) l s : (forall q, fst (g q) = fst q) -> NoDup (map fst l) -> (forall p, In p s -> In p l) -> refresh (map g l) s = map g s.
Proof.
  intros G ND SUB. unfold refresh. apply map_ext_in. intros p I. rewrite (lookup_map g l p G ND (SUB p I)). rewrite <- (G p). symmetry. apply surjective_pairing.
Qed.

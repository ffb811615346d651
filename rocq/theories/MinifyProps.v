(** * C69: minification *)
From Coq Require Import Lia Sorting.Sorted Sorting.Permutation.
From Verif Require Import PyBase PyLemmas PyTac SeqModel SeqParse SbnkModel SbnkBank MusicModel MusicSpec MusicSseq MinifyModel MinifySpec MinifyLemmas MinifyMain.

(** If all waves wanted are in one archive, minification succeeds, changes only the
    numbers in the instrument switches, and every note that is heard sounds as
    before. *)
Theorem C69_sound : forall (W : Type) (l : evs) (b : sbnk) (swars : list (list W)) k, NoDup (map fst l) -> pitched l -> complete l (bInsts b) swars -> (forall d, wanted l (bInsts b) d -> nArch d = k) ->
  exists f b' swars', minifyByEvents l b (Some swars) = Ok (map (fun p => match p with (n, Instr c i) => (n, Instr c (f i)) | _ => p end) l, b', swars') /\
  (forall i p h, plays l i p -> heard (bInsts b) swars i p = Some h -> heard (bInsts b') swars' (f i) p = Some h) /\
  (forall i p, plays l i p -> heard (bInsts b) swars i p = None -> (forall rs, instrument (bInsts b) i = Some (Regional rs) -> rs = [] \/ region_for rs 127 <> None) -> heard (bInsts b') swars' (f i) p = None).
Proof.
  intros W l b swars k ND PI CO ONE. destruct (minify_ok l b swars ND CO PI) as (swars' & insts' & M & KW & MI). exists (renumbered l), {| bInsts := insts'; bInacc := []; bUnk := bUnk b; bWars := bWars b |}, swars'. split; [exact M|].
  assert (AT : forall i p, plays l i p -> 0 <= p <= 127 /\ switched l i). { intros i p P. split; [apply (pitches_range l PI i p), pitches_iff; exact P|exact (plays_switched l i p P)]. }
  cbn [bInsts]. split.
  - intros i p h P H. destruct (AT i p P) as (RP & S). pose proof (insts_at l b swars CO insts' i MI S) as IA. unfold heard in *. destruct (instrument (bInsts b) i) as [c|] eqn:EI; [|discriminate H]. destruct IA as (c' & -> & RB).
    destruct (definition_for c p) as [d|] eqn:D; [|discriminate H]. injection H as <-.
    assert (WD : wanted l (bInsts b) d) by (exists i, c; split; [exact S|]; split; [exact EI|]; right; exists p; auto).
    set (waves := used_waves _ _) in RB.
    assert (IW : In (wave_of d) waves) by (apply (waves_iff l b swars CO PI); eauto).
    destruct (renumber_note_ok waves d IW) as (j & d' & RN & NW & WV & TI). rewrite (body_renumbered _ _ _ _ _ _ RB (proj2 RP) D (proj2 (wave_in_iff _ _) IW) RN). f_equal. rewrite TI. f_equal.
    unfold recording. assert (AR : nArch d' = nArch d) by (unfold timbre in TI; congruence). rewrite AR.
    destruct (keep_ok l b swars CO PI) as (s2 & K2 & LS & KE). rewrite K2 in KW. injection KW as ->.
    destruct (nth_error swars (Z.to_nat (nArch d))) as [ws|] eqn:EW.
    + destruct (nth_error swars' (Z.to_nat (nArch d))) as [ws'|] eqn:EW'; [|apply nth_error_None in EW'; assert (Q : (Z.to_nat (nArch d) < length swars)%nat) by (apply nth_error_Some; congruence); lia].
      pose proof (KE _ _ _ EW EW') as F2. fold waves in F2. destruct (proj2 CO d WD) as (A0 & _). rewrite Z2Nat.id in F2 by exact A0.
      assert (FL : forall ms, (forall w, In w ms -> fst w = nArch d) -> filter (fun w : wave => nArch d =? fst w) ms = ms).
      { induction ms as [|w ms IH]; intros Q; [reflexivity|]. cbn [filter]. rewrite (Q w (or_introl eq_refl)), Z.eqb_refl. f_equal. apply IH. intros v I. apply Q. right. exact I. }
      rewrite FL in F2. 2:{ intros w I. apply (waves_iff l b swars CO PI) in I as (d2 & D2 & ->). cbn [wave_of fst]. rewrite (ONE d2 D2), (ONE d WD). reflexivity. }
      rewrite WV, Nat2Z.id. clear -F2 NW. revert j NW. induction F2 as [|w x ms r Q F IH]; intros j NW; [destruct j; discriminate NW|]. destruct j as [|j]; cbn [nth_error] in *; [|apply IH; exact NW]. injection NW as ->. cbn [wave_of snd] in Q. congruence.
    + destruct (nth_error swars' (Z.to_nat (nArch d))) eqn:EW'; [|reflexivity]. exfalso. apply nth_error_None in EW. assert (Q : (Z.to_nat (nArch d) < length swars')%nat) by (apply nth_error_Some; congruence). lia.
  - intros i p P H RG. destruct (AT i p P) as (RP & S). pose proof (insts_at l b swars CO insts' i MI S) as IA. unfold heard in *. destruct (instrument (bInsts b) i) as [c|] eqn:EI; [|rewrite IA; reflexivity]. destruct IA as (c' & -> & RB).
    destruct (definition_for c p) as [d|] eqn:D; [discriminate H|]. rewrite (body_silent _ _ _ _ RB); [reflexivity| |lia|exact D]. intros rs ->. apply RG. reflexivity.
Qed.
Print Assumptions C69_sound.
(** Only the instruments switched to are kept, in their order, and the numbers are
    given without gaps; each is of the kind it was and keeps its place in the file and its
    merge ID; inaccessible instruments are removed. *)
Definition same_slot (x y : option inst) : Prop :=
  match x, y with
  | None, None => True
  | Some x, Some y => iKey y = iKey x /\ iMerge y = iMerge x /\ body_type (iBody y) = body_type (iBody x)
  | _, _ => False
  end.
Theorem C69_instruments : forall (W : Type) (l : evs) (b : sbnk) (swars : list (list W)), NoDup (map fst l) -> pitched l -> complete l (bInsts b) swars ->
  exists f used b' swars', minifyByEvents l b (Some swars) = Ok (map (fun p => match p with (n, Instr c i) => (n, Instr c (f i)) | _ => p end) l, b', swars') /\
  StronglySorted Z.lt used /\ (forall i, In i used <-> switched l i) /\ zlen (bInsts b') = zlen used /\
  (forall i, switched l i -> 0 <= f i /\ nth_error used (Z.to_nat (f i)) = Some i) /\
  Forall2 (fun i y => exists x, nth_error (bInsts b) (Z.to_nat i) = Some x /\ same_slot x y) used (bInsts b') /\
  bInacc b' = [] /\ bUnk b' = bUnk b /\ bWars b' = bWars b.
Proof.
  intros W l b swars ND PI CO. destruct (minify_ok l b swars ND CO PI) as (swars' & insts' & M & KW & MI). exists (renumbered l), (sort_by (fun x : Z => x) (map fst (playedNotes l))). eexists. exists swars'. split; [exact M|].
  split; [apply used_sorted|]. split; [apply used_iff|]. split. { cbn [bInsts]. unfold zlen. rewrite (mapM_ok_length _ _ _ MI), map_length. reflexivity. }
  split; [intros i S; destruct (renumbered_nth l i S) as (_ & H); exact H|]. split; [|repeat split].
  cbn [bInsts]. clear M KW. pose proof (used_iff l) as UI. apply mapM_Forall2 in MI. revert MI. set (waves := used_waves _ _). clearbody waves. revert UI insts'.
  set (used := sort_by _ _). intros UI. assert (SU : forall i, In i used -> switched l i) by (intros i; apply UI). clear UI. clearbody used. induction used as [|i us IH]; intros insts' MI; inversion MI as [|x y xs ys Q F]; subst; constructor.
  - destruct (proj1 CO i (SU i (or_introl eq_refl))) as (R & _). destruct (nth_error (bInsts b) (Z.to_nat i)) as [x|] eqn:NX; [|apply nth_error_None in NX; unfold zlen in R; lia]. exists x. split; [reflexivity|]. rewrite (nth_error_nth _ _ _ NX) in Q.
    destruct x as [x|]; cbn [renumber_inst] in Q; [|injection Q as <-; exact Logic.I]. apply bind_ok in Q as (c & C & Q). injection Q as <-. cbn [same_slot iKey iMerge iBody]. split; [reflexivity|]. split; [reflexivity|].
    destruct (iBody x); cbn [renumber_body] in C; repeat (apply bind_ok in C as (? & ? & C)); injection C as <-; try reflexivity.
    match goal with H : renumber_note _ _ = Ok _ |- _ => unfold renumber_note in H; apply bind_ok in H as (? & _ & H); injection H as <- end. reflexivity.
  - apply IH; [intros j J; apply SU; right; exact J|exact F].
Qed.
Print Assumptions C69_instruments.
(** Each archive keeps exactly the waves that are wanted, once each and in order.
    (For any number of archives.) *)
Theorem C69_waves : forall (W : Type) (l : evs) (b : sbnk) (swars : list (list W)), NoDup (map fst l) -> pitched l -> complete l (bInsts b) swars ->
  exists l' b' swars', minifyByEvents l b (Some swars) = Ok (l', b', swars') /\ length swars' = length swars /\
  forall k ws ws', nth_error swars k = Some ws -> nth_error swars' k = Some ws' ->
  exists numbers, StronglySorted Z.lt numbers /\ (forall w, In w numbers <-> exists d, wanted l (bInsts b) d /\ nArch d = Z.of_nat k /\ nWave d = w) /\ Forall2 (fun w x => nth_error ws (Z.to_nat w) = Some x) numbers ws'.
Proof.
  intros W l b swars ND PI CO. destruct (minify_ok l b swars ND CO PI) as (swars' & insts' & M & KW & MI). do 3 eexists. split; [exact M|].
  destruct (keep_ok l b swars CO PI) as (s2 & K2 & LS & KE). rewrite K2 in KW. injection KW as ->. split; [exact LS|]. intros k ws ws' N N'. pose proof (KE k ws ws' N N') as F.
  set (waves := used_waves _ _) in F. assert (WI : forall w, In w waves <-> exists d, wanted l (bInsts b) d /\ w = wave_of d) by (intros w; apply (waves_iff l b swars CO PI)).
  assert (NDW : NoDup waves) by apply waves_nodup.
  assert (SO : StronglySorted (fun a c : wave => fst a * 99999999 + snd a <= fst c * 99999999 + snd c) waves) by apply sort_sorted.
  exists (map snd (filter (fun w => Z.of_nat k =? fst w) waves)). split.
  - clear F. induction SO as [|w ms S IH G]; [constructor|]. inversion NDW as [|? ? NI ND2]; subst. cbn [filter].
    assert (IH2 : StronglySorted Z.lt (map snd (filter (fun w => Z.of_nat k =? fst w) ms))).
    { clear -ND2 S. induction S as [|v ms S IH G]; [constructor|]. inversion ND2 as [|? ? NI ND3]; subst. cbn [filter]. destruct (Z.eqb_spec (Z.of_nat k) (fst v)) as [E|E]; [|apply IH; assumption]. cbn [map]. constructor; [apply IH; assumption|].
      apply Forall_forall. intros x I. apply in_map_iff in I as (u & <- & I). apply filter_In in I as (I & EU). apply Z.eqb_eq in EU. rewrite Forall_forall in G. specialize (G u I). destruct (Z.eq_dec (snd u) (snd v)) as [Q|Q]; [|lia]. exfalso. apply NI. replace v with u; [exact I|]. destruct u, v; cbn [fst snd] in *; congruence. }
    destruct (Z.eqb_spec (Z.of_nat k) (fst w)) as [E|E]; [|exact IH2]. cbn [map]. constructor; [exact IH2|].
    apply Forall_forall. intros x I. apply in_map_iff in I as (u & <- & I). apply filter_In in I as (I & EU). apply Z.eqb_eq in EU. rewrite Forall_forall in G. specialize (G u I). destruct (Z.eq_dec (snd u) (snd w)) as [Q|Q]; [|lia]. exfalso. apply NI. replace w with u; [exact I|]. destruct u, w; cbn [fst snd] in *; congruence.
  - split.
    + intros w. rewrite in_map_iff. split.
      * intros (u & <- & I). apply filter_In in I as (I & E). apply Z.eqb_eq in E. apply WI in I as (d & D & ->). exists d. cbn [wave_of fst snd] in *. auto.
      * intros (d & D & A & <-). exists (wave_of d). split; [reflexivity|]. apply filter_In. split; [apply WI; eauto|]. cbn [wave_of fst]. apply Z.eqb_eq. auto.
    + clear -F. induction F as [|w x ms r Q F IH]; constructor; assumption.
Qed.
Print Assumptions C69_waves.
(** the tracks of a music object are minified together, as one event list *)
Theorem C69_tracks : forall (W : Type) (t : tracks) (b : sbnk) (swars : list (list W)) l' b' swars', NoDup (names t) -> pitched (concat (map snd t)) -> complete (concat (map snd t)) (bInsts b) swars ->
  minifyByEvents (concat (map snd t)) b (Some swars) = Ok (l', b', swars') ->
  exists t', music_minify t (Some b) (Some swars) = Ok (t', Some b', Some swars') /\ map fst t' = map fst t /\ concat (map snd t') = l' /\ map (fun x => zlen (snd x)) t' = map (fun x => zlen (snd x)) t.
Proof.
  intros W t b swars l' b' swars' ND PI CO M. unfold music_minify, minifyTracks. rewrite M. cbn [bind]. eexists. split; [reflexivity|]. rewrite !map_map. split; [reflexivity|].
  rewrite names_concat in ND. destruct (minify_ok _ b swars ND CO PI) as (s2 & i2 & M2 & _). rewrite M in M2. injection M2 as -> _ _. cbn [fst snd]. split.
  - set (g := renamed _). transitivity (concat (map (map g) (map snd t))); [|symmetry; apply concat_map]. rewrite map_map. f_equal. apply map_ext_in. intros x I. apply refresh_map; [intros (n & e); destruct e; reflexivity|exact ND|]. intros p J. apply in_concat. exists (snd x). split; [apply in_map; exact I|exact J].
  - apply map_ext. intros x. unfold refresh, zlen. rewrite map_length. reflexivity.
Qed.
Print Assumptions C69_tracks.

(** Two instruments of three are used, over four waves; the second is a range with
    an unused note and the third has an unused region. *)
Definition ex_def (a w t : Z) : note := {| nWave := w; nArch := a; nPitch := 60; nAttack := 127; nDecay := 127; nSustain := 127; nRelease := 127; nPan := 64; nType := t |}.
Definition ex_inst (b : ibody) : option inst := Some {| iBody := b; iKey := 0; iMerge := 0 |}.
Definition ex_bank (l : list ibody) : sbnk := {| bInsts := map ex_inst l; bInacc := []; bUnk := 0; bWars := [Some 0] |}.
Definition ex_bodies : list ibody :=
  [Single (ex_def 0 0 1); Ranged 60 [ex_def 0 1 1; ex_def 0 2 1; ex_def 0 3 1]; Regional [(40, ex_def 0 4 1); (80, ex_def 0 5 1); (127, ex_def 0 6 1)]].
Definition ex_events : evs := [(1, Instr 0 2); (2, Note 50 100 false 10); (3, Instr 0 1); (4, Note 62 100 false 10); (5, Rest 10); (6, Instr 0 2); (7, Note 30 100 false 10)].
Example C69_ex : NoDup (map fst ex_events) /\
  minifyByEvents ex_events (ex_bank ex_bodies) (Some [[100; 101; 102; 103; 104; 105; 106]]) =
  Ok ([(1, Instr 0 1); (2, Note 50 100 false 10); (3, Instr 0 0); (4, Note 62 100 false 10); (5, Rest 10); (6, Instr 0 1); (7, Note 30 100 false 10)],
      ex_bank [Ranged 60 [ex_def 0 1 1; ex_def 0 1 1; ex_def 0 0 1]; Regional [(40, ex_def 0 1 1); (127, ex_def 0 2 1)]], [[103; 104; 105]]) /\
  pitched ex_events /\ complete ex_events (bInsts (ex_bank ex_bodies)) [[100; 101; 102; 103; 104; 105; 106]] /\ (forall d, wanted ex_events (bInsts (ex_bank ex_bodies)) d -> nArch d = 0) /\
  heard (bInsts (ex_bank ex_bodies)) [[100; 101; 102; 103; 104; 105; 106]] 2 50 = Some (timbre (ex_def 0 5 1), Some 105).
Proof.
  split; [repeat constructor; cbn; intuition discriminate|]. split; [vm_compute; reflexivity|].
  split. { intros n p v u d H. cbn in H. repeat (destruct H as [H|H]; [try discriminate H; injection H; intros; subst; lia|]). destruct H. }
  assert (SW : forall i, switched ex_events i -> i = 1 \/ i = 2). { intros i (n & c & H). cbn in H. repeat (destruct H as [H|H]; [try discriminate H; injection H; intros; subst; auto|]). destruct H. }
  assert (AL : forall i c p d, instrument (bInsts (ex_bank ex_bodies)) i = Some c -> (i = 1 \/ i = 2) -> definition_for c p = Some d -> nArch d = 0 /\ 0 <= nWave d < 7).
  { intros i c p d H [->| ->] D; cbn in H; injection H as <-; cbn [definition_for region_for] in D.
    - destruct (p <? 60); [discriminate D|]. destruct (Z.to_nat (p - 60)) as [|[|[|[|]]]]; cbn [nth_error] in D; try discriminate D; injection D as <-; cbn; lia.
    - repeat (destruct (_ <=? _); [injection D as <-; cbn; lia|]). discriminate D. }
  assert (WA : forall d, wanted ex_events (bInsts (ex_bank ex_bodies)) d -> nArch d = 0 /\ 0 <= nWave d < 7).
  { intros d (i & c & S & I & [->|(p & _ & D)]); [|exact (AL i c p d I (SW i S) D)]. destruct (SW i S) as [->| ->]; cbn in I; discriminate I. }
  split; [split|].
  - intros i S. destruct (SW i S) as [->| ->]; (split; [vm_compute; intuition discriminate|]); intros f H; cbn in H; discriminate H.
  - intros d D. destruct (WA d D) as (-> & H). split; [lia|]. split; [lia|]. intros ws E. cbn in E. injection E as <-. change (zlen [100; 101; 102; 103; 104; 105; 106]) with 7. lia.
  - split; [intros d D; apply (WA d D)|vm_compute; reflexivity].
Qed.

(** With two archives in use, a note is given the wrong wave. *)
Theorem C69_archives_refuted : exists l b (swars : list (list Z)) l' b' swars', NoDup (map fst l) /\ pitched l /\ plays l 1 60 /\ heard (bInsts b) swars 1 60 = Some (timbre (ex_def 1 0 1), Some 200) /\
  minifyByEvents l b (Some swars) = Ok (l', b', swars') /\ plays l' 1 60 /\ heard (bInsts b') swars' 1 60 = Some (timbre (ex_def 1 0 1), None).
Proof.
  exists [(1, Instr 0 0); (2, Note 60 100 false 10); (3, Instr 0 1); (4, Note 60 100 false 10)], (ex_bank [Single (ex_def 0 0 1); Single (ex_def 1 0 1)]), [[100]; [200]]. do 3 eexists.
  split; [repeat constructor; cbn; intuition discriminate|].
  split. { intros n p v u d H. cbn in H. repeat (destruct H as [H|H]; [try discriminate H; injection H; intros; subst; lia|]). destruct H. }
  assert (PL : plays [(1, Instr 0 0); (2, Note 60 100 false 10); (3, Instr 0 1); (4, Note 60 100 false 10)] 1 60) by (exists [(1, Instr 0 0); (2, Note 60 100 false 10); (3, Instr 0 1)], 4, 100, false, 10, []; split; reflexivity).
  split; [exact PL|]. split; [vm_compute; reflexivity|]. split; [vm_compute; reflexivity|]. split; [exact PL|vm_compute; reflexivity].
Qed.
Print Assumptions C69_archives_refuted.
(** The duty cycle of a PSG instrument is taken for a wave number: it is changed,
    and if the archive has no such wave IndexError is raised. *)
Theorem C69_psg_refuted : exists l b b', minifyByEvents l b (Some [[100; 101; 102; 103]]) = Ok (l, b', [[103]]) /\ minifyByEvents l b (Some ([[]] : list (list Z))) = Err IndexError /\
  bInsts b = [ex_inst (Single (ex_def 0 3 2))] /\ bInsts b' = [ex_inst (Single (ex_def 0 0 2))].
Proof. exists [(1, Instr 0 0); (2, Note 60 100 false 10)], (ex_bank [Single (ex_def 0 3 2)]). eexists. split; [vm_compute; reflexivity|]. split; [vm_compute; reflexivity|]. split; reflexivity. Qed.
Print Assumptions C69_psg_refuted.
(** The wave archives are not optional. *)
Theorem C69_optional_refuted : forall (W : Type) l b, forall r, minifyByEvents (W := W) l b None <> Ok r.
Proof.
  intros W l b r H. unfold minifyByEvents in H. apply bind_ok in H as (x & _ & H). apply bind_ok in H as (y & _ & H). discriminate H.
Qed.
Print Assumptions C69_optional_refuted.
(** Without a bank there is nothing to minify: the tracks, and the wave archives if there are
    any, are left alone.  With a bank and no wave archives, music is not minified. *)
Theorem C69_nothing : forall (W : Type) (t : tracks) (swars : option (list (list W))), (exists r, music_minify t None swars = Ok r) /\
  (forall t' b' swars', music_minify t None swars = Ok (t', b', swars') -> t' = t /\ b' = None /\ swars' = swars) /\ forall b r, music_minify (W := W) t (Some b) None <> Ok r.
Proof.
  intros W t swars. split; [eexists; reflexivity|]. split; [intros t' b' swars' H; injection H as <- <- <-; repeat split|].
  intros b r H. unfold music_minify, minifyTracks in H. apply bind_ok in H as (x & H & _). apply bind_ok in H as (z & H & _). exact (C69_optional_refuted W _ _ _ H).
Qed.
Print Assumptions C69_nothing.
Example C69_nothing_ex : music_minify [(0, ex_events)] None (Some [[100; 101]]) = Ok ([(0, ex_events)], None, Some [[100; 101]]) /\
  music_minify (W := Z) [(0, ex_events)] (Some (ex_bank ex_bodies)) None = Err TypeError.
Proof. split; vm_compute; reflexivity. Qed.

(** * C45, C46, C63-C68: music *)
From Coq Require Import Lia Sorting.Sorted Sorting.Permutation.
From Verif Require Import PyBase PyLemmas PyTac SeqModel SeqParse SsarModel SbnkModel SbnkBank MusicModel MusicSpec MusicLemmas MusicEdit MusicTrack MusicSseq.

(** ** C45: durations and moving in time *)
Theorem C45_duration : forall l mode, durationOf l mode = total l mode.
Proof. exact dur_total. Qed.
Print Assumptions C45_duration.
Theorem C45_additive : forall a b mode, durationOf (a ++ b) mode = durationOf a mode + durationOf b (last_mode a mode).
Proof. intros a b mode. apply dur_app. Qed.
Print Assumptions C45_additive.
Theorem C45_nonneg : forall l mode, Forall timed l -> 0 <= durationOf l mode.
Proof. intros l mode. apply dur_nonneg. Qed.
Print Assumptions C45_nonneg.

(** Moving by a positive amount: the index reached is the earliest with the time
    returned, that time and the mode are those of the events passed, the time
    wanted is missed only if the events run out or an event that may not be cut
    goes on, and the list changes only by cutting one rest in two or by a rest
    at its end. *)
Theorem C45_move : forall l new start time mode cut append, NoDup (map fst l) -> 0 <= start <= zlen l -> 0 <= time ->
  exists l' idx t mode', moveInTime l new start time mode cut append = Ok (l', (idx, t, mode')) /\
  start <= idx <= zlen l' /\ total (slice l' start idx) mode = t /\ last_mode (slice l' start idx) mode = mode' /\ t <= time /\
  (forall j, start <= j < idx -> total (slice l' start j) mode < time) /\
  (t < time -> l' = l /\ (idx = zlen l /\ append = false \/
     exists n e, get l idx = Ok (n, e) /\ time < t + cost mode' e /\ ((forall d, e <> Rest d) \/ cut = false))) /\
  (l' = l \/
   (cut = true /\ t = time /\ exists a n d1 d2 b, l = a ++ (n, Rest (d1 + d2)) :: b /\ l' = a ++ (n, Rest d1) :: (new, Rest d2) :: b /\ 0 < d1 /\ 0 < d2 /\ idx = zlen a + 1) \/
   (append = true /\ t = time /\ idx = zlen l' /\ exists d, 0 < d /\ l' = l ++ [(new, Rest d)])).
Proof.
  intros l new start time mode cut append ND S T. destruct (move_ok l new start time mode cut append ND S T) as (l' & idx & t & m' & H & M). exists l', idx, t, m'. split; [exact H|].
  destruct (result_slices _ _ _ _ _ _ _ _ _ _ _ M) as (R1 & R2 & R3 & R4 & R5 & R6). do 6 (split; [assumption|]). destruct M as (_ & _ & _ & _ & _ & _ & _ & _ & _ & _ & _ & O). exact O.
Qed.
Print Assumptions C45_move.
Theorem C45_move_errors : forall l new start time mode cut append, (time < 0 \/ (0 < time /\ zlen l < start)) -> moveInTime l new start time mode cut append = Err ValueError.
Proof.
  intros l new start time mode cut append H. unfold moveInTime. destruct H as [H|(H1 & H2)]; [rewrite (proj2 (Z.ltb_lt time 0) H); reflexivity|].
  rewrite (proj2 (Z.ltb_ge time 0)), (proj2 (Z.eqb_neq time 0)), (proj2 (Z.ltb_lt (zlen l) start)) by lia. reflexivity.
Qed.
Print Assumptions C45_move_errors.
(** no other event is moved in time *)
Theorem C45_move_timeline : forall l new start time mode cut append l' r, NoDup (map fst l) -> 0 <= start <= zlen l -> 0 <= time ->
  moveInTime l new start time mode cut append = Ok (l', r) -> timeline l' 1 0 = timeline l 1 0.
Proof.
  intros l new start time mode cut append l' r ND S T H. destruct (move_ok l new start time mode cut append ND S T) as (l2 & idx & t & m' & H2 & M). rewrite H2 in H. injection H as -> _. exact (result_timeline _ _ _ _ _ _ _ _ _ _ _ M 1 0).
Qed.
Print Assumptions C45_move_timeline.
(** a note of 10 (mono), a switch to poly, a note, and a rest of 20 *)
Definition ex_track : evs := [(1, Note 60 100 false 10); (2, Byte1 0xC7 0); (3, Note 64 90 false 30); (4, Rest 20); (5, Byte1 0xC0 64)].
Example C45_ex : NoDup (map fst ex_track) /\ Forall timed ex_track /\ total ex_track 1 = 30 /\
  moveInTime ex_track 9 0 15 1 true false = Ok ([(1, Note 60 100 false 10); (2, Byte1 0xC7 0); (3, Note 64 90 false 30); (4, Rest 5); (9, Rest 15); (5, Byte1 0xC0 64)], (4, 15, 0)) /\
  moveInTime ex_track 9 0 15 1 false true = Ok (ex_track, (3, 10, 0)) /\ moveInTime ex_track 9 0 4 1 true true = Ok (ex_track, (0, 0, 1)) /\
  moveInTime ex_track 9 0 40 1 true true = Ok (ex_track ++ [(9, Rest 10)], (6, 40, 0)) /\ moveInTime ex_track 9 6 1 1 true true = Err ValueError.
Proof. split; [repeat constructor; cbn; intuition discriminate|]. split; [repeat constructor; unfold timed; cbn; lia|]. repeat split; vm_compute; reflexivity. Qed.
(** moveInTime's description says a rest is never appended to a looped track; it is *)
Theorem C45_append_looped_refuted : exists l r, looped l = true /\ moveInTime l 9 0 15 1 true true = Ok (l ++ [(9, Rest 5)], r).
Proof. exists [(1, Rest 10); (2, Jump (Some 1))]. eexists. split; [reflexivity|vm_compute; reflexivity]. Qed.
Print Assumptions C45_append_looped_refuted.
(** a negative index counts from the end; the search goes on at the beginning of the
    list, as if the events after it stood in front of the list once more *)
Theorem C45_negative : forall l new start time mode, - zlen l <= start < 0 -> 0 < time ->
  let walk := skipn (Z.to_nat (start + zlen l)) l ++ l in
  exists k t m, moveInTime l new start time mode false false = Ok (l, (start + k, t, m)) /\ moveInTime walk new 0 time mode false false = Ok (walk, (k, t, m)).
Proof. exact move_negative. Qed.
Print Assumptions C45_negative.
Theorem C45_too_negative : forall l new start time mode cut append, start < - zlen l -> 0 < time -> moveInTime l new start time mode cut append = Err IndexError.
Proof.
  intros l new start time mode cut append S T. pose proof (zlen_nonneg l). unfold moveInTime. rewrite (proj2 (Z.ltb_ge time 0)), (proj2 (Z.eqb_neq time 0)), (proj2 (Z.ltb_ge (zlen l) start)), (proj2 (Z.ltb_lt start (- zlen l))) by lia. reflexivity.
Qed.
Print Assumptions C45_too_negative.
Example C45_negative_ex : moveInTime ex_track 9 (-2) 30 1 false false = Ok (ex_track, (1, 30, 1)) /\ moveInTime ex_track 9 (-6) 30 1 false false = Err IndexError.
Proof. split; vm_compute; reflexivity. Qed.
(** when the last event is reached by a negative index and cut, its second half is
    put in front of the list, which moves everything *)
Theorem C45_negative_cut_refuted : exists l l' r, NoDup (map fst l) /\ - zlen l <= -1 < 0 /\ moveInTime l 9 (-1) 5 1 true false = Ok (l', r) /\ timeline l' 1 0 <> timeline l 1 0.
Proof.
  exists [(1, Note 60 100 false 10); (2, Rest 20)]. do 2 eexists. split; [repeat constructor; cbn; intuition discriminate|]. split; [vm_compute; split; [discriminate|reflexivity]|]. split; [vm_compute; reflexivity|]. vm_compute. discriminate.
Qed.
Print Assumptions C45_negative_cut_refuted.

(** ** C46: simultaneous edits *)
Theorem C46_edits : forall (A : Type) (events : list A) edits, Forall (in_bounds (zlen events)) edits -> modify events edits = Ok (edited events edits).
Proof. intros A. exact modify_edited. Qed.
Print Assumptions C46_edits.
Theorem C46_order : forall (A : Type) (events : list A) l1 e1 e2 l2, Forall (in_bounds (zlen events)) (l1 ++ e1 :: e2 :: l2) -> edit_index e1 <> edit_index e2 ->
  modify events (l1 ++ e1 :: e2 :: l2) = modify events (l1 ++ e2 :: e1 :: l2).
Proof.
  intros A events l1 e1 e2 l2 B N. rewrite (modify_edited _ _ B), modify_edited; [f_equal; apply swap_edited; exact N|]. apply Forall_app in B as (B1 & B2). inversion B2 as [|? ? C1 C2]; subst. inversion C2; subst. apply Forall_app. split; [exact B1|]. repeat constructor; assumption.
Qed.
Print Assumptions C46_order.
(** the example of the description, and one with a replacement and a deletion *)
Example C46_ex : modify [1; 2; 3] [Insert 1 10; Insert 1 11; Insert 1 12; Insert 2 13] = Ok [1; 10; 11; 12; 2; 13; 3] /\
  Forall (in_bounds (zlen [1; 2; 3])) [Delete 0; Insert 3 9; Replace 2 7; Insert 0 5; Delete 2; Replace 2 8] /\
  modify [1; 2; 3] [Delete 0; Insert 3 9; Replace 2 7; Insert 0 5; Delete 2; Replace 2 8] = Ok [5; 2; 8; 9].
Proof. split; [vm_compute; reflexivity|]. split; [do 6 (apply Forall_cons; [vm_compute; intuition discriminate|]); apply Forall_nil|vm_compute; reflexivity]. Qed.

(** ** C63: looping a track *)
(** The looped track plays the same notes and control events at the same times,
    and jumps at time [e] back to the event that starts at time [s]. *)
Theorem C63_loop : forall l new s e clear, NoDup (map fst l) -> Forall (fun p => fst p < new) l -> Forall timed l -> looped l = false -> 0 <= s < e -> ~ straddled l s -> ~ straddled l e ->
  exists before n ev body after, track_loop l new s e clear = Ok (before ++ ((n, ev) :: body) ++ (new + 2, Jump (Some n)) :: (if clear then [] else after)) /\
  total before 1 = s /\ total (before ++ (n, ev) :: body) 1 = e /\
  timeline (before ++ ((n, ev) :: body) ++ after) 1 0 = timeline l 1 0 /\
  NoDup (map fst (before ++ ((n, ev) :: body) ++ (new + 2, Jump (Some n)) :: after)).
Proof.
  intros l new s e clear ND FR F NL SE NS NE. destruct (loop_ok l new s e clear ND FR F NL SE NS NE) as (l3 & l' & H & before & n & ev & body & after & E3 & E' & D1 & D2 & TL & ND3 & _).
  exists before, n, ev, body, after. unfold track_loop. rewrite H. cbn [bind]. rewrite E', <- !dur_total. rewrite E3 in ND3. auto.
Qed.
Print Assumptions C63_loop.
Theorem C63_refused : forall l new s e clear, NoDup (map fst l) -> Forall (fun p => fst p < new) l -> Forall timed l -> 0 <= s < e -> looped l = true \/ straddled l s \/ straddled l e ->
  track_loop l new s e clear = Err RuntimeError.
Proof. intros l new s e clear ND FR F SE H. unfold track_loop. rewrite (loop_refused l new s e clear ND FR F SE H). reflexivity. Qed.
Print Assumptions C63_refused.
(** what lies after the loop starts no earlier than its end *)
Theorem C63_trailing : forall l s e before body after, Forall timed (before ++ body ++ after) -> total before 1 = s -> total (before ++ body) 1 = e -> timeline (before ++ body ++ after) 1 0 = timeline l 1 0 ->
  forall t d x, In (t, d, x) (timeline l 1 0) -> In (t, d, x) (timeline (before ++ body) 1 0) \/ e <= t.
Proof.
  intros l s e before body after F D1 D2 TL t d x I. rewrite <- TL, app_assoc, timeline_app in I. apply in_app_iff in I as [I|I]; [left; exact I|right]. rewrite app_assoc in F. apply Forall_app in F as (_ & F). apply timeline_bound in I; [|exact F]. rewrite dur_total, D2 in I. lia.
Qed.
Print Assumptions C63_trailing.
Example C63_ex : Forall (fun p => fst p < 9) ex_track /\ looped ex_track = false /\ ~ straddled ex_track 10 /\ ~ straddled ex_track 25 /\ straddled ex_track 5 /\
  track_loop ex_track 9 10 25 true = Ok [(1, Note 60 100 false 10); (2, Byte1 0xC7 0); (3, Note 64 90 false 30); (4, Rest 15); (11, Jump (Some 2))] /\
  track_loop ex_track 9 5 25 true = Err RuntimeError.
Proof.
  split; [repeat constructor; cbn; lia|]. split; [reflexivity|].
  split; [intros (s & d & x & I & R); cbn in I; repeat (destruct I as [I|I]; [injection I as <- <- <-; lia|]); destruct I|].
  split; [intros (s & d & x & I & R); cbn in I; repeat (destruct I as [I|I]; [injection I as <- <- <-; lia|]); destruct I|].
  split; [exists 0, 10, (1, Note 60 100 false 10); split; [left; reflexivity|lia]|]. split; vm_compute; reflexivity.
Qed.

(** ** C64: initial values *)
Theorem C64_get : forall c l v, In c initial_classes -> Forall (fun p => class_ok (snd p)) l ->
  (getInitial c l = Some v <-> exists a n b, initial c l a n (event_of c v) b /\ fits c v).
Proof.
  intros c l v C K. unfold getInitial. split.
  - destruct (findControl c l) as [(n & e)|] eqn:E; [|discriminate]. intros V. apply find_iff in E as (a & b & I). assert (I2 := I). destruct I2 as (EL & T & _).
    assert (KE : class_ok e) by (rewrite EL in K; apply Forall_app in K as (_ & K); inversion K; subst; assumption). destruct (class_type c e C KE T) as (_ & w & FW & ->).
    destruct (event_of_type c w C FW) as (_ & _ & EV). rewrite EV in V. injection V as ->. exists a, n, b. split; assumption.
  - intros (a & n & b & I & FV). destruct (event_of_type c v C FV) as (_ & _ & EV). assert (E : findControl c l = Some (n, event_of c v)) by (apply find_iff; eauto). rewrite E. exact EV.
Qed.
Print Assumptions C64_get.
(** after setting a value it is read back, all other initial values and all times
    are unchanged, and one event was added in front or changed in place *)
Theorem C64_set : forall c new v l, In c initial_classes -> NoDup (map fst l) -> Forall (fun p => class_ok (snd p)) l -> fits c v -> (c = 0xC7 -> v = IVal 0 \/ v = IVal 1) ->
  exists l', setInitial c new (Some v) l = Ok l' /\ getInitial c l' = Some v /\
  (forall c', In c' initial_classes -> c' <> c -> getInitial c' l' = getInitial c' l) /\
  (c <> 0xC7 -> forall mode, durationOf l' mode = durationOf l mode) /\
  ((getInitial c l = None /\ l' = (new, event_of c v) :: l) \/
   exists a n w b, getInitial c l = Some w /\ l = a ++ (n, event_of c w) :: b /\ l' = a ++ (n, event_of c v) :: b).
Proof.
  intros c new v l C ND K FV MV. destruct (event_of_type c v C FV) as (TV & NV & EV).
  assert (DU : c <> 0xC7 -> forall w, fits c w -> (forall m, cost m (event_of c w) = 0) /\ sets_mode (event_of c w) = None).
  { intros NC w FW. destruct w as [b i|x]; [split; reflexivity|]. cbn [event_of fits] in *. destruct (c =? 0xE1); (split; [reflexivity|]); cbn [sets_mode]; [reflexivity|]. rewrite (proj2 (Z.eqb_neq c 0xC7) NC). reflexivity. }
  pose proof (set_cases c new (Some v) l C ND K) as SC. destruct (findControl c l) as [(n & e)|] eqn:E.
  - destruct SC as (a & b & w0 & I & FW & -> & H). { intros w EW. injection EW as <-. split; assumption. }
    destruct (event_of_type c w0 C FW) as (TW & NW & EW). destruct I as (EL & _ & FA). exists (a ++ (n, event_of c v) :: b). split; [exact H|]. split.
    { unfold getInitial. rewrite (find_skip c a _ FA). cbn [findControl]. rewrite (proj2 (of_class_iff c _) TV). exact EV. }
    split.
    { intros c' C' NC. unfold getInitial. rewrite EL. assert (G : forall x, ev_type x = Some c -> ~ is_time x -> findControl c' (a ++ (n, x) :: b) = findControl c' (a ++ b)).
      { intros x TX NX. clear -FA TX NX NC. induction FA as [|(k & f) a (F1 & F2) FA IH]; [cbn [app]; apply (skip_other c c'); auto|]. cbn [app findControl snd] in *. destruct (of_class c' f); [reflexivity|]. destruct f; cbn [is_time] in F2; try tauto; exact IH. }
      rewrite (G _ TV NV), (G _ TW NW). reflexivity. }
    split.
    { intros NC m. rewrite EL, !dur_app, !dur_cons. destruct (DU NC v FV) as (-> & ->). destruct (DU NC w0 FW) as (-> & ->). reflexivity. }
    right. exists a, n, w0, b. split; [unfold getInitial; rewrite E; exact EW|]. split; [exact EL|reflexivity].
  - exists ((new, event_of c v) :: l). split; [apply SC; intros w EW; injection EW as <-; split; assumption|]. split.
    { unfold getInitial. cbn [findControl]. rewrite (proj2 (of_class_iff c _) TV). exact EV. }
    split; [intros c' C' NC; unfold getInitial; rewrite (skip_other c c'); auto|]. split.
    { intros NC m. rewrite dur_cons. destruct (DU NC v FV) as (-> & ->). lia. }
    left. split; [unfold getInitial; rewrite E; reflexivity|reflexivity].
Qed.
Print Assumptions C64_set.
Theorem C64_delete : forall c new l, In c initial_classes -> NoDup (map fst l) -> Forall (fun p => class_ok (snd p)) l ->
  exists l', setInitial c new None l = Ok l' /\
  (forall c', In c' initial_classes -> c' <> c -> getInitial c' l' = getInitial c' l) /\
  ((getInitial c l = None /\ l' = l) \/ exists a n w b, initial c l a n (event_of c w) b /\ l' = a ++ b /\ getInitial c l' = getInitial c b).
Proof.
  intros c new l C ND K. pose proof (set_cases c new None l C ND K) as SC. destruct (findControl c l) as [(n & e)|] eqn:E.
  - destruct SC as (a & b & w0 & I & FW & -> & H); [discriminate|]. destruct (event_of_type c w0 C FW) as (TW & NW & EW). exists (a ++ b). split; [exact H|]. assert (I2 := I). destruct I2 as (EL & _ & FA). split.
    { intros c' C' NC. unfold getInitial. rewrite EL. clear -FA TW NW NC. induction FA as [|(k & f) a (F1 & F2) FA IH]; [cbn [app]; rewrite (skip_other c c'); auto|]. cbn [app findControl snd] in *. destruct (of_class c' f); [reflexivity|]. destruct f; cbn [is_time] in F2; try tauto; exact IH. }
    right. exists a, n, w0, b. split; [exact I|]. split; [reflexivity|]. unfold getInitial. rewrite (find_skip c a b FA). reflexivity.
  - exists l. split; [apply SC; discriminate|]. split; [reflexivity|]. left. split; [unfold getInitial; rewrite E; reflexivity|reflexivity].
Qed.
Print Assumptions C64_delete.
Example C64_ex : Forall (fun p => class_ok (snd p)) ex_track /\ In 0xC0 initial_classes /\ fits 0xC0 (IVal 30) /\ getInitial 0xC0 ex_track = None /\
  setInitial 0xC0 9 (Some (IVal 30)) ex_track = Ok ((9, Byte1 0xC0 30) :: ex_track) /\
  setInitial 0x81 9 (Some (IInstr 1 2)) [(3, Byte1 0xC0 64); (4, Instr 0 7); (5, Rest 3)] = Ok [(3, Byte1 0xC0 64); (4, Instr 1 2); (5, Rest 3)] /\
  setInitial 0xC0 9 None [(3, Byte1 0xC0 64); (4, Instr 0 7)] = Ok [(4, Instr 0 7)].
Proof. split; [repeat constructor; cbn; lia|]. split; [right; left; reflexivity|]. split; [cbn; lia|]. repeat split; vm_compute; reflexivity. Qed.
(** setting an initial value to None does not always make it None *)
Theorem C64_delete_refuted : exists l l', NoDup (map fst l) /\ Forall (fun p => class_ok (snd p)) l /\ setInitial 0xC0 9 None l = Ok l' /\ getInitial 0xC0 l' <> None.
Proof.
  exists [(1, Byte1 0xC0 10); (2, Byte1 0xC0 20)]. eexists. split; [repeat constructor; cbn; intuition discriminate|]. split; [repeat constructor; cbn; lia|]. split; [vm_compute; reflexivity|vm_compute; discriminate].
Qed.
Print Assumptions C64_delete_refuted.

(** ** C65: note velocities *)
Definition velocity_map (g : Z -> Z) (p : Z * ev) : Z * ev := match p with (n, Note t v u d) => (n, Note t (g v) u d) | _ => p end.
Definition limit (v : Z) : Z := if v <? 0 then 0 else if 127 <? v then 127 else v.
Lemma mapM_all {A B} (f : A -> res B) g l : (forall x, In x l -> f x = Ok (g x)) -> mapM f l = Ok (map g l).
Proof. induction l as [|x l IH]; intros H; [reflexivity|]. cbn [mapM map]. rewrite (H x (or_introl eq_refl)), IH by (intros y I; apply H; right; exact I). reflexivity. Qed.
Theorem C65_clamped : forall f l, NoDup (map fst l) -> modifyVelocities f true l = Ok (map (velocity_map (fun v => limit (f v))) l).
Proof.
  intros f l ND. rewrite (velocities f true l ND). apply mapM_all. intros (n & e) _. cbn [fst snd]. destruct e; try reflexivity. cbn [MusicTrack.velocity velocity_map]. unfold limit.
  destruct (0 <=? f velocity) eqn:E1, (f velocity <=? 127) eqn:E2; cbn [andb bind]; (apply Z.leb_le in E1 || apply Z.leb_gt in E1); (apply Z.leb_le in E2 || apply Z.leb_gt in E2);
    repeat match goal with |- context [if ?a <? ?b then _ else _] => destruct (Z.ltb_spec a b) end; try lia; repeat f_equal; lia.
Qed.
Print Assumptions C65_clamped.
Theorem C65_unclamped : forall f l, NoDup (map fst l) ->
  ((forall n t v u d, In (n, Note t v u d) l -> 0 <= f v <= 127) -> modifyVelocities f false l = Ok (map (velocity_map f) l)) /\
  (forall n t v u d, In (n, Note t v u d) l -> ~ 0 <= f v <= 127 -> modifyVelocities f false l = Err ValueError).
Proof.
  intros f l ND. rewrite (velocities f false l ND). split.
  - intros H. apply mapM_all. intros (n & e) I. cbn [fst snd]. destruct e; try reflexivity. cbn [MusicTrack.velocity velocity_map]. specialize (H _ _ _ _ _ I). rewrite (proj2 (Z.leb_le 0 _)), (proj2 (Z.leb_le _ 127)) by lia. reflexivity.
  - intros n t v u d I N. assert (B : MusicTrack.velocity f false (Note t v u d) = Err ValueError). { cbn [MusicTrack.velocity]. destruct (0 <=? f v) eqn:E1; [|reflexivity]. destruct (f v <=? 127) eqn:E2; [|reflexivity]. apply Z.leb_le in E1, E2. lia. }
    clear ND. induction l as [|(k & e) l IH]; [destruct I|]. cbn [mapM fst snd]. destruct I as [I|I]; [injection I as -> ->; rewrite B; reflexivity|].
    assert (G : forall x, MusicTrack.velocity f false e = Err x -> x = ValueError). { intros x. destruct e; cbn [MusicTrack.velocity]; try discriminate. destruct (_ && _); [discriminate|]. intros Q. injection Q as <-. reflexivity. }
    destruct (MusicTrack.velocity f false e) as [e'|x]; [|cbn [bind]; rewrite (G x eq_refl); reflexivity]. cbn [bind]. rewrite (IH I). reflexivity.
Qed.
Print Assumptions C65_unclamped.
Theorem C65_add : forall amount l, NoDup (map fst l) -> addToVelocities amount true l = Ok (map (velocity_map (fun v => limit (v + amount))) l).
Proof. intros amount l ND. exact (C65_clamped (fun v => v + amount) l ND). Qed.
Print Assumptions C65_add.
Example C65_ex : addToVelocities 30 true ex_track = Ok [(1, Note 60 127 false 10); (2, Byte1 0xC7 0); (3, Note 64 120 false 30); (4, Rest 20); (5, Byte1 0xC0 64)] /\
  addToVelocities 30 false ex_track = Err ValueError /\ addToVelocities (-95) true ex_track = Ok [(1, Note 60 5 false 10); (2, Byte1 0xC7 0); (3, Note 64 0 false 30); (4, Rest 20); (5, Byte1 0xC0 64)].
Proof. repeat split; vm_compute; reflexivity. Qed.

(** ** C66: tracks are saved and found again *)
Theorem C66_roundtrip : forall new t, t <> [] -> NoDup (map fst t) -> Forall (fun x => 0 <= fst x) t -> Forall (fun x => proper (snd x)) t -> NoDup (names t) -> Forall (fun n => n < new) (names t) ->
  Forall (fun x => first_not (fun e => is_begin e = true \/ is_define e = true) (snd x)) t ->
  exists l t', music_save new t = Ok l /\ tracks_of l = Ok t' /\ Permutation t' t /\ StronglySorted (fun a b => fst a < fst b) t'.
Proof.
  intros new t NE KD KP PR ND BN FN. destruct (music_roundtrip new t NE KD KP PR ND BN FN) as (l & H1 & H2). exists l, (sort_by fst t). split; [exact H1|]. split; [exact H2|]. split; [apply sort_perm|apply sort_strict; exact KD].
Qed.
Print Assumptions C66_roundtrip.
Theorem C66_layout : forall new t, Forall (fun x => proper (snd x)) t -> NoDup (map fst t) -> (forall l, t <> [(0, l)]) ->
  exists keys sorted begins contents, music_save new t = Ok ((new, DefTracks keys) :: begins ++ concat contents) /\
  StronglySorted Z.lt keys /\ Permutation keys (map fst t) /\ StronglySorted (fun a b => fst a < fst b) sorted /\ Permutation sorted t /\
  map snd begins = map opening (filter (fun x => negb (fst x =? 0)) sorted) /\ Forall2 (fun x c => written (snd x) c) sorted contents.
Proof.
  intros new t PR KD D. rewrite (save_general new t D). destruct (save_tracks (new + 1) (sort_by fst t)) as (b & c) eqn:E.
  assert (PRS : Forall (fun x => proper (snd x)) (sort_by fst t)) by (apply (Permutation_Forall (Permutation_sym (sort_perm fst t))); exact PR).
  destruct (save_written _ _ _ _ E PRS) as (B & cs & -> & FC). exists (sort_by (fun k => k) (map fst t)), (sort_by fst t), b, cs. split; [reflexivity|]. split; [apply sort_keys_strict; exact KD|]. split; [apply sort_perm|]. split; [apply sort_strict; exact KD|]. split; [apply sort_perm|]. split; [exact B|exact FC].
Qed.
Print Assumptions C66_layout.
Theorem C66_single : forall new l, proper l -> exists c, music_save new [(0, l)] = Ok c /\ written l c.
Proof. intros new l P. destruct (proper_cons l P) as (n & e & r & ->). eexists. split; [reflexivity|]. apply written_ended. exact P. Qed.
Print Assumptions C66_single.
(** saving fails only for a single track 0 without events *)
Theorem C66_save_fails : forall new t k, music_save new t = Err k <-> t = [(0, [])] /\ k = IndexError.
Proof.
  intros new t k. split.
  - intros H. assert (G : (' (b, c) <- Ok (save_tracks (new + 1) (sort_by fst t)) ;; Ok ((new, DefTracks (sort_by (fun k => k) (map fst t))) :: b ++ c)) <> Err k) by (destruct (save_tracks (new + 1) (sort_by fst t)); discriminate).
    unfold music_save in H. destruct t as [|[[| |] [|e r]] [|q t]]; try (destruct (save_tracks (new + 1) _) in H; discriminate H); try discriminate H. split; [reflexivity|congruence].
  - intros (-> & ->). reflexivity.
Qed.
Print Assumptions C66_save_fails.
Example C66_fails_ex : music_save 30 [(0, [])] = Err IndexError /\ (exists l, music_save 30 [(1, [])] = Ok l) /\ (exists l, music_save 30 [] = Ok l).
Proof. split; [reflexivity|]. split; eexists; vm_compute; reflexivity. Qed.
Definition ex_tracks : tracks := [(2, [(20, Rest 5); (21, Jump (Some 20))]); (0, ex_track)].
Example C66_ex : NoDup (map fst ex_tracks) /\ Forall (fun x => proper (snd x)) ex_tracks /\ NoDup (names ex_tracks) /\
  Forall (fun x => first_not (fun e => is_begin e = true \/ is_define e = true) (snd x)) ex_tracks /\
  music_save 30 ex_tracks = Ok ((30, DefTracks [0; 2]) :: (33, BeginTrack 2 (Some 20)) :: ex_track ++ [(32, Bare 0xFF); (20, Rest 5); (21, Jump (Some 20))]) /\
  (l <- music_save 30 ex_tracks ;; tracks_of l) = Ok (rev ex_tracks).
Proof.
  split; [repeat constructor; cbn; intuition discriminate|]. split; [constructor; [exists [(20, Rest 5)], 21, (Jump (Some 20)); split; [reflexivity|discriminate]|constructor; [exists (removelast ex_track), 5, (Byte1 0xC0 64); split; [reflexivity|discriminate]|constructor]]|].
  split; [repeat constructor; cbn; intuition discriminate|]. split; [repeat constructor; cbn; intuition discriminate|]. split; vm_compute; reflexivity.
Qed.
(** a sequence cannot be opened without wave archives, although they are optional *)
Theorem C66_optional_refuted : forall depth s, music_new (W := Z) depth s None = Err TypeError /\ forall e l, qParsed s = true -> qEvents s = e :: l -> is_define (snd e) = false -> exists r, music_new (W := Z) depth s (Some []) = Ok r.
Proof.
  intros depth s. split; [reflexivity|]. intros (n & e) l P E D. unfold music_new. rewrite P. cbn [bind]. rewrite E. unfold tracks_of. change (get ((n, e) :: l) 0) with (Ok (n, e)). cbn [bind snd] in *. destruct e; try (eexists; reflexivity). discriminate D.
Qed.
Print Assumptions C66_optional_refuted.
(** a track without events is not kept: track 0 comes back as a copy of another *)
Theorem C66_empty_track_refuted : exists t l t' c, music_save 30 t = Ok l /\ tracks_of l = Ok t' /\ lookup 0 t = Some [] /\ lookup 0 t' = Some c /\ c <> [].
Proof.
  exists [(0, []); (1, [(5, Rest 10)])]. do 3 eexists. split; [vm_compute; reflexivity|]. split; [vm_compute; reflexivity|]. split; [reflexivity|]. split; [vm_compute; reflexivity|discriminate].
Qed.
Print Assumptions C66_empty_track_refuted.

(** ** C67: renumbering tracks *)
Theorem C67_collapse : forall t, NoDup (map fst t) -> map fst (collapse t) = range_z 0 (length t) /\
  forall k l, In (k, l) t -> lookup (zlen (filter (fun j => j <? k) (map fst t))) (collapse t) = Some l.
Proof.
  intros t ND. split; [|intros k l; apply collapse_lookup; exact ND]. unfold collapse. rewrite enum_fst, map_length, (Permutation_length (sort_perm fst t)). reflexivity.
Qed.
Print Assumptions C67_collapse.
Example C67_ex : collapse [(8, ex_track); (0, []); (4, [(20, Rest 5)])] = [(0, []); (1, [(20, Rest 5)]); (2, ex_track)].
Proof. vm_compute. reflexivity. Qed.

(** ** C68: looping all tracks *)
Theorem C68_loop_all : forall new s e clear t, NoDup (names t) -> Forall (fun n => n < new) (names t) ->
  music_loop new s e clear t = mapM (fun p => l <- track_loop (snd (snd p)) (new + 3 * fst p) s e clear ;; Ok (fst (snd p), l)) (combine (range_z 0 (length t)) t).
Proof.
  intros new s e clear t ND BN. unfold music_loop. pose proof (music_loop_each new s e clear t [] ND BN) as H. cbn [app] in H. change (zlen (@nil (Z * evs))) with 0 in H. rewrite H by (intros n []).
  replace (combine (range_z 0 (length t)) t) with (enumerate_from 0 t). - destruct (mapM _ (enumerate_from 0 t)); reflexivity. - generalize 0 as i. clear. induction t as [|x t IH]; intros i; [reflexivity|]. cbn [enumerate_from length range_z combine]. rewrite IH. reflexivity.
Qed.
Print Assumptions C68_loop_all.
Example C68_ex : music_loop 30 10 25 true [(0, ex_track); (3, [(20, Rest 12)])] =
  Ok [(0, [(1, Note 60 100 false 10); (2, Byte1 0xC7 0); (3, Note 64 90 false 30); (4, Rest 15); (32, Jump (Some 2))]); (3, [(20, Rest 10); (33, Rest 2); (34, Rest 13); (35, Jump (Some 33))])].
Proof. vm_compute. reflexivity. Qed.
(** tracks that share a rest do not stay in step *)
Theorem C68_shared_refuted : exists t t' a b, Forall (fun x => timeline (snd x) 1 0 = [(20, 0, (2, Byte1 0xC0 64))]) t /\
  music_loop 30 5 30 true t = Ok t' /\ lookup 0 t' = Some a /\ lookup 1 t' = Some b /\ In (20, 0, (2, Byte1 0xC0 64)) (timeline a 1 0) /\ In (5, 0, (2, Byte1 0xC0 64)) (timeline b 1 0).
Proof.
  exists [(0, [(1, Rest 20); (2, Byte1 0xC0 64)]); (1, [(1, Rest 20); (2, Byte1 0xC0 64)])]. do 3 eexists. split; [repeat constructor|]. split; [vm_compute; reflexivity|]. split; [reflexivity|]. split; [reflexivity|]. split; left; reflexivity.
Qed.
Print Assumptions C68_shared_refuted.

(** * Proofs about music: time *)
From Coq Require Import Lia.
From Verif Require Import PyBase PyLemmas PyTac SeqModel MusicModel MusicSpec.

Lemma event_cost m e : durationOfEvent m e = (match sets_mode e with Some v => v | None => m end, cost m e).
Proof. destruct e; cbn; try reflexivity. destruct (type =? 0xC7); reflexivity. Qed.
Lemma dur_cons m n e r : durationOf ((n, e) :: r) m = cost m e + durationOf r (match sets_mode e with Some v => v | None => m end).
Proof. cbn [durationOf snd]. rewrite event_cost. reflexivity. Qed.
Lemma dur_app a : forall b m, durationOf (a ++ b) m = durationOf a m + durationOf b (last_mode a m).
Proof.
  induction a as [|(n & e) a IH]; intros b m; [reflexivity|]. rewrite <- app_comm_cons, !dur_cons. cbn [last_mode]. rewrite IH. lia.
Qed.
Lemma last_mode_app a : forall b m, last_mode (a ++ b) m = last_mode b (last_mode a m).
Proof. induction a as [|(n & e) a IH]; intros b m; [reflexivity|]. rewrite <- app_comm_cons. cbn [last_mode]. apply IH. Qed.
Lemma dur_total l : forall m, durationOf l m = total l m.
Proof.
  unfold total. induction l as [|(n & e) l IH]; intros m; [reflexivity|]. rewrite dur_cons. cbn [length seq map fold_right firstn last_mode nth snd]. f_equal.
  rewrite IH, <- seq_shift, map_map. reflexivity.
Qed.
Lemma cost_nonneg m e : (forall d, (e = Rest d \/ exists t v u, e = Note t v u d) -> 0 <= d) -> 0 <= cost m e.
Proof.
  intros H. destruct e; cbn; try lia; [|apply H; left; reflexivity]. destruct (m =? 1); [|lia]. apply H. right. eauto.
Qed.

(** the outcome of moving in time: the new list, the index, the time and the
    mode.  [a] are the events before the start, [mid] those passed. *)
Inductive moved (l : evs) (new target : Z) (cut append : bool) (start m : Z) : evs -> Z -> Z -> Z -> Prop :=
| exact_event : forall a mid n e b, l = a ++ (mid ++ [(n, e)]) ++ b -> zlen a = start ->
    durationOf (mid ++ [(n, e)]) m = target -> (forall p q, mid = p ++ q -> durationOf p m < target) ->
    moved l new target cut append start m l (start + zlen mid + 1) target (last_mode (mid ++ [(n, e)]) m)
| stops : forall a mid n e b, l = a ++ mid ++ (n, e) :: b -> zlen a = start ->
    target < durationOf (mid ++ [(n, e)]) m -> (forall d, e = Rest d -> cut = false) ->
    (forall p q, mid = p ++ q -> durationOf p m < target) ->
    moved l new target cut append start m l (start + zlen mid) (durationOf mid m) (last_mode mid m)
| cuts : forall a mid n d1 d2 b, l = a ++ mid ++ (n, Rest (d1 + d2)) :: b -> zlen a = start -> cut = true -> 0 < d1 -> 0 < d2 ->
    durationOf mid m + d1 = target -> (forall p q, mid = p ++ q -> durationOf p m < target) ->
    moved l new target cut append start m (insert (assign n (Rest d1) l) (start + zlen mid + 1) (new, Rest d2)) (start + zlen mid + 1) target (last_mode mid m)
| appends : forall a mid, l = a ++ mid -> zlen a = start -> append = true -> (forall p q, mid = p ++ q -> durationOf p m < target) ->
    moved l new target cut append start m (l ++ [(new, Rest (target - durationOf mid m))]) (zlen l + 1) target (last_mode mid m)
| exhausted : forall a mid, l = a ++ mid -> zlen a = start -> append = false -> (forall p q, mid = p ++ q -> durationOf p m < target) ->
    moved l new target cut append start m l (zlen l) (durationOf mid m) (last_mode mid m).

Lemma split_last {A} (mid : list A) x p q : mid ++ [x] = p ++ q -> (exists q', q = q' ++ [x] /\ mid = p ++ q') \/ (q = [] /\ p = mid ++ [x]).
Proof.
  intros E. destruct q as [|y q _] using rev_ind; [right; rewrite app_nil_r in E; auto|]. left. rewrite app_assoc in E. apply app_inj_tail in E as (E & <-). eauto.
Qed.
Lemma dur_snoc mid n e m : durationOf (mid ++ [(n, e)]) m = durationOf mid m + cost (last_mode mid m) e.
Proof. rewrite dur_app, dur_cons. cbn [durationOf]. lia. Qed.
Lemma mode_snoc mid n e m : last_mode (mid ++ [(n, e)]) m = match sets_mode e with Some v => v | None => last_mode mid m end.
Proof. rewrite last_mode_app. reflexivity. Qed.
Lemma mode_eq e m : match e with Byte1 t v => if t =? 0xC7 then v else m | _ => m end = match sets_mode e with Some v => v | None => m end.
Proof. destruct e; try reflexivity. cbn. destruct (type =? 0xC7); reflexivity. Qed.
Lemma costly m e : cost m e <> 0 -> sets_mode e = None.
Proof. destruct e; cbn; try reflexivity; lia. Qed.
Lemma move_moved l new target cut append start m : forall todo a mid, l = a ++ mid ++ todo -> zlen a = start ->
  (forall p q, mid = p ++ q -> durationOf p m < target) ->
  exists l' idx t m', move_loop l new target cut append todo (start + zlen mid) (durationOf mid m) (last_mode mid m) = (l', (idx, t, m')) /\
  moved l new target cut append start m l' idx t m'.
Proof.
  induction todo as [|(n & e) todo IH]; intros a mid E S P.
  - cbn [move_loop]. rewrite app_nil_r in E. destruct append eqn:EA.
    + do 4 eexists. split; [reflexivity|]. eapply appends; eauto.
    + do 4 eexists. split; [reflexivity|]. eapply exhausted; eauto.
  - cbn [move_loop]. rewrite dur_cons. cbn [durationOf]. rewrite Z.add_0_r, mode_eq, <- (mode_snoc mid n e m). rewrite <- (dur_snoc mid n e m).
    pose proof (P mid [] (eq_sym (app_nil_r mid))) as PM.
    destruct (durationOf (mid ++ [(n, e)]) m =? target) eqn:E1.
    { apply Z.eqb_eq in E1. do 4 eexists. split; [reflexivity|]. rewrite E1. eapply exact_event with (a := a) (b := todo); eauto. rewrite E. rewrite <- !app_assoc. reflexivity. }
    apply Z.eqb_neq in E1. destruct (target <=? durationOf (mid ++ [(n, e)]) m) eqn:E2.
    + apply Z.leb_le in E2. assert (MM : last_mode (mid ++ [(n, e)]) m = last_mode mid m). { rewrite mode_snoc, (costly (last_mode mid m) e); [reflexivity|]. rewrite dur_snoc in *. lia. }
      rewrite MM.
      destruct (match e with Rest _ => true | _ => false end && cut) eqn:EC.
      * destruct e; try discriminate EC. cbn in EC. subst cut. do 4 eexists. split; [reflexivity|].
        rewrite dur_snoc in E1, E2. cbn [cost] in E1, E2.
        eapply (cuts l new target true append start m a mid n (target - durationOf mid m) (duration - (target - durationOf mid m)) todo); eauto; try lia.
        rewrite E. replace (target - durationOf mid m + _) with duration by lia. reflexivity.
      * exists l, (start + zlen mid), (durationOf mid m), (last_mode mid m). split.
        { destruct e; try reflexivity. cbn in EC. rewrite EC. reflexivity. }
        eapply stops with (a := a) (b := todo); eauto; [lia|]. intros d ->. exact EC.
    + apply Z.leb_gt in E2. destruct (IH a (mid ++ [(n, e)])) as (l' & idx & t & m' & H & M); [rewrite E, <- !app_assoc; reflexivity|exact S| |].
      { intros p q H. apply split_last in H as [(q' & -> & H)|(-> & ->)]; [apply (P _ _ H)|lia]. }
      exists l', idx, t, m'. split; [|exact M]. rewrite <- H. f_equal. rewrite zlen_app. change (zlen [(n, e)]) with 1. lia.
Qed.

Lemma insert_at {A} (a b : list A) x i : i = zlen a -> insert (a ++ b) i x = a ++ x :: b.
Proof.
  intros ->. unfold insert. pose proof (zlen_nonneg a). pose proof (zlen_nonneg b). unfold clamp. rewrite (proj2 (Z.ltb_ge (zlen a) 0)) by lia. rewrite zlen_app, Z.min_l by lia.
  unfold zlen. rewrite Nat2Z.id, firstn_app, skipn_app, Nat.sub_diag, firstn_all, skipn_all. cbn [firstn skipn]. rewrite app_nil_r. reflexivity.
Qed.
Lemma assign_out n e (l : evs) : ~ In n (map fst l) -> assign n e l = l.
Proof.
  intros H. unfold assign. rewrite <- (map_id l) at 2. apply map_ext_in. intros p Hp. destruct (fst p =? n) eqn:E; [|reflexivity]. apply Z.eqb_eq in E. exfalso. apply H. rewrite <- E. apply in_map. exact Hp.
Qed.
Lemma assign_at n e e' (a b : evs) : ~ In n (map fst a) -> ~ In n (map fst b) -> assign n e (a ++ (n, e') :: b) = a ++ (n, e) :: b.
Proof.
  intros A B. unfold assign. rewrite map_app. cbn [map fst]. rewrite Z.eqb_refl. pose proof (assign_out n e a A) as EA. pose proof (assign_out n e b B) as EB. unfold assign in EA, EB. rewrite EA, EB. reflexivity.
Qed.
Lemma nodup_mid (a : evs) n e (b : evs) : NoDup (map fst (a ++ (n, e) :: b)) -> ~ In n (map fst a) /\ ~ In n (map fst b).
Proof.
  rewrite map_app. cbn [map fst]. intros H. apply NoDup_remove_2 in H. rewrite in_app_iff in H. tauto.
Qed.

(** the result of moving: [x] are the events passed *)
Definition move_result (l : evs) (new start time m : Z) (cut append : bool) (l' : evs) (idx t m' : Z) : Prop :=
  exists a x b, l' = a ++ x ++ b /\ zlen a = start /\ idx = start + zlen x /\ durationOf x m = t /\ last_mode x m = m' /\ t <= time /\
  (forall p q, x = p ++ q -> q <> [] -> durationOf p m < time) /\
  (t < time -> l' = l /\ (b = [] /\ append = false \/ exists n e b', b = (n, e) :: b' /\ time < t + cost m' e /\ ((forall d, e <> Rest d) \/ cut = false))) /\
  (l' = l \/
   (cut = true /\ t = time /\ exists a n d1 d2 b, l = a ++ (n, Rest (d1 + d2)) :: b /\ l' = a ++ (n, Rest d1) :: (new, Rest d2) :: b /\ 0 < d1 /\ 0 < d2 /\ idx = zlen a + 1) \/
   (append = true /\ t = time /\ idx = zlen l' /\ exists d, 0 < d /\ l' = l ++ [(new, Rest d)])).
Lemma moved_result l new time cut append start m l' idx t m' : NoDup (map fst l) -> moved l new time cut append start m l' idx t m' -> move_result l new start time m cut append l' idx t m'.
Proof.
  intros ND M. destruct M as [a mid n e b E S D P|a mid n e b E S D C P|a mid n d1 d2 b E S C D1 D2 D P|a mid E S A P|a mid E S A P].
  - exists a, (mid ++ [(n, e)]), b. split; [exact E|]. split; [exact S|]. split; [rewrite zlen_app; change (zlen [(n, e)]) with 1; lia|]. split; [exact D|]. split; [reflexivity|]. split; [lia|]. split.
    { intros p q H Q. apply split_last in H as [(q' & -> & H)|(-> & ->)]; [apply (P _ _ H)|congruence]. }
    split; [lia|left; reflexivity].
  - pose proof (P mid [] (eq_sym (app_nil_r mid))). exists a, mid, ((n, e) :: b). split; [exact E|]. split; [exact S|]. do 3 (split; [reflexivity|]). split; [lia|]. split.
    { intros p q H' Q. apply (P _ _ H'). }
    split; [|left; reflexivity]. intros _. split; [reflexivity|]. right. exists n, e, b. split; [reflexivity|]. rewrite dur_snoc in D. split; [lia|].
    destruct e; try (left; intros d HH; discriminate HH). right. eapply C. reflexivity.
  - rewrite app_assoc in E. destruct (nodup_mid (a ++ mid) n (Rest (d1 + d2)) b) as (NA & NB); [rewrite <- E; exact ND|].
    assert (EL : insert (assign n (Rest d1) l) (start + zlen mid + 1) (new, Rest d2) = (a ++ mid) ++ (n, Rest d1) :: (new, Rest d2) :: b).
    { rewrite E, assign_at by assumption. change ((n, Rest d1) :: b) with ([(n, Rest d1)] ++ b). rewrite app_assoc, insert_at; [rewrite <- !app_assoc; reflexivity|]. rewrite !zlen_app. change (zlen [(n, Rest d1)]) with 1. lia. }
    rewrite EL. pose proof (P mid [] (eq_sym (app_nil_r mid))) as PM. exists a, (mid ++ [(n, Rest d1)]), ((new, Rest d2) :: b). split; [rewrite <- !app_assoc; reflexivity|]. split; [exact S|].
    split; [rewrite zlen_app; change (zlen [(n, Rest d1)]) with 1; lia|]. split; [rewrite dur_snoc; cbn [cost]; lia|]. split; [rewrite mode_snoc; reflexivity|]. split; [lia|]. split.
    { intros p q H Q. apply split_last in H as [(q' & -> & H)|(-> & ->)]; [apply (P _ _ H)|congruence]. }
    split; [lia|]. right. left. split; [exact C|]. split; [reflexivity|]. exists (a ++ mid), n, d1, d2, b. split; [exact E|]. split; [reflexivity|]. split; [exact D1|]. split; [exact D2|]. rewrite zlen_app. lia.
  - pose proof (P mid [] (eq_sym (app_nil_r mid))) as PM. exists a, (mid ++ [(new, Rest (time - durationOf mid m))]), []. split; [rewrite E, <- !app_assoc, app_nil_r; reflexivity|]. split; [exact S|].
    split; [rewrite E, !zlen_app; match goal with |- context [zlen [?z]] => change (zlen [z]) with 1 end; lia|]. split; [rewrite dur_snoc; cbn [cost]; lia|]. split; [rewrite mode_snoc; reflexivity|]. split; [lia|]. split.
    { intros p q H Q. apply split_last in H as [(q' & -> & H)|(-> & ->)]; [apply (P _ _ H)|congruence]. }
    split; [lia|]. right. right. split; [exact A|]. split; [reflexivity|]. split; [rewrite zlen_app; reflexivity|]. eexists. split; [|reflexivity]. lia.
  - pose proof (P mid [] (eq_sym (app_nil_r mid))) as PM. exists a, mid, []. split; [rewrite app_nil_r; exact E|]. split; [exact S|]. split; [rewrite E, zlen_app; lia|]. do 2 (split; [reflexivity|]). split; [lia|]. split.
    { intros p q H' Q. apply (P _ _ H'). }
    split; [|left; reflexivity]. intros _. split; [reflexivity|left; split; [reflexivity|exact A]].
Qed.
Lemma move_ok l new start time m cut append : NoDup (map fst l) -> 0 <= start <= zlen l -> 0 <= time ->
  exists l' idx t m', moveInTime l new start time m cut append = Ok (l', (idx, t, m')) /\ move_result l new start time m cut append l' idx t m'.
Proof.
  intros ND S T. destruct (Z.eq_dec time 0) as [->|NZ].
  { exists l, start, 0, m. split; [reflexivity|]. exists (firstn (Z.to_nat start) l), [], (skipn (Z.to_nat start) l). change (zlen (@nil (Z * ev))) with 0. split; [symmetry; apply firstn_skipn|]. split; [rewrite zlen_firstn; lia|].
    split; [lia|]. split; [reflexivity|]. split; [reflexivity|]. split; [lia|]. split; [intros p q E Q; symmetry in E; apply app_eq_nil in E as (_ & ->); congruence|]. split; [lia|left; reflexivity]. }
  unfold moveInTime. rewrite (proj2 (Z.ltb_ge time 0)), (proj2 (Z.eqb_neq time 0)), (proj2 (Z.ltb_ge (zlen l) start)), (proj2 (Z.ltb_ge start (- zlen l))), (proj2 (Z.ltb_ge start 0)) by lia.
  destruct (move_moved l new time cut append start m (skipn (Z.to_nat start) l) (firstn (Z.to_nat start) l) []) as (l' & idx & t & m' & H & M).
  - symmetry. apply firstn_skipn.
  - rewrite zlen_firstn. lia.
  - intros p q E. symmetry in E. apply app_eq_nil in E as (-> & ->). cbn [durationOf]; lia.
  - change (zlen (@nil (Z * ev))) with 0 in H. rewrite Z.add_0_r in H. exists l', idx, t, m'. split; [f_equal; exact H|]. apply moved_result; assumption.
Qed.
(** the same with slices *)
Lemma result_slices l new start time m cut append l' idx t m' : move_result l new start time m cut append l' idx t m' ->
  start <= idx <= zlen l' /\ total (slice l' start idx) m = t /\ last_mode (slice l' start idx) m = m' /\ t <= time /\
  (forall j, start <= j < idx -> total (slice l' start j) m < time) /\
  (t < time -> l' = l /\ (idx = zlen l /\ append = false \/ exists n e, get l idx = Ok (n, e) /\ time < t + cost m' e /\ ((forall d, e <> Rest d) \/ cut = false))).
Proof.
  intros (a & x & b & E & S & I & D & M & T & P & N & _). pose proof (zlen_nonneg x). pose proof (zlen_nonneg b). pose proof (zlen_nonneg a).
  assert (SX : slice l' start idx = x) by (rewrite E; apply slice_mid; [symmetry; exact S|exact I]).
  split; [rewrite E, !zlen_app; lia|]. rewrite <- dur_total, SX. split; [exact D|]. split; [exact M|]. split; [exact T|]. split.
  - intros j J. rewrite <- dur_total, E. pose proof (firstn_skipn (Z.to_nat (j - start)) x) as FS. rewrite <- FS, <- app_assoc. rewrite slice_mid; [|symmetry; exact S|rewrite zlen_firstn; lia].
    apply (P _ _ (eq_sym FS)). intros C. apply (f_equal zlen) in C. rewrite zlen_skipn in C. change (zlen (@nil (Z * ev))) with 0 in C. lia.
  - intros L. destruct (N L) as (-> & [(-> & A)|(n & e & b' & -> & C & R)]); (split; [reflexivity|]).
    + left. split; [|exact A]. rewrite E, app_nil_r, zlen_app. lia.
    + right. exists n, e. split; [|split; assumption]. rewrite E, app_assoc. apply get_mid. rewrite zlen_app. lia.
Qed.

(** ** Timelines *)
Lemma timeline_app a : forall b m t, timeline (a ++ b) m t = timeline a m t ++ timeline b (last_mode a m) (t + durationOf a m).
Proof.
  induction a as [|(n & e) a IH]; intros b m t; [cbn [app timeline last_mode durationOf]; rewrite Z.add_0_r; reflexivity|].
  rewrite <- app_comm_cons. cbn [timeline last_mode]. rewrite IH, dur_cons, Z.add_assoc. destruct e; reflexivity.
Qed.
Lemma timed_cost n e m : timed (n, e) -> 0 <= cost m e.
Proof. unfold timed. cbn [snd]. destruct e; cbn [cost]; try lia. destruct (m =? 1); lia. Qed.
Lemma dur_nonneg l : forall m, Forall timed l -> 0 <= durationOf l m.
Proof.
  induction l as [|(n & e) l IH]; intros m T; [cbn; lia|]. inversion T as [|? ? T1 T2]; subst. rewrite dur_cons. pose proof (timed_cost n e m T1). specialize (IH (match sets_mode e with Some v => v | None => m end) T2). lia.
Qed.
Lemma timeline_bound l : forall m t s d x, Forall timed l -> In (s, d, x) (timeline l m t) -> t <= s /\ s + d <= t + durationOf l m /\ 0 <= d.
Proof.
  induction l as [|(n & e) l IH]; intros m t s d x T I; [destruct I|]. inversion T as [|? ? T1 T2]; subst. rewrite dur_cons. cbn [timeline] in I. pose proof (timed_cost n e m T1). pose proof (dur_nonneg l (match sets_mode e with Some v => v | None => m end) T2).
  assert (J : (s, d, x) = (t, cost m e, (n, e)) \/ In (s, d, x) (timeline l (match sets_mode e with Some v => v | None => m end) (t + cost m e))).
  { destruct e; cbn [In] in I; try (destruct I as [I|I]; [left; symmetry; exact I|right; exact I]). right; exact I. }
  destruct J as [J|J]; [injection J as -> -> ->; lia|]. apply (IH _ _ _ _ _ T2) in J. lia.
Qed.
Lemma result_timeline l new start time m cut append l' idx t m' : move_result l new start time m cut append l' idx t m' -> forall m0 t0, timeline l' m0 t0 = timeline l m0 t0.
Proof.
  intros (_ & _ & _ & _ & _ & _ & _ & _ & _ & _ & _ & [->|[(_ & _ & a & n & d1 & d2 & b & -> & -> & _)|(_ & _ & _ & d & _ & ->)]]) m0 t0; [reflexivity| |].
  - rewrite !timeline_app. f_equal. cbn [timeline sets_mode cost]. f_equal. lia.
  - rewrite timeline_app. cbn [timeline]. apply app_nil_r.
Qed.
Lemma result_timed l new start time m cut append l' idx t m' : move_result l new start time m cut append l' idx t m' -> Forall timed l -> Forall timed l'.
Proof.
  intros (_ & _ & _ & _ & _ & _ & _ & _ & _ & _ & _ & [->|[(_ & _ & a & n & d1 & d2 & b & -> & -> & D1 & D2 & _)|(_ & _ & _ & d & D & ->)]]) F; [exact F| |].
  - apply Forall_app in F as (F1 & F2). inversion F2; subst. apply Forall_app. split; [exact F1|]. constructor; [unfold timed; cbn; lia|]. constructor; [unfold timed; cbn; lia|assumption].
  - apply Forall_app. split; [exact F|]. constructor; [unfold timed; cbn; lia|constructor].
Qed.
Lemma result_names l new start time m cut append l' idx t m' : move_result l new start time m cut append l' idx t m' -> NoDup (map fst l) -> ~ In new (map fst l) ->
  NoDup (map fst l') /\ (forall n, In n (map fst l') -> In n (map fst l) \/ n = new).
Proof.
  intros (_ & _ & _ & _ & _ & _ & _ & _ & _ & _ & _ & [->|[(_ & _ & a & n & d1 & d2 & b & -> & -> & D1 & D2 & _)|(_ & _ & _ & d & D & ->)]]) ND NI; [tauto| |].
  - rewrite !map_app in *. cbn [map fst] in *. split.
    + rewrite in_app_iff in NI. cbn [In] in NI. change (n :: new :: map fst b) with ([n; new] ++ map fst b). rewrite app_assoc. change (n :: map fst b) with ([n] ++ map fst b) in ND. rewrite app_assoc in ND.
      apply (NoDup_Add (a := new) (l := (map fst a ++ [n]) ++ map fst b)); [|split; [exact ND|]].
      * change [n; new] with ([n] ++ [new]). rewrite app_assoc. rewrite <- (app_assoc _ [new]). cbn [app]. apply Add_app.
      * rewrite !in_app_iff. cbn [In]. tauto.
    + intros k. rewrite !in_app_iff. cbn [In]. intuition congruence.
  - rewrite map_app. cbn [map fst]. split.
    + apply (NoDup_Add (a := new) (l := map fst l)); [|split; assumption]. rewrite <- (app_nil_r (map fst l)) at 1. apply Add_app.
    + intros k. rewrite in_app_iff. cbn [In]. intuition congruence.
Qed.
(** the move is exact unless a note goes on at that time *)
Lemma result_exact l new time append l' idx t m' : move_result l new 0 time 1 true append l' idx t m' -> Forall timed l -> 0 <= time -> append = true -> (t = time <-> ~ straddled l time).
Proof.
  intros M F T AP. pose proof (result_timeline _ _ _ _ _ _ _ _ _ _ _ M 1 0) as TL. pose proof (result_timed _ _ _ _ _ _ _ _ _ _ _ M F) as F'. unfold straddled. rewrite <- TL.
  destruct M as (a & x & b & E & S & I & D & LM & LE & _ & N & _). apply zlen_0 in S. subst a. cbn [app] in E. split.
  - intros -> (s & d & y & IN & SD). rewrite E, timeline_app in IN. rewrite E in F'. apply Forall_app in F' as (FX & FB). apply in_app_iff in IN as [IN|IN].
    + apply timeline_bound in IN; [|exact FX]. lia.
    + apply timeline_bound in IN; [|exact FB]. lia.
  - intros NS. destruct (Z.eq_dec t time) as [Q|Q]; [exact Q|]. exfalso. destruct (N ltac:(lia)) as (_ & [(_ & B)|(n & e & b' & -> & C & NR)]); [congruence|]. apply NS.
    destruct NR as [NR|NR]; [|discriminate]. exists t, (cost m' e), (n, e). split.
    + rewrite E, timeline_app. apply in_app_iff. right. cbn [timeline]. rewrite D, LM, Z.add_0_l. destruct e; try (left; reflexivity). exfalso. eapply NR. reflexivity.
    + lia.
Qed.

(** the search only sees the events still to come *)
Lemma move_loop_shift l w new target : forall todo idx jdx el mode, zlen l = idx + zlen todo -> zlen w = jdx + zlen todo ->
  exists k t m, move_loop l new target false false todo idx el mode = (l, (idx + k, t, m)) /\ move_loop w new target false false todo jdx el mode = (w, (jdx + k, t, m)).
Proof.
  induction todo as [|(n, e) r IH]; intros idx jdx el mode L W.
  - exists 0, el, mode. cbn [move_loop]. rewrite L, W. split; reflexivity.
  - rewrite zlen_cons in L, W. cbn [move_loop]. destruct (_ =? target).
    + exists 1. do 2 eexists. split; reflexivity.
    + destruct (target <=? _).
      * exists 0, el. destruct e; eexists; rewrite !Z.add_0_r; split; reflexivity.
      * destruct (IH (idx + 1) (jdx + 1) (el + durationOf [(n, e)] mode) (match e with Byte1 t v => if t =? 199 then v else mode | _ => mode end)) as (k & t & m & A & B); [lia|lia|]. exists (1 + k), t, m. rewrite A, B. split; f_equal; f_equal; f_equal; lia.
Qed.
Lemma move_negative l new start time mode : - zlen l <= start < 0 -> 0 < time ->
  let walk := skipn (Z.to_nat (start + zlen l)) l ++ l in
  exists k t m, moveInTime l new start time mode false false = Ok (l, (start + k, t, m)) /\ moveInTime walk new 0 time mode false false = Ok (walk, (k, t, m)).
Proof.
  intros S T walk. assert (W : zlen walk = - start + zlen l) by (unfold walk, zlen in *; rewrite app_length, skipn_length; lia).
  destruct (move_loop_shift l walk new time walk start 0 0 mode) as (k & t & m & A & B); [lia|lia|]. exists k, t, m. unfold moveInTime.
  rewrite (proj2 (Z.ltb_ge time 0)), (proj2 (Z.eqb_neq time 0)), (proj2 (Z.ltb_ge (zlen l) start)), (proj2 (Z.ltb_ge start (- zlen l))), (proj2 (Z.ltb_lt start 0)) by lia.
  rewrite (proj2 (Z.ltb_ge (zlen walk) 0)), (proj2 (Z.ltb_ge 0 (- zlen walk))) by lia. cbv zeta. cbn [Z.ltb Z.compare Z.to_nat skipn]. fold walk.
  change (skipn (Z.to_nat 0) walk) with walk. rewrite A, B. split; reflexivity.
Qed.

(** * Proofs about tracks: loops, velocities, initial values *)
From Coq Require Import Lia.
From Verif Require Import PyBase PyLemmas PyTac SeqModel SeqParse SbnkModel MusicModel MusicSpec MusicLemmas.

(** ** Track.loop *)
Lemma looped_timeline l : looped l = existsb (fun q => is_jump (snd (snd q))) (timeline l 1 0).
Proof.
  unfold looped. generalize 1 as m, 0 as t. induction l as [|(n & e) l IH]; intros m t; [reflexivity|]. cbn [existsb timeline snd]. destruct e; cbn [is_jump orb existsb snd]; apply IH || reflexivity.
Qed.
Lemma prefix_split {A} (p q x y : list A) : p ++ q = x ++ y -> zlen p <= zlen x -> exists z, x = p ++ z /\ q = z ++ y.
Proof.
  revert x. induction p as [|c p IH]; intros x E L; [exists x; split; [reflexivity|exact E]|].
  rewrite zlen_cons in L. destruct x as [|c' x]; [change (zlen (@nil A)) with 0 in L; pose proof (zlen_nonneg p); lia|]. rewrite zlen_cons in L. cbn [app] in E. injection E as -> E.
  destruct (IH x E ltac:(lia)) as (z & -> & Q). exists z. split; [reflexivity|exact Q].
Qed.
(** what was passed to reach [s] is passed again on the way to [e] *)
Lemma move_twice l1 new2 s e l2 x1 b1 i2 t2 m2 : l1 = x1 ++ b1 -> durationOf x1 1 = s -> s < e -> Forall timed l1 ->
  move_result l1 new2 0 e 1 true true l2 i2 t2 m2 -> t2 = e ->
  exists n ev body after, l2 = x1 ++ ((n, ev) :: body) ++ after /\ durationOf (x1 ++ (n, ev) :: body) 1 = e /\ i2 = zlen (x1 ++ (n, ev) :: body).
Proof.
  intros E1 D1 L F M ->. pose proof (result_timed _ _ _ _ _ _ _ _ _ _ _ M F) as F2. destruct M as (a & x & b & E & S & I & D & _ & _ & _ & _ & O). apply zlen_0 in S. subst a. cbn [app] in E.
  assert (G : exists z, x = x1 ++ z /\ z <> []).
  { assert (PF : exists b1', l2 = x1 ++ b1').
    { destruct O as [->|[(_ & _ & a & n & d1 & d2 & b' & Q1 & Q2 & P1 & P2 & QI)|(_ & _ & _ & d & _ & ->)]]; [eauto| |rewrite E1, <- app_assoc; eauto].
      destruct (Z.le_gt_cases (zlen x1) (zlen a)) as [C|C].
      - destruct (prefix_split x1 b1 a ((n, Rest (d1 + d2)) :: b')) as (z & -> & _); [rewrite <- E1; exact Q1|exact C|]. rewrite Q2, <- app_assoc. eauto.
      - exfalso. rewrite Q1 in E1. destruct (prefix_split (a ++ [(n, Rest (d1 + d2))]) b' x1 b1) as (z & -> & _); [rewrite <- app_assoc; exact E1|rewrite zlen_app; change (zlen [(n, Rest (d1 + d2))]) with 1; lia|].
        rewrite Q1, E1 in F. apply Forall_app in F as (F & _). apply Forall_app in F as (_ & FZ). rewrite dur_app, dur_snoc in D1. cbn [cost] in D1. pose proof (dur_nonneg z (last_mode (a ++ [(n, Rest (d1 + d2))]) 1) FZ).
        assert (EX : x = a ++ [(n, Rest d1)]).
        { rewrite E in Q2. change ((n, Rest d1) :: (new2, Rest d2) :: b') with ([(n, Rest d1)] ++ (new2, Rest d2) :: b') in Q2. rewrite app_assoc in Q2. destruct (prefix_split _ _ _ _ Q2) as (z' & EE & _); [rewrite zlen_app; change (zlen [(n, Rest d1)]) with 1; lia|].
          assert (ZZ : zlen z' = 0). { apply (f_equal zlen) in EE. rewrite !zlen_app in EE. change (zlen [(n, Rest d1)]) with 1 in EE. lia. } apply zlen_0 in ZZ. subst z'. rewrite app_nil_r in EE. symmetry. exact EE. }
        rewrite EX, dur_snoc in D. cbn [cost] in D. lia. }
    destruct PF as (b1' & PF). destruct (Z.le_gt_cases (zlen x1) (zlen x)) as [C|C].
    - rewrite PF in E. destruct (prefix_split _ _ _ _ E C) as (z & -> & _). exists z. split; [reflexivity|]. intros ->. rewrite app_nil_r in D. lia.
    - exfalso. rewrite E in PF. destruct (prefix_split x b x1 b1' PF ltac:(lia)) as (z & -> & _). rewrite E1 in F. apply Forall_app in F as (F & _). apply Forall_app in F as (_ & FZ). rewrite dur_app in D1. pose proof (dur_nonneg z (last_mode x 1) FZ). lia. }
  destruct G as ([|(n & ev) body] & -> & NE); [congruence|]. exists n, ev, body, b. split; [rewrite E, <- app_assoc; reflexivity|]. split; [exact D|lia].
Qed.
Definition loop_result (l : evs) (new s e : Z) (l3 l' : evs) (clear : bool) : Prop :=
  exists before n ev body after, l3 = before ++ ((n, ev) :: body) ++ (new + 2, Jump (Some n)) :: after /\
  l' = before ++ ((n, ev) :: body) ++ (new + 2, Jump (Some n)) :: (if clear then [] else after) /\
  durationOf before 1 = s /\ durationOf (before ++ (n, ev) :: body) 1 = e /\
  timeline (before ++ ((n, ev) :: body) ++ after) 1 0 = timeline l 1 0 /\ NoDup (map fst l3) /\ Forall timed l3.
Lemma loop_ok l new s e clear : NoDup (map fst l) -> Forall (fun p => fst p < new) l -> Forall timed l -> looped l = false -> 0 <= s < e -> ~ straddled l s -> ~ straddled l e ->
  exists l3 l', track_loop_all l new s e clear = Ok (l3, l') /\ loop_result l new s e l3 l' clear.
Proof.
  intros ND FR F NL SE NS NE. unfold track_loop_all. rewrite NL.
  assert (FRn : forall k, new <= k -> ~ In k (map fst l)). { intros k K I. apply in_map_iff in I as (p & <- & I). rewrite Forall_forall in FR. specialize (FR p I). lia. }
  destruct (move_ok l new 0 s MONO true true ND) as (l1 & i1 & t1 & m1 & H1 & M1); [pose proof (zlen_nonneg l); lia|lia|]. rewrite H1. cbn [bind].
  pose proof (proj2 (result_exact _ _ _ _ _ _ _ _ M1 F ltac:(lia) eq_refl) NS) as ->. rewrite Z.eqb_refl. cbn [guard bind].
  pose proof (result_timeline _ _ _ _ _ _ _ _ _ _ _ M1 1 0) as TL1. pose proof (result_timed _ _ _ _ _ _ _ _ _ _ _ M1 F) as F1.
  destruct (result_names _ _ _ _ _ _ _ _ _ _ _ M1 ND (FRn new ltac:(lia))) as (ND1 & IN1).
  destruct (move_ok l1 (new + 1) 0 e MONO true true ND1) as (l2 & i2 & t2 & m2 & H2 & M2); [pose proof (zlen_nonneg l1); lia|lia|]. rewrite H2. cbn [bind].
  assert (NE1 : ~ straddled l1 e) by (unfold straddled in *; rewrite TL1; exact NE).
  pose proof (proj2 (result_exact _ _ _ _ _ _ _ _ M2 F1 ltac:(lia) eq_refl) NE1) as ->. rewrite Z.eqb_refl. cbn [guard bind].
  pose proof (result_timeline _ _ _ _ _ _ _ _ _ _ _ M2 1 0) as TL2. pose proof (result_timed _ _ _ _ _ _ _ _ _ _ _ M2 F1) as F2.
  destruct (result_names _ _ _ _ _ _ _ _ _ _ _ M2 ND1) as (ND2 & IN2). { intros I. apply IN1 in I as [I|I]; [apply (FRn (new + 1)); [lia|exact I]|lia]. }
  destruct M1 as (a & x1 & b1 & E1 & S1 & I1 & D1 & _). apply zlen_0 in S1. subst a. cbn [app] in E1.
  destruct (move_twice l1 (new + 1) s e l2 x1 b1 i2 e m2 E1 D1 ltac:(lia) F1 M2 eq_refl) as (n & ev & body & after & E2 & D2 & I2).
  assert (G : get l2 i1 = Ok (n, ev)). { rewrite E2, <- app_comm_cons. apply get_mid. lia. }
  rewrite G. cbn [bind fst].
  assert (EI : insert l2 i2 (new + 2, Jump (Some n)) = (x1 ++ (n, ev) :: body) ++ (new + 2, Jump (Some n)) :: after). { rewrite E2, app_assoc. apply insert_at. exact I2. }
  rewrite EI. eexists. eexists. split; [reflexivity|]. exists x1, n, ev, body, after.
  split; [rewrite <- app_assoc; reflexivity|]. split.
  { destruct clear; [|rewrite <- app_assoc; reflexivity]. unfold slice_to. change ((new + 2, Jump (Some n)) :: after) with ([(new + 2, Jump (Some n))] ++ after). rewrite app_assoc, slice_hit; [rewrite <- app_assoc; reflexivity|reflexivity|].
    rewrite zlen_app. change (zlen [(new + 2, Jump (Some n))]) with 1. lia. }
  split; [exact D1|]. split; [exact D2|]. split; [rewrite <- E2, TL2; exact TL1|]. split.
  - rewrite map_app. cbn [map fst]. apply (NoDup_Add (a := new + 2) (l := map fst (x1 ++ (n, ev) :: body) ++ map fst after)); [apply Add_app|]. rewrite <- map_app, <- app_assoc, <- E2. split; [exact ND2|].
    intros I. apply IN2 in I as [I|I]; [|lia]. apply IN1 in I as [I|I]; [|lia]. apply (FRn (new + 2)); [lia|exact I].
  - rewrite app_assoc in E2. rewrite E2 in F2. apply Forall_app in F2 as (A & B). apply Forall_app. split; [exact A|]. constructor; [exact I|exact B].
Qed.
Lemma loop_refused l new s e clear : NoDup (map fst l) -> Forall (fun p => fst p < new) l -> Forall timed l -> 0 <= s < e -> looped l = true \/ straddled l s \/ straddled l e ->
  track_loop_all l new s e clear = Err RuntimeError.
Proof.
  intros ND FR F SE H. unfold track_loop_all. destruct (looped l) eqn:NL; [reflexivity|]. destruct H as [H|H]; [discriminate|].
  assert (FRn : forall k, new <= k -> ~ In k (map fst l)). { intros k K I. apply in_map_iff in I as (p & <- & I). rewrite Forall_forall in FR. specialize (FR p I). lia. }
  destruct (move_ok l new 0 s MONO true true ND) as (l1 & i1 & t1 & m1 & H1 & M1); [pose proof (zlen_nonneg l); lia|lia|]. rewrite H1. cbn [bind].
  pose proof (result_exact _ _ _ _ _ _ _ _ M1 F ltac:(lia) eq_refl) as X1. destruct (t1 =? s) eqn:Q; [|reflexivity]. apply Z.eqb_eq in Q. apply X1 in Q. destruct H as [H|H]; [contradiction|]. cbn [guard bind].
  pose proof (result_timeline _ _ _ _ _ _ _ _ _ _ _ M1 1 0) as TL1. pose proof (result_timed _ _ _ _ _ _ _ _ _ _ _ M1 F) as F1.
  destruct (result_names _ _ _ _ _ _ _ _ _ _ _ M1 ND (FRn new ltac:(lia))) as (ND1 & IN1).
  destruct (move_ok l1 (new + 1) 0 e MONO true true ND1) as (l2 & i2 & t2 & m2 & H2 & M2); [pose proof (zlen_nonneg l1); lia|lia|]. rewrite H2. cbn [bind].
  pose proof (result_exact _ _ _ _ _ _ _ _ M2 F1 ltac:(lia) eq_refl) as X2. destruct (t2 =? e) eqn:Q2; [|reflexivity]. apply Z.eqb_eq in Q2. apply X2 in Q2. exfalso. apply Q2. unfold straddled in *. rewrite TL1. exact H.
Qed.

(** ** Note velocities *)
Lemma lookup_at (a : evs) n e b : ~ In n (map fst a) -> lookup n (a ++ (n, e) :: b) = Some e.
Proof.
  induction a as [|(k & f) a IH]; intros N; cbn [app]; rewrite lookup_cons; [rewrite Z.eqb_refl; reflexivity|]. cbn [map fst In] in N. destruct (k =? n) eqn:E; [apply Z.eqb_eq in E; tauto|]. apply IH. tauto.
Qed.
(** one step of a loop that reads and assigns each object in turn *)
Lemma each_object (step : evs -> Z -> res evs) (g : ev -> res ev) :
  (forall a n e b, ~ In n (map fst a) -> ~ In n (map fst b) -> step (a ++ (n, e) :: b) n = (e' <- g e ;; Ok (a ++ (n, e') :: b))) ->
  forall l a, NoDup (map fst (a ++ l)) -> foldM step (a ++ l) (map fst l) = (l' <- mapM (fun p => e <- g (snd p) ;; Ok (fst p, e)) l ;; Ok (a ++ l')).
Proof.
  intros H. induction l as [|(n & e) l IH]; intros a ND; [reflexivity|]. cbn [map fst foldM mapM snd]. destruct (nodup_mid _ _ _ _ ND) as (NA & NB). rewrite (H a n e l NA NB).
  destruct (g e) as [e'|x]; [|reflexivity]. cbn [bind]. change ((n, e') :: l) with ([(n, e')] ++ l). rewrite app_assoc, IH.
  - destruct (mapM _ l) as [l'|x]; [|reflexivity]. cbn [bind]. rewrite <- app_assoc. reflexivity.
  - rewrite <- app_assoc. cbn [app]. rewrite !map_app in *. exact ND.
Qed.
Definition velocity (f : Z -> Z) (clamp : bool) (e : ev) : res ev :=
  match e with
  | Note t v u d => if (0 <=? f v) && (f v <=? 127) then Ok (Note t (f v) u d) else if clamp then Ok (Note t (Z.min (Z.max (f v) 0) 127) u d) else Err ValueError
  | _ => Ok e
  end.
Lemma velocities f c l : NoDup (map fst l) -> modifyVelocities f c l = mapM (fun p => e <- velocity f c (snd p) ;; Ok (fst p, e)) l.
Proof.
  intros ND. unfold modifyVelocities. change l with ([] ++ l) at 1. rewrite (each_object _ (velocity f c)); [destruct (mapM _ l); reflexivity| |exact ND].
  intros a n e b NA NB. rewrite lookup_at by exact NA. destruct e; try reflexivity. cbn [velocity]. destruct ((0 <=? f velocity0) && (f velocity0 <=? 127)); [cbn [bind]; rewrite assign_at by assumption; reflexivity|].
  destruct c; [cbn [bind]; rewrite assign_at by assumption; reflexivity|reflexivity].
Qed.

(** ** Initial values *)
Lemma class_type c e : In c initial_classes -> class_ok e -> ev_type e = Some c -> ~ is_time e /\ exists v, fits c v /\ e = event_of c v.
Proof.
  intros C K T. assert (CC : c = 0x81 \/ c = 0xE1 \/ (0xC0 <= c <= 0xD3)) by (cbn in C; lia).
  destruct e; cbn [ev_type class_ok] in *; try discriminate T; injection T as T; try lia.
  - split; [intros []|]. exists (IInstr bankID instrumentID). split; [symmetry; exact T|reflexivity].
  - subst type. split; [intros []|]. exists (IVal value). cbn [fits event_of]. split; [lia|]. rewrite (proj2 (Z.eqb_neq c 0xE1)) by lia. reflexivity.
  - subst type. split; [intros []|]. exists (IVal value). cbn [fits event_of]. split; [lia|]. rewrite (proj2 (Z.eqb_eq c 0xE1)) by lia. reflexivity.
Qed.
Lemma of_class_iff c e : of_class c e = true <-> ev_type e = Some c.
Proof. unfold of_class. destruct (ev_type e) as [t|]; [rewrite Z.eqb_eq; split; [intros ->; reflexivity|intros H; injection H as ->; reflexivity]|split; discriminate]. Qed.
Lemma find_skip c a l : Forall (fun p => ev_type (snd p) <> Some c /\ ~ is_time (snd p)) a -> findControl c (a ++ l) = findControl c l.
Proof.
  induction 1 as [|(n & e) a (N & T) F IH]; [reflexivity|]. cbn [app findControl snd] in *. destruct (of_class c e) eqn:E; [apply of_class_iff in E; contradiction|]. destruct e; cbn [is_time] in T; try tauto; exact IH.
Qed.
Lemma find_iff c l n e : findControl c l = Some (n, e) <-> exists a b, initial c l a n e b.
Proof.
  split.
  - induction l as [|(k & f) l IH]; [discriminate|]. cbn [findControl]. destruct (of_class c f) eqn:E.
    + intros H. injection H as -> ->. exists [], l. split; [reflexivity|]. split; [apply of_class_iff; exact E|constructor].
    + intros H. assert (N : ~ is_time f) by (intros T; destruct f; try destruct T; discriminate H). assert (H' : findControl c l = Some (n, e)) by (destruct f; try exact H; discriminate H).
      destruct (IH H') as (a & b & -> & T & F). exists ((k, f) :: a), b. split; [reflexivity|]. split; [exact T|]. constructor; [|exact F]. cbn [snd]. split; [|exact N]. intros Q. apply of_class_iff in Q. congruence.
  - intros (a & b & -> & T & F). rewrite (find_skip c a _ F). cbn [findControl]. apply of_class_iff in T. rewrite T. reflexivity.
Qed.
Lemma event_of_type c v : In c initial_classes -> fits c v -> ev_type (event_of c v) = Some c /\ ~ is_time (event_of c v) /\ ev_value (event_of c v) = Some v.
Proof.
  intros C F. destruct v as [b i|x]; cbn [fits event_of] in *; [subst c; repeat split; intros []|]. destruct (c =? 0xE1) eqn:E; repeat split; intros [].
Qed.
Lemma make_ok c v : In c initial_classes -> fits c v -> (c = 0xC7 -> v = IVal 0 \/ v = IVal 1) -> make_event c v = Ok (event_of c v).
Proof.
  intros C F M. destruct v as [b i|x]; cbn [make_event fits event_of] in *.
  - subst c. reflexivity.
  - rewrite (proj2 (Z.eqb_neq c 0x81)) by lia. destruct (c =? 0xC7) eqn:E; [apply Z.eqb_eq in E; subst c; destruct (M eq_refl) as [H|H]; injection H as ->; reflexivity|]. destruct (c =? 0xE1); reflexivity.
Qed.
Lemma set_value_ok c v w : In c initial_classes -> fits c v -> fits c w -> set_value (event_of c v) w = Ok (event_of c w).
Proof.
  intros C F G. destruct v as [b i|x], w as [b' i'|x']; cbn [fits event_of] in *; try congruence; [reflexivity|]. destruct (c =? 0xE1); reflexivity.
Qed.
Lemma remove_at n e (a b : evs) : ~ In n (map fst a) -> remove_first n (a ++ (n, e) :: b) = a ++ b.
Proof.
  induction a as [|(k & f) a IH]; intros N; cbn [app remove_first fst]; [rewrite Z.eqb_refl; reflexivity|]. cbn [map fst In] in N. destruct (k =? n) eqn:E; [apply Z.eqb_eq in E; tauto|]. f_equal. apply IH. tauto.
Qed.
Lemma skip_other c c' n e l : ev_type e = Some c -> ~ is_time e -> c <> c' -> findControl c' ((n, e) :: l) = findControl c' l.
Proof.
  intros T N D. cbn [findControl]. destruct (of_class c' e) eqn:E; [apply of_class_iff in E; congruence|]. destruct e; cbn [is_time] in N; tauto || reflexivity.
Qed.
(** what an assignment of an initial value does, by cases *)
Lemma set_cases c new v l : In c initial_classes -> NoDup (map fst l) -> Forall (fun p => class_ok (snd p)) l ->
  (forall w, v = Some w -> fits c w /\ (c = 0xC7 -> w = IVal 0 \/ w = IVal 1)) ->
  match findControl c l with
  | None => setInitial c new v l = Ok (match v with None => l | Some w => (new, event_of c w) :: l end)
  | Some (n, e) => exists a b w0, initial c l a n (event_of c w0) b /\ fits c w0 /\ e = event_of c w0 /\
      setInitial c new v l = Ok (match v with None => a ++ b | Some w => a ++ (n, event_of c w) :: b end)
  end.
Proof.
  intros C ND K V. unfold setInitial. destruct (findControl c l) as [(n & e)|] eqn:E.
  - apply find_iff in E as (a & b & EL & T & F). assert (KE : class_ok e). { rewrite EL in K. apply Forall_app in K as (_ & K). inversion K; subst. assumption. }
    destruct (class_type c e C KE T) as (NT & w0 & FW & ->). exists a, b, w0. split; [split; [exact EL|split; assumption]|]. split; [exact FW|]. split; [reflexivity|].
    rewrite EL in ND. destruct (nodup_mid _ _ _ _ ND) as (NA & NB). rewrite EL. destruct v as [w|]; [|rewrite remove_at by exact NA; reflexivity].
    destruct (V w eq_refl) as (FV & _). rewrite (set_value_ok c w0 w C FW FV). cbn [bind]. rewrite assign_at by assumption. reflexivity.
  - destruct v as [w|]; [|reflexivity]. destruct (V w eq_refl) as (FV & MV). rewrite (make_ok c w C FV MV). cbn [bind]. f_equal. apply (insert_at [] l). reflexivity.
Qed.

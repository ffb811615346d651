(** * What the tools do: statements and lemmas (C126) *)
From Coq Require Import String Permutation Sorted.
From Verif Require Import PyBase PyLemmas FntModel SdatModel FilesModel FilesLemmas ToolsModel.

(** [a] comes before [b] in the order of strings: it is the beginning of [b], or the
    first character that differs is smaller *)
Definition before (a b : list Z) : Prop :=
  exists p, (a = p /\ exists y r, b = p ++ y :: r) \/ (exists x y r r', a = p ++ x :: r /\ b = p ++ y :: r' /\ x < y).
(** the names ending in .sdat *)
Definition sdat_names (l : list (list Z)) : list (list Z) := filter (fun fn => beq (skipn (length fn - 5) fn) (asc ".sdat")) l.

(** the file [fn] has been saved again, and [line] says truly whether the data is the same *)
Definition tested (order : list Z) (folder out : list Z) (d d' : disk) (fn line : list Z) : Prop :=
  exists nm x s y, fn = nm ++ asc ".sdat" /\ contents d {| pDir := folder; pName := fn |} = Some x /\ sdat_load order x = Ok s /\ sdat_save s = Ok y /\
    contents d' {| pDir := out; pName := nm ++ asc "_out.sdat" |} = Some y /\
    exists dots r, line = fn ++ [32] ++ dots ++ [32] ++ r /\ Forall (eq 46) dots /\ zlen line = Z.max 71 (zlen fn + 2) + zlen r /\
      (r = asc "good" <-> x = y) /\ (r = asc "BAD" <-> x <> y /\ nm <> fan_game).
(** why the test stops at [fn] *)
Definition trouble (order : list Z) (folder out : list Z) (d : disk) (nm : list Z) (e : ioerr) : Prop :=
  match contents d {| pDir := folder; pName := nm ++ asc ".sdat" |} with
  | None => e = OSError
  | Some x =>
      match sdat_load order x with
      | Err x => e = Raised x
      | Ok s => match sdat_save s with Err x => e = Raised x | Ok _ => e = OSError /\ writable d {| pDir := out; pName := nm ++ asc "_out.sdat" |} = false end
      end
  end.

Lemma prefixb_app p l : prefixb p l = true <-> exists r, l = p ++ r.
Proof.
  revert l. induction p as [|x p IH]; intro l; cbn [prefixb]; [split; [exists l; reflexivity|reflexivity]|].
  destruct l as [|y l]; [split; [discriminate|intros (r & [=])]|]. rewrite andb_true_iff, IH, Z.eqb_eq. split.
  - intros (-> & r & ->). exists r. reflexivity.
  - intros (r & [= -> ->]). split; [reflexivity|exists r; reflexivity].
Qed.
Lemma endswith_app s e : endswith s e = true <-> exists r, s = r ++ e.
Proof.
  unfold endswith. rewrite prefixb_app. split; intros (r & E).
  - exists (rev r). rewrite <- (rev_involutive s), E, rev_app_distr, rev_involutive. reflexivity.
  - exists (rev r). rewrite E, rev_app_distr. reflexivity.
Qed.
Lemma drop_last_app s e : drop_last (s ++ e) (length e) = s.
Proof. unfold drop_last. rewrite app_length. replace (length s + length e - length e)%nat with (length s) by lia. rewrite firstn_app, Nat.sub_diag, firstn_all, firstn_O, app_nil_r. reflexivity. Qed.
Lemma sdat_name_spec fn : beq (skipn (length fn - 5) fn) (asc ".sdat") = endswith fn (asc ".sdat").
Proof.
  apply Bool.eq_true_iff_eq. rewrite endswith_app, beq_eq. split.
  - intro E. exists (firstn (length fn - 5) fn). rewrite <- E, firstn_skipn. reflexivity.
  - intros (r & ->). rewrite app_length. replace (length r + length (asc ".sdat") - 5)%nat with (length r) by (change (length (asc ".sdat")) with 5%nat; lia).
    rewrite skipn_app, Nat.sub_diag, skipn_all, skipn_O. reflexivity.
Qed.
Lemma sdat_names_in fn l : In fn (sdat_names l) <-> In fn l /\ exists nm, fn = nm ++ asc ".sdat".
Proof. unfold sdat_names. rewrite filter_In, sdat_name_spec, endswith_app. reflexivity. Qed.

(** ** sorting *)
Lemma before_cons x a b : before a b -> before (x :: a) (x :: b).
Proof.
  intros (p & [(-> & y & r & ->)|(u & v & r & r' & -> & -> & H)]); exists (x :: p); [left|right].
  - split; [reflexivity|]. exists y, r. reflexivity.
  - exists u, v, r, r'. repeat split; assumption.
Qed.
Lemma str_ltb_before a b : str_ltb a b = true <-> before a b.
Proof.
  revert b. induction a as [|x a IH]; intro b; destruct b as [|y b]; cbn [str_ltb].
  - split; [discriminate|]. intros (p & [(_ & y & r & E)|(u & v & r & r' & E & _)]); destruct p; discriminate E.
  - split; [intros _; exists []; left; split; [reflexivity|exists y, b; reflexivity]|reflexivity].
  - split; [discriminate|]. intros (p & [(_ & y & r & E)|(u & v & r & r' & _ & E & _)]); destruct p; discriminate E.
  - rewrite orb_true_iff, andb_true_iff, Z.ltb_lt, Z.eqb_eq, IH. split.
    + intros [H|(-> & H)]; [exists []; right; exists x, y, a, b; repeat split; exact H|apply before_cons; exact H].
    + intros (p & [(E & u & r & F)|(u & v & r & r' & E & F & H)]); destruct p as [|z p]; try discriminate E.
      * injection E as -> ->. injection F as -> ->. right. split; [reflexivity|]. exists p. left. split; [reflexivity|exists u, r; reflexivity].
      * injection E as -> ->. injection F as -> ->. left. exact H.
      * injection E as -> ->. injection F as -> ->. right. split; [reflexivity|]. exists p. right. exists u, v, r, r'. repeat split; exact H.
Qed.
Lemma str_ltb_trans a b c : str_ltb a b = true -> str_ltb b c = true -> str_ltb a c = true.
Proof.
  revert b c. induction a as [|x a IH]; intros [|y b] [|z c]; cbn [str_ltb]; try discriminate; try reflexivity.
  rewrite !orb_true_iff, !andb_true_iff, !Z.ltb_lt, !Z.eqb_eq. intros [H|(E & H)] [K|(F & K)]; try (left; lia). right. split; [lia|]. exact (IH _ _ H K).
Qed.
Lemma str_ltb_total a b : str_ltb a b = false -> str_ltb b a = false -> a = b.
Proof.
  revert b. induction a as [|x a IH]; intros [|y b]; cbn [str_ltb]; try discriminate; [reflexivity|].
  rewrite !orb_false_iff, !andb_false_iff, !Z.ltb_ge, !Z.eqb_neq. intros [H H'] [K K']. assert (x = y) as -> by lia. f_equal. apply IH; [destruct H'|destruct K']; congruence || assumption.
Qed.
Lemma str_ltb_irr a : str_ltb a a = false.
Proof. induction a as [|x a IH]; cbn [str_ltb]; [reflexivity|]. rewrite IH, Z.ltb_irrefl, andb_false_r. reflexivity. Qed.
Lemma put_perm a l : Permutation (put a l) (a :: l).
Proof. induction l as [|b l IH]; cbn [put]; [reflexivity|]. destruct (str_ltb b a); [|reflexivity]. rewrite IH. apply perm_swap. Qed.
Lemma sorted_perm l : Permutation (sorted l) l.
Proof. induction l as [|a l IH]; cbn [sorted fold_right]; [reflexivity|]. fold (sorted l). rewrite put_perm, IH. reflexivity. Qed.
Lemma put_sorted a l : StronglySorted (fun x y => ~ before y x) l -> StronglySorted (fun x y => ~ before y x) (put a l).
Proof.
  induction l as [|b l IH]; intro O; cbn [put]; [constructor; [constructor|constructor]|]. inversion O as [|b' l' O' F]; subst.
  destruct (str_ltb b a) eqn:C.
  - constructor; [exact (IH O')|]. rewrite Forall_forall in *. intros x X. apply (Permutation_in x (put_perm a l)) in X. destruct X as [<-|X]; [|exact (F x X)].
    rewrite <- str_ltb_before. intro K. pose proof (str_ltb_trans _ _ _ C K) as T. rewrite str_ltb_irr in T. discriminate T.
  - constructor; [exact O|]. constructor; [rewrite <- str_ltb_before; congruence|]. rewrite Forall_forall in *. intros x X. specialize (F x X). rewrite <- str_ltb_before in *. intro K. apply F.
    destruct (str_ltb x b) eqn:D; [reflexivity|]. destruct (str_ltb b x) eqn:D2; [pose proof (str_ltb_trans _ _ _ D2 K); congruence|]. rewrite (str_ltb_total _ _ D D2) in K. congruence.
Qed.
Lemma sorted_sorted l : StronglySorted (fun x y => ~ before y x) (sorted l).
Proof. induction l as [|a l IH]; cbn [sorted fold_right]; [constructor|]. apply put_sorted. exact IH. Qed.

(** ** the loop *)
Lemma app_inv_tail_asc (a b : list Z) e : a ++ e = b ++ e -> a = b.
Proof. apply app_inv_tail. Qed.
Lemma path_eqb_eq p q : path_eqb p q = true <-> p = q.
Proof.
  destruct p as [a b], q as [a' b']. unfold path_eqb. cbn [pDir pName]. rewrite andb_true_iff, !beq_eq. split; [intros (-> & ->); reflexivity|intros [= -> ->]; split; reflexivity].
Qed.

Lemma report_shape fn r : exists dots, report fn r = fn ++ [32] ++ dots ++ [32] ++ r /\ Forall (eq 46) dots /\ zlen (report fn r) = Z.max 71 (zlen fn + 2) + zlen r.
Proof.
  exists (repeat 46 (70 - length (fn ++ [32]))). split; [unfold report; rewrite <- !app_assoc; reflexivity|]. split; [apply Forall_forall; intros x X; symmetry; exact (repeat_spec _ _ _ X)|].
  unfold report. rewrite !zlen_app. unfold zlen. rewrite repeat_length, app_length. cbn [length]. lia.
Qed.

Section Loop.
  Context (order : list Z) (folder out : list Z) (Diff : folder <> out).
  Set Default Proof Using "All".
  Let inp (nm : list Z) : path := {| pDir := folder; pName := nm ++ asc ".sdat" |}.
  Let outp (nm : list Z) : path := {| pDir := out; pName := nm ++ asc "_out.sdat" |}.

  Lemma one_spec nm d o d1 : test_one order folder out (nm ++ asc ".sdat") d = (o, d1) ->
    writable d1 = writable d /\ (forall p, p <> outp nm -> contents d1 p = contents d p) /\
    match o with
    | Failed e => trouble order folder out d nm e
    | Done (line, ok) => tested order folder out d d1 (nm ++ asc ".sdat") line /\
        (ok = true <-> exists x s y, contents d (inp nm) = Some x /\ sdat_load order x = Ok s /\ sdat_save s = Ok y /\ (x = y \/ nm = fan_game))
    end.
  Proof.
    intro T. unfold test_one, io_bind, read_file, pure, write_file, io_ret in T. change 5%nat with (length (asc ".sdat")) in T. rewrite drop_last_app in T.
    unfold trouble, tested. fold (inp nm) in T |- *. fold (outp nm) in T |- *. change {| pDir := folder; pName := nm ++ asc ".sdat" |} with (inp nm) in T |- *.
    destruct (contents d (inp nm)) as [x|] eqn:C; [|injection T as <- <-; repeat split; reflexivity].
    destruct (sdat_load order x) as [s|e] eqn:L; [|injection T as <- <-; repeat split; reflexivity].
    destruct (sdat_save s) as [y|e] eqn:V; [|injection T as <- <-; repeat split; reflexivity].
    change {| pDir := out; pName := nm ++ asc "_out.sdat" |} with (outp nm) in T |- *.
    destruct (writable d (outp nm)) eqn:W; [|injection T as <- <-; repeat split; assumption || reflexivity].
    injection T as <- <-. cbn [writable contents]. split; [reflexivity|]. split.
    { intros p P. destruct (path_eqb p (outp nm)) eqn:Q; [apply path_eqb_eq in Q; contradiction|reflexivity]. }
    assert (PE : path_eqb (outp nm) (outp nm) = true) by (apply path_eqb_eq; reflexivity).
    destruct (beq x y) eqn:XY; [apply beq_eq in XY; subst y|destruct (beq nm fan_game) eqn:G; [apply beq_eq in G|apply beq_neq in G]; apply beq_neq in XY].
    - split; [|split; [intros _; exists x, s, x; repeat split; try assumption; left; reflexivity|reflexivity]].
      exists nm, x, s, x. cbn [contents]; change {| pDir := out; pName := nm ++ asc "_out.sdat" |} with (outp nm); change {| pDir := folder; pName := nm ++ asc ".sdat" |} with (inp nm); cbv beta; rewrite PE. repeat (split; [assumption || reflexivity|]). destruct (report_shape (nm ++ asc ".sdat") (asc "good")) as (dots & E & F & Ln). exists dots, (asc "good").
      split; [exact E|]. split; [exact F|]. split; [exact Ln|]. split; [split; reflexivity|]. split; [discriminate|intros [N _]; contradiction].
    - split; [|split; [intros _; exists x, s, y; repeat split; try assumption; right; exact G|reflexivity]].
      exists nm, x, s, y. cbn [contents]; change {| pDir := out; pName := nm ++ asc "_out.sdat" |} with (outp nm); change {| pDir := folder; pName := nm ++ asc ".sdat" |} with (inp nm); cbv beta; rewrite PE. repeat (split; [assumption || reflexivity|]). destruct (report_shape (nm ++ asc ".sdat") (asc "wontfix: Fangame; SWAR padding is insane")) as (dots & E & F & Ln). exists dots, (asc "wontfix: Fangame; SWAR padding is insane").
      split; [exact E|]. split; [exact F|]. split; [exact Ln|]. split; [split; [discriminate|contradiction]|]. split; [discriminate|intros [_ N]; contradiction].
    - split; [|split; [discriminate|intros (x' & s' & y' & [= <-] & L' & V' & [<-|N]); [rewrite L in L'; injection L' as <-; rewrite V in V'; injection V' as ->; contradiction|contradiction]]].
      exists nm, x, s, y. cbn [contents]; change {| pDir := out; pName := nm ++ asc "_out.sdat" |} with (outp nm); change {| pDir := folder; pName := nm ++ asc ".sdat" |} with (inp nm); cbv beta; rewrite PE. repeat (split; [assumption || reflexivity|]). destruct (report_shape (nm ++ asc ".sdat") (asc "BAD")) as (dots & E & F & Ln). exists dots, (asc "BAD").
      split; [exact E|]. split; [exact F|]. split; [exact Ln|]. split; [split; [discriminate|contradiction]|]. split; [intros _; split; assumption|reflexivity].
  Qed.

  Lemma outp_inj a b : outp a = outp b -> a = b.
  Proof. intros [= E]. apply app_inv_tail_asc in E. exact E. Qed.
  Lemma inp_outp a b : inp a <> outp b.
  Proof. intros [= E _]. contradiction. Qed.

  Lemma tested_before d d1 d' fn line : (forall nm, contents d1 (inp nm) = contents d (inp nm)) -> tested order folder out d1 d' fn line -> tested order folder out d d' fn line.
  Proof. intros U (nm & x & s & y & -> & C & R). exists nm, x, s, y. split; [reflexivity|]. split; [rewrite <- C; symmetry; apply U|exact R]. Qed.

  Lemma each_spec fns : forall d o d', test_each order folder out fns d = (o, d') ->
    writable d' = writable d /\
    (forall p, (forall nm, In (nm ++ asc ".sdat") fns -> p <> outp nm) -> contents d' p = contents d p) /\
    match o with
    | Failed e => exists nm, In (nm ++ asc ".sdat") fns /\ trouble order folder out d nm e
    | Done (lines, ok) => Forall2 (tested order folder out d d') (sdat_names fns) lines /\
        (ok = true <-> forall nm, In (nm ++ asc ".sdat") fns -> exists x s y, contents d (inp nm) = Some x /\ sdat_load order x = Ok s /\ sdat_save s = Ok y /\ (x = y \/ nm = fan_game))
    end.
  Proof.
    induction fns as [|fn fns IH]; intros d o d' T; cbn [test_each] in T.
    - injection T as <- <-. split; [reflexivity|]. split; [reflexivity|]. split; [constructor|]. split; [intros _ nm []|reflexivity].
    - cbn [sdat_names filter]. fold (sdat_names fns). rewrite sdat_name_spec. destruct (endswith fn (asc ".sdat")) eqn:EW; cbn [negb] in T.
      2:{ destruct (IH _ _ _ T) as (W & K & R). split; [exact W|]. assert (N : forall nm, fn <> nm ++ asc ".sdat").
          { intros nm ->. assert (X : endswith (nm ++ asc ".sdat") (asc ".sdat") = true) by (apply endswith_app; exists nm; reflexivity). congruence. }
          split; [intros p P; apply K; intros nm Q; apply P; right; exact Q|]. destruct o as [[lines ok]|e].
          - destruct R as [R1 R2]. split; [exact R1|]. rewrite R2. split; intros G nm; [intros [E|Q]; [destruct (N nm E)|exact (G nm Q)]|intro Q; apply G; right; exact Q].
          - destruct R as (nm & Q & R). exists nm. split; [right; exact Q|exact R]. }
      apply endswith_app in EW as (nm & ->). unfold io_bind in T. destruct (test_one order folder out (nm ++ asc ".sdat") d) as [o1 d1] eqn:T1.
      destruct (one_spec _ _ _ _ T1) as (W1 & K1 & R1). assert (U : forall n, contents d1 (inp n) = contents d (inp n)) by (intro n; apply K1; apply inp_outp).
      destruct o1 as [[line ok1]|e].
      2:{ injection T as <- <-. split; [exact W1|]. split; [intros p P; apply K1; apply P; left; reflexivity|]. exists nm. split; [left; reflexivity|exact R1]. }
      destruct (test_each order folder out fns d1) as [o2 d2] eqn:T2. destruct (IH _ _ _ T2) as (W2 & K2 & R2).
      destruct R1 as [R1 OK1].
      destruct o2 as [[lines ok2]|e]; unfold io_ret in T; cbn [fst snd] in T; injection T as <- <-.
      + split; [congruence|]. split.
        { intros p P. rewrite K2; [apply K1; apply P; left; reflexivity|]. intros n Q. apply P. right. exact Q. }
        destruct R2 as [R2 OK2]. split.
        * constructor.
          -- destruct R1 as (nm' & x & s & y & E & C & L & V & O & R). apply app_inv_tail_asc in E. subst nm'. exists nm, x, s, y. repeat (split; [assumption || reflexivity|]). split; [|exact R].
             change (contents d2 (outp nm) = Some y). change (contents d1 (outp nm) = Some y) in O.
             destruct (in_dec (list_eq_dec Z.eq_dec) (nm ++ asc ".sdat") fns) as [Q|Q].
             ++ assert (X : In (nm ++ asc ".sdat") (sdat_names fns)) by (apply sdat_names_in; split; [exact Q|exists nm; reflexivity]).
                clear - R2 X C L V U. induction R2 as [|fn' l' ns ls H R2 IHR]; [contradiction|]. destruct X as [->|X]; [|exact (IHR X)].
                destruct H as (n' & x' & s' & y' & E & C' & L' & V' & O' & _). apply app_inv_tail_asc in E. subst n'. specialize (U nm). unfold inp in U. cbn [pDir pName] in *. rewrite U, C in C'. injection C' as <-. rewrite L in L'. injection L' as <-. rewrite V in V'. injection V' as <-. exact O'.
             ++ rewrite <- O. apply K2. intros n Q' E. apply outp_inj in E. subst n. contradiction.
          -- clear - R2 U Diff outp. induction R2 as [|a b l l' H R2 IHR]; [constructor|]. constructor; [apply (tested_before d d1); assumption|exact IHR].
        * rewrite andb_true_iff, OK1, OK2. split.
          -- intros [G1 G2] n [E|Q]; [apply app_inv_tail_asc in E; subst n; exact G1|]. rewrite <- U. exact (G2 n Q).
          -- intro G. split; [apply G; left; reflexivity|]. intros n Q. rewrite U. apply G. right. exact Q.
      + split; [congruence|]. split.
        { intros p P. rewrite K2; [apply K1; apply P; left; reflexivity|]. intros n Q. apply P. right. exact Q. }
        destruct R2 as (n & Q & R2). exists n. split; [right; exact Q|]. unfold trouble in *. change {| pDir := folder; pName := n ++ asc ".sdat" |} with (inp n) in *. rewrite U, W1 in R2. exact R2.
  Qed.
End Loop.

Lemma join_longer a : (length a < length (join_dir a (asc "out")))%nat.
Proof. unfold join_dir. destruct (rev a) as [|c r] eqn:R; [apply (f_equal (@rev Z)) in R; rewrite rev_involutive in R; subst a; cbn; lia|]. destruct (c =? 47); rewrite ?app_length; cbn [asc length String.list_ascii_of_string map]; cbn; lia. Qed.
Lemma join_diff a : a <> join_dir a (asc "out").
Proof. intro E. pose proof (join_longer a) as X. rewrite <- E in X. lia. Qed.
Lemma within_folder a fn : within (join_dir a (asc "out")) {| pDir := a; pName := fn |} = false.
Proof.
  unfold within. cbn [pDir]. apply orb_false_iff. split; [apply beq_neq, join_diff|]. destruct (prefixb _ a) eqn:P; [|reflexivity]. apply prefixb_app in P as (r & E). apply (f_equal (@length Z)) in E. rewrite !app_length in E. pose proof (join_longer a). lia.
Qed.
Lemma within_outside a p : within (join_dir a (asc "out")) p = true -> pDir p <> a.
Proof. destruct p as [x y]. cbn [pDir]. intros H ->. rewrite within_folder in H. discriminate H. Qed.

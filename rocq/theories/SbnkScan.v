(** * The search for unlisted instruments, when every one of them is recognised *)
From Coq Require Import String Permutation Sorted.
From Verif Require Import PyBase PyLemmas PyTac SbnkModel SbnkSpec SbnkLemmas SbnkBank SbnkInacc SbnkGuess.

Definition bytes_of (p : Z * ibody) : list Z := range_z (fst p) (Z.to_nat (body_size (snd p))).
Definition found_inst (p : Z * ibody) : inst := {| iBody := snd p; iKey := fst p; iMerge := fst p |}.
Definition prev_key (m : list (Z * Z)) (this : Z) : option Z := match prev_of this m with Some p => Some (fst p) | None => None end.

Lemma size_pos b : 2 <= body_size b.
Proof. destruct b as [n|f ns|rs]; cbn [body_size]; [lia|pose proof (zlen_nonneg ns); lia|pose proof (zlen_nonneg rs); lia]. Qed.
Lemma in_bytes p x : In x (bytes_of p) <-> fst p <= x < fst p + body_size (snd p).
Proof. unfold bytes_of. rewrite in_range_z. pose proof (size_pos (snd p)). lia. Qed.
Lemma in_flat free x : In x (flat_map bytes_of free) <-> exists p, In p free /\ fst p <= x < fst p + body_size (snd p).
Proof. rewrite in_flat_map. split; intros (p & I & H); exists p; (split; [exact I|]); apply in_bytes; exact H. Qed.
Lemma filter_ident {A} (f : A -> bool) l : (forall x, In x l -> f x = true) -> filter f l = l.
Proof. induction l as [|x l IH]; intros H; cbn [filter]; [reflexivity|]. rewrite H by (left; reflexivity). f_equal. apply IH. intros y Y. apply H. right. exact Y. Qed.
Lemma filter_nil {A} (f : A -> bool) l : (forall x, In x l -> f x = false) -> filter f l = [].
Proof. induction l as [|x l IH]; intros H; cbn [filter]; [reflexivity|]. rewrite H by (left; reflexivity). apply IH. intros y Y. apply H. right. exact Y. Qed.
Lemma inb_spec x l : inb x l = true <-> In x l.
Proof. apply inb_In. Qed.

Section Scan.
  Context (order : list Z) (data : bytes) (fs : Z) (insts : list (option inst)) (m : list (Z * Z)) (un0 : list Z).
  Definition recognised (p : Z * ibody) : Prop :=
    3 <= body_size (snd p) /\
    makeInstrumentAt data (kind (snd p)) (fst p) = Ok (Some (found_inst p), body_size (snd p)) /\
    exists stop, ~ In stop un0 /\ fst p <= stop /\ forall avail, body_size (snd p) <= avail <= stop - fst p ->
      guessInstrumentType order data (fst p) (possible_types (type_of_id insts (prev_of (fst p) m)) (type_of_id insts (next_of (fst p) m))) avail = Ok (Some (kind (snd p))).
  Lemma drop_ok free tail : (forall p, In p free -> 3 <= body_size (snd p) /\ fst p + body_size (snd p) <= fs - zlen tail) -> tail = [] \/ tail = [fs - 2; fs - 1] ->
    exists tail', drop_padding fs (flat_map bytes_of free ++ tail) = flat_map bytes_of free ++ tail' /\ (tail' = [] \/ tail' = tail) /\ (free = [] -> tail' = []).
  Proof.
    intros F [-> | ->].
    - exists []. rewrite app_nil_r. split; [|split; [left; reflexivity|reflexivity]]. unfold drop_padding. destruct (_ && _ && _) eqn:Q; [|reflexivity]. apply andb_true_iff in Q as [Q1 Q2]. apply andb_true_iff in Q1 as [Q1 _].
      apply inb_spec, in_flat in Q1 as (p & I & H). destruct (F p I) as [F1 F2]. change (zlen []) with 0 in F2.
      apply negb_true_iff in Q2. assert (C : inb (fs - 3) (flat_map bytes_of free) = true) by (apply inb_spec, in_flat; exists p; split; [exact I|lia]). congruence.
    - assert (LT : forall x, In x (flat_map bytes_of free) -> x < fs - 2) by (intros x X; apply in_flat in X as (p & I & H); destruct (F p I) as [F1 F2]; change (zlen [fs - 2; fs - 1]) with 2 in F2; lia).
      unfold drop_padding. destruct (_ && _ && _) eqn:Q.
      + exists []. rewrite app_nil_r. split; [|split; [left; reflexivity|reflexivity]]. unfold remove_z. rewrite !filter_app. cbn [filter]. replace (fs - 1 =? fs - 1) with true by lia. replace (fs - 2 =? fs - 1) with false by lia. cbn [negb filter app]. rewrite Z.eqb_refl. cbn [negb]. rewrite app_nil_r.
        rewrite (filter_ident (fun y => negb (y =? fs - 1))); [|intros x X; apply LT in X; replace (x =? fs - 1) with false by lia; reflexivity].
        apply filter_ident. intros x X. apply LT in X. replace (x =? fs - 2) with false by lia. reflexivity.
      + exists [fs - 2; fs - 1]. split; [reflexivity|]. split; [right; reflexivity|]. intros ->. exfalso. cbn [flat_map app] in Q. unfold inb in Q. cbn [existsb] in Q.
        replace (fs - 1 =? fs - 2) with false in Q by lia. replace (fs - 3 =? fs - 2) with false in Q by lia. replace (fs - 3 =? fs - 1) with false in Q by lia. rewrite !Z.eqb_refl in Q. discriminate.
  Qed.
  Lemma run_ge : forall n p r, Z.of_nat n <= run_length p (range_z p n ++ r).
  Proof. induction n as [|n IH]; intros p r; cbn [range_z app run_length]; [|rewrite Z.eqb_refl; specialize (IH (p + 1) r); lia]. revert p. induction r as [|x r IHr]; intros p; cbn [run_length]; [lia|]. destruct (x =? p); [specialize (IHr (p + 1)); lia|lia]. Qed.
  Lemma run_le : forall r p n, 0 <= n -> ~ In (p + n) r -> run_length p r <= n.
  Proof.
    induction r as [|x r IH]; intros p n N I; cbn [run_length]; [lia|]. destruct (Z.eqb_spec x p) as [->|NE]; [|lia]. destruct (Z.eq_dec n 0) as [->|NZ]; [exfalso; apply I; left; lia|].
    specialize (IH (p + 1) (n - 1) ltac:(lia)). replace (p + 1 + (n - 1)) with (p + n) in IH by lia. assert (~ In (p + n) r) by (intros C; apply I; right; exact C). specialize (IH H). lia.
  Qed.
  Lemma scan_free : forall free tail fuel acc, StronglySorted (fun a b => fst a + body_size (snd a) <= fst b) free ->
    (forall p, In p free -> recognised p /\ fst p + body_size (snd p) <= fs - zlen tail) -> tail = [] \/ tail = [fs - 2; fs - 1] -> (length free < fuel)%nat -> (forall x, In x (flat_map bytes_of free ++ tail) -> In x un0) ->
    scan fuel order data fs insts m (flat_map bytes_of free ++ tail) acc = Ok (fold_left (fun acc p => push (prev_key m (fst p)) (found_inst p) acc) free acc).
  Proof.
    induction free as [|p free IH]; intros tail fuel acc S R T L INC; destruct fuel as [|k]; try (cbn in L; lia).
    - cbn [flat_map app fold_left]. destruct T as [-> | ->]; [reflexivity|]. apply scan_pad.
    - destruct (drop_ok (p :: free) tail) as (tail' & DE & TT & _); [intros q Q; destruct (R q Q) as [(RS & _) RB]; split; assumption|exact T|].
      set (un := flat_map bytes_of (p :: free) ++ tail) in *.
      assert (UN : exists x r, un = x :: r). { unfold un. cbn [flat_map]. unfold bytes_of at 1. pose proof (size_pos (snd p)). destruct (Z.to_nat (body_size (snd p))) as [|n] eqn:N; [lia|]. cbn [range_z app]. eexists. eexists. reflexivity. }
      destruct UN as (x0 & r0 & UN). cbn [scan]. rewrite UN. rewrite <- UN. rewrite DE. cbn [flat_map]. destruct (R p (or_introl eq_refl)) as [(R1 & R2 & stop & R4 & R5 & R3) RB].
      assert (EX : exists rest, (bytes_of p ++ flat_map bytes_of free) ++ tail' = fst p :: rest). { unfold bytes_of at 1. destruct (Z.to_nat (body_size (snd p))) as [|n] eqn:N; [lia|]. cbn [range_z app]. eexists. reflexivity. }
      destruct EX as (rest & EX). rewrite EX. rewrite <- EX. cbv zeta.
      assert (INC' : forall x, In x ((bytes_of p ++ flat_map bytes_of free) ++ tail') -> In x un0) by (intros x X; apply INC; cbn [flat_map]; apply in_app_iff in X as [X|X]; apply in_app_iff; [left; exact X|right; destruct TT as [-> | ->]; [destruct X|exact X]]).
      rewrite R3 by (split; [|apply run_le; [lia|intros C; apply R4; replace stop with (fst p + (stop - fst p)) by lia; apply INC'; exact C]]; rewrite <- app_assoc; unfold bytes_of at 1; pose proof (run_ge (Z.to_nat (body_size (snd p))) (fst p) (flat_map bytes_of free ++ tail')); pose proof (size_pos (snd p)); lia).
      cbn [bind]. rewrite R2. inversion S as [|? ? S1 S2]. subst. rewrite Forall_forall in S2.
      assert (TZ : 0 <= zlen tail' <= zlen tail) by (destruct TT as [-> | ->]; [change (zlen []) with 0; split; [lia|apply zlen_nonneg]|split; [apply zlen_nonneg|lia]]).
      assert (CO : consume (fst p) (body_size (snd p)) ((bytes_of p ++ flat_map bytes_of free) ++ tail') = flat_map bytes_of free ++ tail').
      { unfold consume. rewrite !filter_app. rewrite (filter_nil _ (bytes_of p)).
        - cbn [app]. rewrite !filter_ident; [reflexivity| |].
          + intros x X. assert (fs - zlen tail' <= x). { destruct TT as [-> | ->]; [destruct X|]. destruct T as [-> | ->]; [destruct X|]. change (zlen [fs - 2; fs - 1]) with 2. destruct X as [<-|[<-|[]]]; lia. }
            replace (x <? fst p + body_size (snd p)) with false by lia. rewrite andb_false_r. reflexivity.
          + intros x X. apply in_flat in X as (q & Q & H). specialize (S2 q Q). replace (x <? fst p + body_size (snd p)) with false by lia. rewrite andb_false_r. reflexivity.
        - intros x X. apply in_bytes in X. replace (fst p <=? x) with true by lia. replace (x <? fst p + body_size (snd p)) with true by lia. reflexivity. }
      rewrite CO. cbn [fold_left]. apply IH; [exact S1| |destruct TT as [-> | ->]; [left; reflexivity|exact T]|cbn [length] in L; lia|intros x X; apply INC'; rewrite <- app_assoc; apply in_app_iff; right; exact X].
      intros q Q. destruct (R q (or_intror Q)) as [A B]. split; [exact A|lia].
  Qed.
End Scan.

(** ** what the dictionary holds *)
Definition get_list {A} (k : option Z) (d : list (option Z * list A)) : list A := match assoc k d with Some l => l | None => [] end.
Lemma get_push {A} k k0 (v : A) d : get_list k (push k0 v d) = if oeqb k0 k then get_list k d ++ [v] else get_list k d.
Proof.
  unfold get_list, assoc. induction d as [|[k' vs] d IH]; cbn [push find fst snd].
  - destruct (oeqb k0 k); reflexivity.
  - destruct (oeqb k' k0) eqn:E; cbn [find fst snd].
    + apply oeqb_eq in E. subst k'. destruct (oeqb k0 k); reflexivity.
    + destruct (oeqb k' k) eqn:E2; [|exact IH]. apply oeqb_eq in E2. subst k'. destruct (oeqb k0 k) eqn:E3; [|reflexivity]. apply oeqb_eq in E3. subst. rewrite (proj2 (oeqb_eq k k) eq_refl) in E. discriminate.
Qed.
Lemma get_fold {A B} (key : A -> option Z) (val : A -> B) k : forall l d, get_list k (fold_left (fun acc p => push (key p) (val p) acc) l d) =
  get_list k d ++ map val (filter (fun p => oeqb (key p) k) l).
Proof.
  induction l as [|x l IH]; intros d; cbn [fold_left filter]; [rewrite app_nil_r; reflexivity|]. rewrite IH, get_push. destruct (oeqb (key x) k); [|reflexivity]. cbn [map]. rewrite <- app_assoc. reflexivity.
Qed.
Lemma fold_nodup {A B} (key : A -> option Z) (val : A -> B) : forall l d, NoDup (map fst d) -> NoDup (map fst (fold_left (fun acc p => push (key p) (val p) acc) l d)).
Proof. induction l as [|x l IH]; intros d N; cbn [fold_left]; [exact N|]. apply IH, push_nodup. exact N. Qed.

(** ** the nearest instrument after *)
Lemma next_spec this m : match next_of this m with
  | Some p => In p m /\ this < snd p /\ forall q, In q m -> this < snd q -> snd p <= snd q
  | None => forall q, In q m -> snd q <= this end.
Proof.
  induction m as [|q m IH] using rev_ind; [intros q []|]. unfold next_of. rewrite fold_left_app. cbn [fold_left]. fold (next_of this m). destruct (next_of this m) as [p|].
  - destruct IH as (I & L & M). destruct (Z.gtb_spec (snd q) this) as [Q|Q]; cbn [andb]; [destruct (Z.ltb_spec (snd q) (snd p)) as [G|G]|].
    + split; [apply in_app_iff; right; left; reflexivity|]. split; [lia|]. intros r R RL. apply in_app_iff in R as [R|[<-|[]]]; [specialize (M r R RL); lia|lia].
    + split; [apply in_app_iff; left; exact I|]. split; [exact L|]. intros r R RL. apply in_app_iff in R as [R|[<-|[]]]; [apply M; assumption|lia].
    + split; [apply in_app_iff; left; exact I|]. split; [exact L|]. intros r R RL. apply in_app_iff in R as [R|[<-|[]]]; [apply M; assumption|lia].
  - destruct (Z.gtb_spec (snd q) this) as [Q|Q]; cbn [andb].
    + split; [apply in_app_iff; right; left; reflexivity|]. split; [lia|]. intros r R RL. apply in_app_iff in R as [R|[<-|[]]]; [specialize (IH r R); lia|lia].
    + intros r R. apply in_app_iff in R as [R|[<-|[]]]; [apply IH; exact R|exact Q].
Qed.
(** types between those of the neighbours *)
Definition kind_of_type (t : Z) : Z := if t <? 16 then 1 else if t =? 16 then 16 else 17.
Lemma possible_in prev next t : (forall p, prev = Some p -> 1 <= p <= 17) -> (forall p, next = Some p -> 1 <= p <= 17) ->
  (In t (possible_types prev next) <-> (t = 1 \/ t = 16 \/ t = 17) /\ (forall p, prev = Some p -> kind_of_type p <= t) /\ (forall p, next = Some p -> t <= kind_of_type p)).
Proof.
  intros P N. unfold possible_types, kind_of_type.
  assert (PP : match prev with Some p => 1 <= p <= 17 | None => True end) by (destruct prev; [apply P; reflexivity|exact I]).
  assert (NN : match next with Some p => 1 <= p <= 17 | None => True end) by (destruct next; [apply N; reflexivity|exact I]). clear P N.
  assert (E1 : forall (f : Z -> Z -> Prop) o, (forall p, o = Some p -> f p t) <-> match o with Some p => f p t | None => True end).
  { intros f [p|]; split; [intros H; apply H; reflexivity|intros H p0 [= <-]; exact H|reflexivity|discriminate]. }
  rewrite (E1 (fun p t => (if p <? 16 then 1 else if p =? 16 then 16 else 17) <= t)), (E1 (fun p t => t <= (if p <? 16 then 1 else if p =? 16 then 16 else 17))). clear E1.
  destruct prev as [p|], next as [q|]; cbv zeta;
    repeat (match goal with |- context [if ?c then _ else _] => destruct c eqn:? end);
    rewrite ?in_remove; cbn [In]; lia.
Qed.
Lemma possible_nodup prev next : types_ok (possible_types prev next).
Proof.
  assert (B : types_ok [1; 16; 17]). { split; [|intros t [<-|[<-|[<-|[]]]]; lia]. repeat (constructor; [cbn; lia|]). constructor. }
  unfold possible_types. destruct prev as [p|], next as [q|]; cbv zeta; repeat (match goal with |- context [if ?c then _ else _] => destruct c end); repeat apply remove_ok; exact B.
Qed.

(** * guessInstrumentType: if some allowed type suits the bytes, one of those is chosen *)
From Coq Require Import String Sorted.
From Verif Require Import PyBase PyLemmas PyTac LzLemmas WaveModel SbnkModel SbnkSpec SbnkLemmas SbnkBank.

Lemma inb_In x l : inb x l = true <-> In x l.
Proof. unfold inb. rewrite existsb_exists. split; [intros (y & H & E); apply Z.eqb_eq in E; subst; exact H|intros H; exists x; split; [exact H|apply Z.eqb_refl]]. Qed.
Lemma in_remove x y l : In x (remove_z y l) <-> In x l /\ x <> y.
Proof. unfold remove_z. rewrite filter_In. destruct (Z.eqb_spec x y); cbn; intuition congruence. Qed.

Definition types_ok (p : list Z) : Prop := NoDup p /\ forall t, In t p -> t = 1 \/ t = 16 \/ t = 17.
Lemma remove_ok x p : types_ok p -> types_ok (remove_z x p).
Proof. intros [A B]. split; [apply NoDup_filter; exact A|]. intros t T. apply in_remove in T as [T _]. apply B. exact T. Qed.
Lemma early_some order p : (forall t, t = 1 \/ t = 16 \/ t = 17 -> In t order) -> types_ok p -> p <> [] -> exists t, early order p = Some t /\ In t p.
Proof.
  intros O [_ B] NE. unfold early. destruct (find (fun t => inb t p) order) as [t|] eqn:E; [apply find_some in E as [_ E]; apply inb_In in E; exists t; split; [reflexivity|exact E]|].
  destruct p as [|t p]; [congruence|]. pose proof (find_none _ _ E t (O t (B t (or_introl eq_refl)))) as X. cbv beta in X. rewrite (proj2 (inb_In t (t :: p)) (or_introl eq_refl)) in X. discriminate.
Qed.
Lemma few_one p t : few p = true -> In t p -> NoDup p -> p = [t].
Proof. unfold few. destruct p as [|a [|b p]]; intros F I N; [destruct I|destruct I as [->|[]]; reflexivity|]. change (a :: b :: p) with ([a; b] ++ p) in F. rewrite zlen_app in F. pose proof (zlen_nonneg p). change (zlen [a; b]) with 2 in F. lia. Qed.

(** region ends *)
Lemma ends_zero l : ends_ok 0 l = true <-> exists k, l = repeat 0 k.
Proof.
  induction l as [|e l IH]; cbn [ends_ok]; [split; [exists O; reflexivity|reflexivity]|]. change (0 =? 0) with true. cbn [negb andb]. destruct (Z.eqb_spec e 0) as [->|E]; cbn [negb andb].
  - rewrite IH. split; [intros [k ->]; exists (S k); reflexivity|intros [[|k] H]; [discriminate|]; exists k; injection H as ->; reflexivity].
  - split; [discriminate|]. intros [[|k] H]; [discriminate|]. injection H as -> _. congruence.
Qed.
Lemma ends_spec l : Forall (fun e => 0 <= e) l -> forall prev, prev <> 0 -> ends_ok prev l = true <->
  exists a k, l = a ++ repeat 0 k /\ StronglySorted Z.lt a /\ Forall (fun e => 0 < e /\ prev < e) a.
Proof.
  induction 1 as [|e l P F IH]; intros prev NZ; cbn [ends_ok].
  - split; [intros _; exists [], O; repeat constructor|reflexivity].
  - replace (prev =? 0) with false by lia. cbn [negb andb]. destruct (Z.eqb_spec e 0) as [->|E]; cbn [negb andb].
    + rewrite ends_zero. split.
      * intros [k ->]. exists [], (S k). repeat constructor.
      * intros ([|x a] & k & H & _ & G); [destruct k as [|k]; [discriminate|]; exists k; injection H as ->; reflexivity|]. injection H as <- _. apply Forall_cons_iff in G. lia.
    + destruct (Z.leb_spec e prev) as [L|L].
      * split; [discriminate|]. intros ([|x a] & k & H & _ & G); [destruct k as [|k]; [discriminate|]; injection H as -> _; congruence|]. injection H as <- _. apply Forall_cons_iff in G. lia.
      * rewrite IH by exact E. split.
        -- intros (a & k & -> & S & G). exists (e :: a), k. split; [reflexivity|]. split; [constructor; [exact S|]; eapply Forall_impl; [|exact G]; cbv beta; lia|]. constructor; [lia|]. eapply Forall_impl; [|exact G]; cbv beta; lia.
        -- intros ([|x a] & k & H & S & G); [destruct k as [|k]; [discriminate|]; injection H as -> _; congruence|]. injection H as <- ->. exists a, k. split; [reflexivity|]. inversion S as [|? ? S1 S2]. split; [exact S1|]. apply Forall_cons_iff in G as [_ G].
           rewrite Forall_forall in *. intros y Y. split; [apply G; exact Y|apply S2; exact Y].
Qed.
Lemma ends_good l : Forall (fun e => 0 <= e) l -> ends_ok (-1) l = true <-> good_ends l.
Proof.
  intros P. rewrite (ends_spec l P (-1)) by lia. unfold good_ends. split; intros (a & k & E & S & G); exists a, k; split; try exact E; split; try exact S; (eapply Forall_impl; [|exact G]; cbv beta; lia).
Qed.
Lemma count_regions l n : Forall (fun e => 0 <= e) l -> regions_in l n -> n = count_nonzero l.
Proof.
  intros P (a & k & -> & G & <-). clear P. induction a as [|x a IH]; cbn [app count_nonzero].
  - destruct k; reflexivity.
  - apply Forall_cons_iff in G as [G1 G2]. replace (x =? 0) with false by lia. rewrite <- IH by exact G2. unfold zlen. cbn [length]. lia.
Qed.
Lemma regions_ex l : good_ends l -> exists n, regions_in l n.
Proof. intros (a & k & E & _ & G). exists (zlen a), a, k. repeat split; assumption. Qed.

(** the bytes at the place *)
Section Guess.
  Variables (order : list Z) (data : bytes) (start avail : Z).
  Hypothesis ORD : forall t, t = 1 \/ t = 16 \/ t = 17 -> In t order.
  Hypothesis ISB : Forall (fun e => 0 <= e) (firstn 8 (skipn (Z.to_nat start) data)).
  Hypothesis ST : 0 <= start.
  Hypothesis LEN : start + 8 <= zlen data.
  Let d := skipn (Z.to_nat start) data.
  Lemma d_nth k : (k < 8)%nat -> get data (start + Z.of_nat k) = Ok (nth k d 0).
  Proof using All.
    intros K. apply PyLemmas.get_nth; [lia|]. unfold d. rewrite (nth_error_nth' data 0) by (unfold zlen in LEN; lia). f_equal.
    rewrite <- (firstn_skipn (Z.to_nat start) data) at 1. rewrite app_nth2; rewrite firstn_length_le by (unfold zlen in LEN; lia); [|lia]. f_equal. lia.
  Qed.
  Lemma d_len : 8 <= zlen d.
  Proof using All. unfold d. rewrite zlen_skipn. lia. Qed.
  Lemma d_slice n : 0 <= n -> slice data start (start + n) = firstn (Z.to_nat n) d.
  Proof using All. intros N. unfold d. rewrite slice_firstn_skipn by lia. reflexivity. Qed.
  Definition right_one (p : list Z) (r : res (option Z)) : Prop := exists t, r = Ok (Some t) /\ In t p /\ suits t d avail.
  Lemma early_right p : types_ok p -> (exists t, In t p) -> (forall t, In t p -> suits t d avail) -> right_one p (Ok (early order p)).
  Proof using All. intros T [t I] S. destruct (early_some order p ORD T) as (t' & -> & I'); [intros ->; destruct I|]. exists t'. split; [reflexivity|]. split; [exact I'|apply S; exact I']. Qed.
  Lemma few_right p t : few p = true -> types_ok p -> In t p -> suits t d avail -> right_one p (Ok (early order p)).
  Proof using All. intros F T I S. apply early_right; [exact T|exists t; exact I|]. intros t' I'. rewrite (few_one p t F I (proj1 T)) in I'. destruct I' as [<-|[]]. exact S. Qed.
  Lemma right_sub p q r : (forall t, In t p -> In t q) -> right_one p r -> right_one q r.
  Proof using All. intros S (t & -> & I & G). exists t. split; [reflexivity|]. split; [apply S; exact I|exact G]. Qed.
  Lemma sub_remove x p t : In t (remove_z x p) -> In t p.
  Proof using All. intros H. apply in_remove in H. apply H. Qed.
  Lemma keep_not x p t : In t p -> suits t d avail -> ~ suits x d avail -> In t (remove_z x p).
  Proof using All. intros I S N. apply in_remove. split; [exact I|]. intros ->. contradiction. Qed.

  Lemma regional_right p : types_ok p -> (exists t, In t p /\ suits t d avail) -> (forall t, In t p -> t <> 17 -> suits t d avail) -> (In 17 p -> 20 <= avail) ->
    right_one p (Ok (guess_regional order data start avail p)).
  Proof using All.
    intros T (t & I & S) A L. unfold guess_regional.
    assert (DROP : ~ suits 17 d avail -> right_one p (Ok (early order (remove_z 17 p)))).
    { intros N. apply (right_sub (remove_z 17 p)); [exact (sub_remove 17 p)|]. apply early_right; [apply remove_ok; exact T|exists t; exact (keep_not 17 p t I S N)|]. intros t' I'. apply in_remove in I' as [I' NE]. apply A; assumption. }
    destruct (inb 17 p) eqn:B; [apply inb_In in B|].
    - rewrite d_slice by lia. change (Z.to_nat 8) with 8%nat. pose proof ISB as P. fold d in P.
      destruct (ends_ok (-1) (firstn 8 d)) eqn:E.
      + destruct (Z.gtb_spec (8 + 12 * count_nonzero (firstn 8 d)) avail) as [G|G].
        * apply DROP. intros (S1 & _ & S3). destruct (S3 eq_refl) as [_ S4]. destruct (regions_ex (firstn 8 d)) as [n R]; [exact S1|]. pose proof (S4 n R). apply (count_regions _ _ P) in R. lia.
        * apply early_right; [exact T|exists t; exact I|]. intros t' I'. destruct (Z.eq_dec t' 17) as [->|NE]; [|apply A; assumption].
          split; [exact (proj1 (ends_good _ P) E)|]. split; [discriminate|]. intros _. split; [apply L; exact B|]. intros n R. apply (count_regions _ _ P) in R. lia.
      + apply DROP. intros (S1 & _). apply (ends_good _ P) in S1. congruence.
    - apply early_right; [exact T|exists t; exact I|]. intros t' I'. apply A; [exact I'|]. intros ->. apply inb_In in I'. congruence.
  Qed.
  Lemma range_right p : types_ok p -> (exists t, In t p /\ suits t d avail) -> (forall t, In t p -> t = 1 -> suits t d avail) -> (In 17 p -> 20 <= avail) ->
    right_one p (guess_range order data start avail p).
  Proof using All.
    intros T (t & I & S) A L. unfold guess_range.
    assert (GO : forall p', (forall x, In x p' -> In x p) -> types_ok p' -> In t p' -> (In 16 p' -> suits 16 d avail) ->
      right_one p (bind (Ok p') (fun p' => if few p' then Ok (early order p') else Ok (guess_regional order data start avail p')))).
    { intros p' SUB T' I' S16. cbn [bind]. apply (right_sub p'); [exact SUB|]. destruct (few p') eqn:F; [apply (few_right p' t); assumption|].
      apply regional_right; [exact T'|exists t; split; assumption| |intros H; apply L, SUB; exact H]. intros x X NE. destruct (proj2 T' x X) as [E|[E|E]]; subst x; [apply A; [apply SUB; exact X|reflexivity]|apply S16; exact X|congruence]. }
    destruct (inb 16 p) eqn:B; [apply inb_In in B|].
    - rewrite d_slice by lia. change (Z.to_nat 2) with 2%nat. pose proof d_len as DL. destruct d as [|x [|y rest] ] eqn:D; [unfold zlen in DL; cbn [length] in DL; lia|unfold zlen in DL; cbn [length] in DL; lia|]. cbn [firstn].
      destruct (Z.gtb_spec x y) as [G|G]; [|destruct (Z.gtb_spec (2 + 12 * (y - x + 1)) avail) as [G2|G2]].
      + apply GO; [exact (sub_remove 16 p)|apply remove_ok; exact T| |intros H; apply in_remove in H; tauto]. apply in_remove. split; [exact I|]. intros ->. destruct S as (S1 & _). cbn in S1. lia.
      + apply GO; [exact (sub_remove 16 p)|apply remove_ok; exact T| |intros H; apply in_remove in H; tauto]. apply in_remove. split; [exact I|]. intros ->. destruct S as (_ & S1 & _). specialize (S1 eq_refl). cbn [nth] in S1. lia.
      + apply GO; [intros z Z0; exact Z0|exact T|exact I|]. intros _. split; [cbn; lia|]. split; [intros _; cbn [nth]; lia|discriminate].
    - apply GO; [intros z Z0; exact Z0|exact T|exact I|]. intros H. apply inb_In in H. congruence.
  Qed.
  Lemma single_right p : types_ok p -> (exists t, In t p /\ suits t d avail) -> (In 17 p -> 20 <= avail) -> right_one p (guess_single order data start avail p).
  Proof using All.
    intros T (t & I & S) L. unfold guess_single. destruct (inb 1 p) eqn:B; [apply inb_In in B|].
    - change (start + 1) with (start + Z.of_nat 1). change (start + 3) with (start + Z.of_nat 3). change (start + 4) with (start + Z.of_nat 4). rewrite (d_nth 1), (d_nth 3), (d_nth 4) by lia. cbn [bind]. cbv zeta.
      assert (GO : forall p', (forall x, In x p' -> In x p) -> types_ok p' -> In t p' -> (In 1 p' -> suits 1 d avail) ->
        right_one p (if few p' then Ok (early order p') else guess_range order data start avail p')).
      { intros p' SUB T' I' S1. apply (right_sub p'); [exact SUB|]. destruct (few p') eqn:F; [apply (few_right p' t); assumption|]. apply range_right; [exact T'|exists t; split; assumption|intros x X ->; apply S1; exact X|intros H; apply L, SUB; exact H]. }
      destruct (Z.eqb_spec (nth 4 d 0) 0x3C) as [E|E].
      + exists 1. split; [reflexivity|]. split; [exact B|]. split; [left; exact E|split; discriminate].
      + destruct ((nth 1 d 0 >=? 10) || (nth 3 d 0 >=? 10) || (nth 4 d 0 =? 0)) eqn:Q.
        * apply GO; [exact (sub_remove 1 p)|apply remove_ok; exact T| |intros H; apply in_remove in H; tauto]. apply (keep_not 1 p t I S). intros ([H|H] & _); [congruence|]. lia.
        * apply GO; [intros z Z0; exact Z0|exact T|exact I|]. intros _. split; [right; lia|split; discriminate].
    - destruct (few p) eqn:F; [apply (few_right p t); assumption|]. apply range_right; [exact T|exists t; split; assumption| |exact L]. intros x X ->. apply inb_In in X. congruence.
  Qed.
  Lemma guess_right p : types_ok p -> (exists t, In t p /\ suits t d avail) -> right_one p (guessInstrumentType order data start p avail).
  Proof using All.
    intros T (t & I & S). unfold guessInstrumentType.
    assert (N2 : inb 2 p = false) by (apply not_true_iff_false; intros C; apply inb_In, (proj2 T) in C; lia). assert (N3 : inb 3 p = false) by (apply not_true_iff_false; intros C; apply inb_In, (proj2 T) in C; lia). rewrite N2, N3.
    destruct (few p) eqn:F; [apply (few_right p t); assumption|]. cbv zeta.
    assert (R0 : (if avail <? 10 then remove_z 0 p else p) = p).
    { destruct (avail <? 10); [|reflexivity]. unfold remove_z. clear - T. induction p as [|x p IH]; [reflexivity|]. cbn [filter]. destruct T as [T1 T2]. inversion T1. subst. pose proof (T2 x (or_introl eq_refl)). replace (x =? 0) with false by lia. cbn [negb]. f_equal. apply IH. split; [assumption|]. intros t Ht. apply T2. right. exact Ht. }
    rewrite R0. set (p1 := if avail <? 2 + 12 then remove_z 16 p else p). set (p2 := if avail <? 8 + 12 then remove_z 17 p1 else p1).
    assert (T1 : types_ok p1) by (unfold p1; destruct (avail <? 2 + 12); [apply remove_ok; exact T|exact T]). assert (T2 : types_ok p2) by (unfold p2; destruct (avail <? 8 + 12); [apply remove_ok; exact T1|exact T1]).
    assert (SUB : forall x, In x p2 -> In x p) by (unfold p2, p1; intros x; destruct (avail <? 8 + 12), (avail <? 2 + 12); intros X; repeat (apply in_remove in X as [X _]); exact X).
    assert (I1 : In t p1). { unfold p1. destruct (Z.ltb_spec avail (2 + 12)); [|exact I]. apply in_remove. split; [exact I|]. intros ->. destruct S as (S0 & S1 & _). specialize (S1 eq_refl). cbn [looks Z.eqb Pos.eqb] in S0. unfold looks in S0. cbn [Z.eqb Pos.eqb] in S0. lia. }
    assert (I2 : In t p2). { unfold p2. destruct (Z.ltb_spec avail (8 + 12)); [|exact I1]. apply in_remove. split; [exact I1|]. intros ->. destruct S as (_ & _ & S1). specialize (S1 eq_refl). lia. }
    assert (L : In 17 p2 -> 20 <= avail). { unfold p2. destruct (Z.ltb_spec avail (8 + 12)); [intros C; apply in_remove in C; tauto|lia]. }
    apply (right_sub p2); [exact SUB|]. destruct (few p2) eqn:F2; [apply (few_right p2 t); assumption|]. apply single_right; [exact T2|exists t; split; assumption|exact L].
  Qed.
End Guess.

(** * Lemmas about representations and their reader *)
From Coq Require Import String Lia.
From Verif Require Import PyBase PyLemmas TextModel TextSpec TextLemmas SeqTextModel SeqTextSpec SeqTextLemmas ReprModel ReprSpec.

(** ** what the reader does with one piece of text *)
Definition stop (t : list Z) : Prop := match t with [] => True | c :: _ => c = 44 \/ c = 41 \/ c = 93 \/ c = 125 end.
Definition reads (s : list Z) (v : value) : Prop :=
  forall fuel t, (2 * length s < fuel)%nat -> stop t -> parse fuel (s ++ t) = Some (v, t).
Lemma reads_expr s v : reads s v -> expr s = Some v.
Proof. intro R. unfold expr. specialize (R (S (S (2 * length s))) [] ltac:(lia) I). rewrite app_nil_r in R. rewrite R. reflexivity. Qed.

Lemma reads_head s v : reads s v -> exists c r, s = c :: r /\ c <> 32 /\ c <> 44 /\ c <> 41 /\ c <> 93 /\ c <> 125.
Proof.
  intro R. specialize (R (S (2 * length s)) [] ltac:(lia) I). rewrite app_nil_r in R. destruct s as [|c r]; [discriminate R|]. exists c, r. split; [reflexivity|].
  repeat split; intros ->; cbn in R; discriminate R.
Qed.

(** ** tokens *)
Lemma span_app p a t : forallb p a = true -> match t with [] => True | c :: _ => p c = false end -> span p (a ++ t) = (a, t).
Proof.
  induction a as [|c a I]; intros A T; cbn [app span].
  - destruct t as [|c t]; [reflexivity|]. cbn [span]. rewrite T. reflexivity.
  - cbn [forallb] in A. apply andb_true_iff in A. destruct A as [-> A]. rewrite (I A T). reflexivity.
Qed.
Lemma stop_word t : stop t -> match t with [] => True | c :: _ => wordchar c = false end.
Proof. destruct t as [|c t]; [trivial|]. cbn [stop]. intros [->|[->|[->| ->]]]; reflexivity. Qed.

Lemma digit_test c : digit c = true <-> 48 <= c < 58.
Proof. unfold digit. rewrite andb_true_iff. lia. Qed.
Lemma parse_num k c r : c = 45 \/ digit c = true ->
  parse (S k) (c :: r) = option_map (fun n => (VInt n, snd (span wordchar r))) (int_literal (c :: fst (span wordchar r))).
Proof.
  intro H. assert (B : c = 45 \/ 48 <= c < 58) by (rewrite <- digit_test; exact H). cbn [parse]. unfold is_quote.
  replace (c =? 91) with false by lia. replace (c =? 40) with false by lia. replace (c =? 123) with false by lia. replace (c =? 39) with false by lia. replace (c =? 34) with false by lia.
  replace (c =? 98) with false by lia. cbn [orb andb]. replace ((c =? 45) || digit c) with true by (symmetry; apply orb_true_iff; destruct H; [left; lia|right; assumption]). reflexivity.
Qed.
Lemma reads_num s n : int_literal s = Some n -> (exists c r, s = c :: r /\ (c = 45 \/ digit c = true) /\ forallb wordchar r = true) -> reads s (VInt n).
Proof.
  intros E (c & r & -> & C & W) fuel t F T. destruct fuel as [|k]; [lia|]. cbn [app]. rewrite parse_num by exact C. rewrite (span_app _ _ _ W (stop_word t T)). cbn [fst snd]. rewrite E. reflexivity.
Qed.

Lemma nat_literal_other c r : c <> 48 -> nat_literal (c :: r) = numeral (c :: r).
Proof. intro H. unfold nat_literal. destruct c as [|p|p]; try reflexivity. do 6 (destruct p as [p|p|]; try reflexivity). congruence. Qed.
Lemma int_literal_other c r : c <> 45 -> int_literal (c :: r) = nat_literal (c :: r).
Proof. intro H. unfold int_literal. destruct c as [|p|p]; try reflexivity. do 6 (destruct p as [p|p|]; try reflexivity). congruence. Qed.
Lemma nat_literal_str n : 0 <= n -> nat_literal (str_nat n) = Some n.
Proof.
  intro H. destruct (Z.eq_dec n 0) as [->|N]; [reflexivity|]. destruct (digits_hd (S (Z.to_nat (Z.log2 n))) n) as (c & r & E & C); [split; [lia|apply fuel_enough; lia]|].
  pose proof (numeral_str n H) as V. unfold str_nat in *. rewrite E in *. rewrite nat_literal_other by exact C. exact V.
Qed.
Lemma digit_word c : 48 <= c < 58 -> wordchar c = true.
Proof. intro H. unfold wordchar. replace (digit c) with true by (symmetry; apply digit_test; exact H). rewrite orb_true_r. reflexivity. Qed.
Lemma digits_word s : Forall (fun c => 48 <= c < 58) s -> forallb wordchar s = true.
Proof. intro H. apply forallb_forall. intros c I. rewrite Forall_forall in H. apply digit_word, H, I. Qed.
Lemma reads_int n : reads (str_int n) (VInt n).
Proof.
  unfold str_int. destruct (n <? 0) eqn:E.
  - apply reads_num; [cbn [int_literal]; rewrite nat_literal_str by lia; cbn [option_map]; f_equal; lia|]. eexists _, _. split; [reflexivity|]. split; [left; reflexivity|]. apply digits_word, str_nat_digits. lia.
  - destruct (str_nat_cons n ltac:(lia)) as (c & r & S & C). assert (W : Forall (fun c => 48 <= c < 58) (str_nat n)) by (apply str_nat_digits; lia).
    apply reads_num; [rewrite S, int_literal_other by lia; rewrite <- S; apply nat_literal_str; lia|]. rewrite S in *. apply Forall_inv_tail in W. exists c, r. split; [reflexivity|]. split; [right; apply digit_test; exact C|]. apply digits_word, W.
Qed.

Definition hexdig (c : Z) : Prop := 48 <= c < 58 \/ 97 <= c <= 102 \/ 65 <= c <= 70.
Lemma hexdig_word s : Forall hexdig s -> forallb wordchar s = true.
Proof.
  intro H. apply forallb_forall. intros c I. rewrite Forall_forall in H. specialize (H c I). unfold hexdig in H. unfold wordchar, letter, digit.
  destruct H as [H|[H|H]].
  - replace ((48 <=? c) && (c <? 58)) with true by (symmetry; apply andb_true_iff; lia). rewrite orb_true_r. reflexivity.
  - replace ((97 <=? c) && (c <=? 122)) with true by (symmetry; apply andb_true_iff; lia). rewrite orb_true_r. reflexivity.
  - replace ((65 <=? c) && (c <=? 90)) with true by (symmetry; apply andb_true_iff; lia). reflexivity.
Qed.
Lemma reads_0x s n : s <> [] -> Forall hexdig s -> hexes 0 s = Some n -> reads (asc "0x" ++ s) (VInt n).
Proof.
  intros N H E. apply reads_num.
  - change (asc "0x" ++ s) with (48 :: 120 :: s). rewrite int_literal_other by lia. cbn [nat_literal]. destruct s; [congruence|exact E].
  - exists 48, (120 :: s). split; [reflexivity|]. split; [right; reflexivity|]. cbn [forallb]. apply andb_true_iff. split; [reflexivity|apply hexdig_word, H].
Qed.
Lemma reads_neg0x s n : s <> [] -> Forall hexdig s -> hexes 0 s = Some n -> reads (45 :: asc "0x" ++ s) (VInt (- n)).
Proof.
  intros N H E. apply reads_num.
  - change (asc "0x" ++ s) with (48 :: 120 :: s). cbn [int_literal nat_literal]. destruct s; [congruence|rewrite E; reflexivity].
  - exists 45, (48 :: 120 :: s). split; [reflexivity|]. split; [left; reflexivity|]. cbn [forallb]. do 2 (apply andb_true_iff; split; [reflexivity|]). apply hexdig_word, H.
Qed.
Lemma hex_digit_ok d : 0 <= d < 16 -> hexdig (hex_digit d).
Proof. intro H. unfold hex_digit, hexdig. destruct (d <? 10) eqn:E; lia. Qed.
Lemma hexdigits_ok k : forall n, 0 <= n -> Forall hexdig (hexdigits k n).
Proof.
  induction k as [|k I]; intros n H; [constructor|]. cbn [hexdigits]. destruct (n <? 16) eqn:E; [constructor; [apply hex_digit_ok; lia|constructor]|].
  apply Forall_app. split; [apply I; apply Z.div_pos; lia|]. constructor; [apply hex_digit_ok, Z.mod_pos_bound; lia|constructor].
Qed.
Lemma hexdigits_ne k n : hexdigits (S k) n <> [].
Proof. cbn [hexdigits]. destruct (n <? 16); [discriminate|]. intro H. apply app_eq_nil in H. destruct H as [_ H]. discriminate H. Qed.
Lemma hex_fuel n : 0 <= n -> n < 16 ^ Z.of_nat (S (Z.to_nat (Z.log2 n))).
Proof.
  intro H. destruct (Z.eq_dec n 0) as [->|N]; [reflexivity|]. pose proof (Z.log2_spec n ltac:(lia)) as [_ L]. pose proof (Z.log2_nonneg n).
  eapply Z.lt_le_trans; [exact L|]. replace (Z.of_nat (S (Z.to_nat (Z.log2 n)))) with (Z.succ (Z.log2 n)) by lia. apply Z.pow_le_mono_l. lia.
Qed.
Lemma reads_hex n : reads (hex n) (VInt n).
Proof.
  unfold hex, hex_nat. destruct (n <? 0) eqn:E.
  - replace n with (- - n) at 3 by lia. apply reads_neg0x; [apply hexdigits_ne|apply hexdigits_ok; lia|apply hexes_digits]. split; [lia|apply hex_fuel; lia].
  - apply reads_0x; [apply hexdigits_ne|apply hexdigits_ok; lia|apply hexes_digits]. split; [lia|apply hex_fuel; lia].
Qed.

(** upper case *)
Lemma hex_digit_up_ok d : 0 <= d < 16 -> hexdig (hex_digit_up d) /\ hexval (hex_digit_up d) = Some d.
Proof.
  intro H. unfold hex_digit_up, hexdig, hexval. destruct (d <? 10) eqn:E.
  - split; [lia|]. replace ((48 <=? 48 + d) && (48 + d <=? 57)) with true by (symmetry; apply andb_true_iff; lia). f_equal. lia.
  - split; [lia|]. replace ((48 <=? 55 + d) && (55 + d <=? 57)) with false by (symmetry; apply andb_false_iff; lia). replace ((97 <=? 55 + d) && (55 + d <=? 102)) with false by (symmetry; apply andb_false_iff; lia).
    replace ((65 <=? 55 + d) && (55 + d <=? 70)) with true by (symmetry; apply andb_true_iff; lia). f_equal. lia.
Qed.
Lemma hexdigits_up_ok k : forall n, 0 <= n -> Forall hexdig (hexdigits_up k n).
Proof.
  induction k as [|k I]; intros n H; [constructor|]. cbn [hexdigits_up]. destruct (n <? 16) eqn:E; [constructor; [apply hex_digit_up_ok; lia|constructor]|].
  apply Forall_app. split; [apply I; apply Z.div_pos; lia|]. constructor; [apply hex_digit_up_ok, Z.mod_pos_bound; lia|constructor].
Qed.
Lemma hexdigits_up_value k : forall n, 0 <= n < 16 ^ Z.of_nat k -> hexes 0 (hexdigits_up k n) = Some n.
Proof.
  induction k as [|k I]; intros n H; [cbn in *; f_equal; lia|]. cbn [hexdigits_up]. destruct (n <? 16) eqn:E.
  - cbn [hexes]. rewrite (proj2 (hex_digit_up_ok n ltac:(lia))). f_equal; lia.
  - rewrite hexes_app, I.
    2:{ rewrite Nat2Z.inj_succ, Z.pow_succ_r in H by lia. split; [apply Z.div_pos; lia|apply Z.div_lt_upper_bound; lia]. }
    cbn [obind hexes]. rewrite (proj2 (hex_digit_up_ok (n mod 16) ltac:(apply Z.mod_pos_bound; lia))). f_equal. pose proof (Z.div_mod n 16 ltac:(lia)). lia.
Qed.
Lemma hexes_zeros k s : hexes 0 (repeat 48 k ++ s) = hexes 0 s.
Proof. induction k as [|k I]; [reflexivity|]. cbn [repeat app hexes]. change (hexval 48) with (Some 0). exact I. Qed.
Lemma reads_X w n : 0 <= n -> reads (asc "0x" ++ fmt_X w n) (VInt n).
Proof.
  intro H. unfold fmt_X, hex_up. replace (n <? 0) with false by lia. apply reads_0x.
  - intro E. apply app_eq_nil in E. destruct E as [_ E]. cbn [hexdigits_up] in E. destruct (n <? 16); [discriminate E|]. apply app_eq_nil in E. destruct E as [_ E]. discriminate E.
  - apply Forall_app. split; [|apply hexdigits_up_ok, H]. unfold rep. apply Forall_forall. intros c I. apply repeat_spec in I. subst c. left. lia.
  - unfold rep. rewrite hexes_zeros. apply hexdigits_up_value. split; [lia|apply hex_fuel, H].
Qed.

(** ** literals in quotes *)
Lemma close_app q s : forall a b t, close_quote q s = Some (a, b) -> close_quote q (s ++ t) = Some (a, b ++ t).
Proof.
  enough (G : forall n s, (length s < n)%nat -> forall a b t, close_quote q s = Some (a, b) -> close_quote q (s ++ t) = Some (a, b ++ t)) by (intros a b t; apply (G (S (length s))); lia).
  induction n as [|n I]; intros s0 L a b t H; [lia|]. destruct s0 as [|c r]; [discriminate H|]. cbn [length] in L. cbn [app close_quote] in *. destruct (c =? q).
  - injection H as <- <-. reflexivity.
  - destruct (c =? 92).
    + destruct r as [|d r]; [discriminate H|]. cbn [app length] in *. destruct (close_quote q r) as [[a1 b1]|] eqn:E; [|discriminate H]. cbn [option_map fst snd] in H. injection H as <- <-.
      rewrite (I r ltac:(lia) a1 b1 t E). reflexivity.
    + destruct (close_quote q r) as [[a1 b1]|] eqn:E; [|discriminate H]. cbn [option_map fst snd] in H. injection H as <- <-. rewrite (I r ltac:(lia) a1 b1 t E). reflexivity.
Qed.
Definition quote (q : Z) : Prop := q = 39 \/ q = 34.
Lemma close_plain q c r : c <> q -> c <> 92 -> close_quote q r = Some (r, []) -> close_quote q (c :: r) = Some (c :: r, []).
Proof. intros A B E. cbn [close_quote]. replace (c =? q) with false by lia. replace (c =? 92) with false by lia. rewrite E. reflexivity. Qed.
Lemma close_pair q d r : quote q -> close_quote q r = Some (r, []) -> close_quote q (92 :: d :: r) = Some (92 :: d :: r, []).
Proof. intros Q E. cbn [close_quote]. replace (92 =? q) with false by (destruct Q; lia). cbn [Z.eqb Pos.eqb]. rewrite E. reflexivity. Qed.
Lemma hexval_not q c v : quote q -> hexval c = Some v -> c <> q /\ c <> 92.
Proof. intros [->| ->] H; split; intros ->; discriminate H. Qed.
Lemma octal_not q c : quote q -> octal c = true -> c <> q /\ c <> 92.
Proof. intros [->| ->] H; split; intros ->; discriminate H. Qed.
Lemma keep_some b o d : keep b o = Some d -> exists d1, o = Some d1.
Proof. destruct o as [d1|]; [intros _; exists d1; reflexivity|discriminate]. Qed.
Lemma skeep_some b o d : skeep b o = Some d -> exists d1, o = Some d1.
Proof. unfold skeep. destruct ((0 <=? b) && (b <? 0x110000)); [|discriminate]. destruct o as [d1|]; [intros _; exists d1; reflexivity|discriminate]. Qed.
Lemma lit_close q : quote q -> forall s d, lit_quoted q s = Some d -> close_quote q s = Some (s, []).
Proof.
  intro Q. enough (G : forall n s, (length s < n)%nat -> forall d, lit_quoted q s = Some d -> close_quote q s = Some (s, [])) by (intros s d; apply (G (S (length s))); lia).
  induction n as [|n I]; intros s L d H; [lia|]. destruct s as [|c r]; [discriminate H|]. cbn [length] in L. cbn [lit_quoted] in H.
  destruct (c =? q) eqn:C.
  { destruct r; [|discriminate H]. cbn [close_quote]. rewrite C. reflexivity. }
  destruct (c =? 92) eqn:B.
  - assert (c = 92) as -> by lia. destruct r as [|e r]; [discriminate H|]. cbn [length] in L.
    assert (K : forall b x, keep b (lit_quoted q r) = Some x -> close_quote q (92 :: e :: r) = Some (92 :: e :: r, [])).
    { intros b x K. apply keep_some in K. destruct K as [y K]. apply close_pair; [exact Q|]. apply (I r ltac:(lia) y K). }
    destruct (octal e) eqn:O1.
    + destruct r as [|f r]; [discriminate H|]. cbn [length] in L. destruct (octal f) eqn:O2; [|apply (K _ _ H)]. destruct (octal_not q f Q O2) as [F1 F2].
      destruct r as [|g r]; [discriminate H|]. cbn [length] in L. destruct (octal g) eqn:O3.
      * destruct (octal_not q g Q O3) as [G1 G2]. apply keep_some in H. destruct H as [y H]. apply close_pair; [exact Q|]. apply close_plain; [exact F1|exact F2|]. apply close_plain; [exact G1|exact G2|]. apply (I r ltac:(lia) y H).
      * apply keep_some in H. destruct H as [y H]. apply close_pair; [exact Q|]. apply close_plain; [exact F1|exact F2|]. apply (I (g :: r) ltac:(cbn [length]; lia) y H).
    + destruct (e =? 120).
      * destruct r as [|h [|l r]]; try discriminate H. destruct (hexval h) as [a|] eqn:H1; [|discriminate H]. destruct (hexval l) as [b|] eqn:H2; [|discriminate H].
        destruct (hexval_not q h a Q H1) as [F1 F2]. destruct (hexval_not q l b Q H2) as [G1 G2]. cbn [length] in L.
        apply keep_some in H. destruct H as [y H]. apply close_pair; [exact Q|]. apply close_plain; [exact F1|exact F2|]. apply close_plain; [exact G1|exact G2|]. apply (I r ltac:(lia) y H).
      * repeat match goal with H : (if ?b then _ else _) = Some _ |- _ => destruct b; [try (apply (K _ _ H))|] end; apply (fun x => K _ _ x) in H || (apply keep_some in H; destruct H as [y H]; apply (K _ _ H)); exact H.
  - destruct ((0 <=? c) && (c <? 128) && negb (c =? 10) && negb (c =? 13)); [|discriminate H]. apply keep_some in H. destruct H as [y H]. apply close_plain; [lia|lia|]. apply (I r ltac:(lia) y H).
Qed.
Lemma hexes_plain q s : quote q -> forall v w, hexes v s = Some w -> Forall (fun c => c <> q /\ c <> 92) s.
Proof.
  intro Q. induction s as [|c s I]; intros v w H; [constructor|]. cbn [hexes] in H. destruct (hexval c) as [d|] eqn:E; [|discriminate H].
  constructor; [apply (hexval_not q c d Q E)|apply (I _ _ H)].
Qed.
Lemma close_plains q s r : Forall (fun c => c <> q /\ c <> 92) s -> close_quote q r = Some (r, []) -> close_quote q (s ++ r) = Some (s ++ r, []).
Proof. intros F E. induction F as [|c s [A B] F I]; [exact E|]. cbn [app]. apply close_plain; assumption. Qed.
Lemma str_close q : quote q -> forall s d, str_quoted q s = Some d -> close_quote q s = Some (s, []).
Proof.
  intro Q. enough (G : forall n s, (length s < n)%nat -> forall d, str_quoted q s = Some d -> close_quote q s = Some (s, [])) by (intros s d; apply (G (S (length s))); lia).
  induction n as [|n I]; intros s L d H; [lia|]. destruct s as [|c r]; [discriminate H|]. cbn [length] in L. cbn [str_quoted] in H.
  destruct (c =? q) eqn:C.
  { destruct r; [|discriminate H]. cbn [close_quote]. rewrite C. reflexivity. }
  destruct (c =? 92) eqn:B.
  - assert (c = 92) as -> by lia. destruct r as [|e r]; [discriminate H|]. cbn [length] in L.
    assert (K : forall b x, skeep b (str_quoted q r) = Some x -> close_quote q (92 :: e :: r) = Some (92 :: e :: r, [])).
    { intros b x K. apply skeep_some in K. destruct K as [y K]. apply close_pair; [exact Q|]. apply (I r ltac:(lia) y K). }
    assert (X : forall hs r2 x, r = hs ++ r2 -> obind (hexes 0 hs) (fun v => skeep v (str_quoted q r2)) = Some x -> close_quote q (92 :: e :: r) = Some (92 :: e :: r, [])).
    { intros hs r2 x -> X. destruct (hexes 0 hs) as [v|] eqn:E; [|discriminate X]. cbn [obind] in X. apply skeep_some in X. destruct X as [y X]. apply close_pair; [exact Q|].
      apply close_plains; [apply (hexes_plain q hs Q 0 v E)|]. apply (I r2) with (d := y); [rewrite app_length in L; lia|exact X]. }
    destruct (e =? 120); [destruct r as [|h1 [|h2 r]]; try discriminate H; apply (X [h1; h2] r _ eq_refl H)|].
    destruct (e =? 117); [destruct r as [|h1 [|h2 [|h3 [|h4 r]]]]; try discriminate H; apply (X [h1; h2; h3; h4] r _ eq_refl H)|].
    destruct (e =? 85); [destruct r as [|h1 [|h2 [|h3 [|h4 [|h5 [|h6 [|h7 [|h8 r]]]]]]]]; try discriminate H; apply (X [h1; h2; h3; h4; h5; h6; h7; h8] r _ eq_refl H)|].
    do 4 (match goal with H : (if ?b then _ else _) = Some _ |- _ => destruct b; [apply (K _ _ H)|] end). discriminate H.
  - destruct ((c =? 10) || (c =? 13)); [discriminate H|]. apply skeep_some in H. destruct H as [y H]. apply close_plain; [lia|lia|]. apply (I r ltac:(lia) y H).
Qed.
Lemma quote_test q : quote q -> is_quote q = true.
Proof. intros [->| ->]; reflexivity. Qed.
Lemma reads_str_lit q r d : quote q -> str_quoted q r = Some d -> reads (q :: r) (VStr d).
Proof.
  intros Q H fuel t F _. destruct fuel as [|k]; [lia|]. pose proof (str_close q Q r d H) as C. apply (close_app q r r [] t) in C. cbn [app] in *. cbn [parse].
  replace (q =? 91) with false by (destruct Q; lia). replace (q =? 40) with false by (destruct Q; lia). replace (q =? 123) with false by (destruct Q; lia). rewrite (quote_test q Q), C. cbn [obind fst snd]. rewrite H. reflexivity.
Qed.
Lemma reads_bytes_lit s d : literal s = Some d -> reads s (VBytes d).
Proof.
  intros H fuel t F _. destruct fuel as [|k]; [lia|]. destruct s as [|b [|q r]]; try discriminate H. cbn [literal] in H. destruct ((b =? 98) && ((q =? 39) || (q =? 34))) eqn:E; [|discriminate H].
  apply andb_true_iff in E. destruct E as [B Q]. assert (b = 98) as -> by lia. assert (Q1 : quote q) by (unfold quote; apply orb_true_iff in Q; lia). clear B Q.
  pose proof (lit_close q Q1 r d H) as C. apply (close_app q r r [] t) in C. cbn [app] in *. cbn [parse]. change (is_quote 98) with false. cbn [Z.eqb Pos.eqb hd tl]. rewrite (quote_test q Q1). cbn [andb]. rewrite C.
  cbn [obind fst snd]. rewrite H. reflexivity.
Qed.
Lemma reads_bytes d : is_bytes d -> reads (repr_bytes d) (VBytes d).
Proof. intro H. apply reads_bytes_lit, literal_repr, H. Qed.

(** ** the representation of a str *)
Lemma hex_fixed_value k : forall n, 0 <= n < 16 ^ Z.of_nat k -> hexes 0 (hex_fixed k n) = Some n.
Proof.
  induction k as [|k I]; intros n H; [cbn in *; f_equal; lia|]. cbn [hex_fixed]. rewrite Nat2Z.inj_succ, Z.pow_succ_r in H by lia.
  rewrite hexes_app, I by (split; [apply Z.div_pos; lia|apply Z.div_lt_upper_bound; lia]). cbn [obind hexes]. rewrite hexval_digit by (apply Z.mod_pos_bound; lia). f_equal. pose proof (Z.div_mod n 16 ltac:(lia)). lia.
Qed.
Lemma repr_char_back printable q c rest : quote q -> 0 <= c < 0x110000 -> str_quoted q (repr_char printable q c ++ rest) = option_map (cons c) (str_quoted q rest).
Proof.
  intros Q H. assert (K : forall o, skeep c o = option_map (cons c) o) by (intro o; unfold skeep; replace ((0 <=? c) && (c <? 0x110000)) with true by (symmetry; apply andb_true_iff; lia); reflexivity).
  assert (N92 : 92 =? q = false) by (destruct Q; lia). unfold repr_char.
  destruct ((c =? q) || (c =? 92)) eqn:E1.
  { cbn [app str_quoted]. rewrite N92. cbn [Z.eqb Pos.eqb]. assert (D : c = 39 \/ c = 34 \/ c = 92) by (apply orb_true_iff in E1; unfold quote in Q; lia).
    destruct D as [->|[->| ->]]; cbn [Z.eqb Pos.eqb orb]; apply K. }
  apply orb_false_iff in E1. destruct E1 as [NQ NB].
  destruct (c =? 9) eqn:E2; [assert (c = 9) as -> by lia; change (asc "\t") with [92; 116]; cbn [app str_quoted]; rewrite N92; cbn [Z.eqb Pos.eqb]; apply K|].
  destruct (c =? 10) eqn:E3; [assert (c = 10) as -> by lia; change (asc "\n") with [92; 110]; cbn [app str_quoted]; rewrite N92; cbn [Z.eqb Pos.eqb]; apply K|].
  destruct (c =? 13) eqn:E4; [assert (c = 13) as -> by lia; change (asc "\r") with [92; 114]; cbn [app str_quoted]; rewrite N92; cbn [Z.eqb Pos.eqb]; apply K|].
  assert (P : str_quoted q ([c] ++ rest) = option_map (cons c) (str_quoted q rest)) by (cbn [app str_quoted]; rewrite NQ, NB, E3, E4; apply K).
  assert (X : c < 0x100 -> str_quoted q ((asc "\x" ++ hex_fixed 2 c) ++ rest) = option_map (cons c) (str_quoted q rest)).
  { intro L. pose proof (hex_fixed_value 2 c ltac:(change (16 ^ Z.of_nat 2) with 256; lia)) as V. change (asc "\x") with [92; 120]. cbn [hex_fixed app] in *. cbn [str_quoted]. rewrite N92. cbn [Z.eqb Pos.eqb]. rewrite V. cbn [obind]. apply K. }
  destruct ((c <? 32) || (c =? 127)) eqn:E5; [apply X; apply orb_true_iff in E5; lia|].
  destruct (c <? 127); [exact P|]. destruct (printable c); [exact P|]. destruct (c <? 0x100) eqn:E6; [apply X; lia|].
  destruct (c <? 0x10000) eqn:E7.
  - pose proof (hex_fixed_value 4 c ltac:(change (16 ^ Z.of_nat 4) with 65536; lia)) as V. change (asc "\u") with [92; 117]. cbn [hex_fixed app] in *. cbn [str_quoted]. rewrite N92. cbn [Z.eqb Pos.eqb]. rewrite V. cbn [obind]. apply K.
  - pose proof (hex_fixed_value 8 c ltac:(change (16 ^ Z.of_nat 8) with 4294967296; lia)) as V. change (asc "\U") with [92; 85]. cbn [hex_fixed app] in *. cbn [str_quoted]. rewrite N92. cbn [Z.eqb Pos.eqb]. rewrite V. cbn [obind]. apply K.
Qed.
Lemma repr_str_back printable q s : quote q -> is_text s -> str_quoted q (flat_map (repr_char printable q) s ++ [q]) = Some s.
Proof.
  intros Q H. induction H as [|c s C H I]; [cbn [flat_map app str_quoted]; rewrite Z.eqb_refl; reflexivity|]. cbn [flat_map]. rewrite <- app_assoc, repr_char_back by assumption. rewrite I. reflexivity.
Qed.
Lemma reads_str printable s : is_text s -> reads (repr_str printable s) (VStr s).
Proof. intro H. assert (Q : quote (quote_of s)) by apply quote_cases. apply reads_str_lit; [exact Q|]. apply repr_str_back; assumption. Qed.

(** ** lists and calls *)
Definition closer (c : Z) : Prop := c = 93 \/ c = 41 \/ c = 125.
Definition separator (s : list Z) : Prop := s = [44] \/ s = [44; 32].
Lemma strip_other s : hd 0 s <> 32 -> strip_space s = s.
Proof. destruct s as [|c s]; [reflexivity|]. cbn [hd]. intro H. unfold strip_space. destruct c as [|p|p]; try reflexivity. do 6 (destruct p as [p|p|]; try reflexivity). congruence. Qed.
Lemma joined_head sep ss vs t : Forall2 reads ss vs -> ss <> [] -> exists c r, joined sep ss ++ t = c :: r /\ c <> 32 /\ ~ closer c.
Proof.
  intros F N. destruct F as [|s v ss vs R F]; [congruence|]. destruct (reads_head s v R) as (c & r & -> & A & B & C & D & E).
  destruct ss as [|s2 ss]; cbn [joined app]; eexists _, _; (split; [reflexivity|]); (split; [exact A|]); unfold closer; lia.
Qed.
Lemma more_ok ss vs : Forall2 reads ss vs -> ss <> [] -> forall sep close fuel t, separator sep -> closer close -> (2 * length (joined sep ss) + 1 < fuel)%nat ->
  more fuel close (joined sep ss ++ close :: t) = Some (vs, t).
Proof.
  induction 1 as [|s v ss vs R F I]; intros N sep close fuel t P C L; [congruence|]. destruct fuel as [|k]; [lia|]. cbn [more].
  assert (SC : forall x, stop (close :: x)) by (intro x; cbn [stop]; unfold closer in C; lia).
  destruct ss as [|s2 ss].
  - inversion F; subst vs. cbn [joined] in *. rewrite (R k (close :: t) ltac:(lia) (SC t)). cbn [obind fst snd]. rewrite Z.eqb_refl. reflexivity.
  - rewrite (eq_refl : joined sep (s :: s2 :: ss) = s ++ sep ++ joined sep (s2 :: ss)) in L |- *. set (J := joined sep (s2 :: ss)) in *.
    rewrite !app_length in L. assert (exists u, sep = 44 :: u /\ (u = [] \/ u = [32])) as (u & -> & U) by (destruct P as [->| ->]; eexists; split; auto).
    replace ((s ++ (44 :: u) ++ J) ++ close :: t) with (s ++ 44 :: (u ++ J ++ close :: t)) by (rewrite <- !app_assoc; reflexivity). cbn [length] in L.
    rewrite (R k (44 :: u ++ J ++ close :: t) ltac:(lia)) by (cbn [stop]; lia). cbn [obind fst snd]. replace (44 =? close) with false by (unfold closer in C; lia). cbn [Z.eqb Pos.eqb].
    replace (strip_space (u ++ J ++ close :: t)) with (J ++ close :: t).
    + unfold J. rewrite (I ltac:(discriminate) (44 :: u) close k t P C) by (fold J; lia). reflexivity.
    + symmetry. destruct U as [->| ->]; cbn [app]; [|reflexivity]. apply strip_other. destruct (joined_head (44 :: []) (s2 :: ss) vs (close :: t) F ltac:(discriminate)) as (c & r & E & A & _). unfold J. rewrite E. exact A.
Qed.
Lemma items_ok ss vs sep close k t : Forall2 reads ss vs -> separator sep -> closer close -> (2 * length (joined sep ss) + 1 < k)%nat ->
  match joined sep ss ++ close :: t with
  | c :: u => if c =? close then Some ([], u) else more k close (joined sep ss ++ close :: t)
  | [] => None
  end = Some (vs, t).
Proof.
  intros F P C L. destruct ss as [|s ss].
  - inversion F; subst vs. cbn [joined app]. rewrite Z.eqb_refl. reflexivity.
  - rewrite (more_ok (s :: ss) vs F ltac:(discriminate) sep close k t P C L). destruct (joined_head sep (s :: ss) vs (close :: t) F ltac:(discriminate)) as (c & r & -> & _ & B). replace (c =? close) with false; [reflexivity|]. symmetry. apply Z.eqb_neq. intros ->. contradiction.
Qed.
Lemma reads_list sep ss vs : Forall2 reads ss vs -> separator sep -> reads (asc "[" ++ joined sep ss ++ asc "]") (VList vs).
Proof.
  intros F P fuel t L _. change (asc "[") with [91] in *. change (asc "]") with [93] in *. rewrite !app_length in L. cbn [length] in L. destruct fuel as [|k]; [lia|].
  replace (([91] ++ joined sep ss ++ [93]) ++ t) with (91 :: joined sep ss ++ 93 :: t) by (cbn [app]; rewrite <- app_assoc; reflexivity). cbn [parse]. cbn [Z.eqb Pos.eqb].
  rewrite (items_ok ss vs sep 93 k t F P ltac:(unfold closer; lia) ltac:(lia)). reflexivity.
Qed.
Lemma reads_tuple sep ss vs : Forall2 reads ss vs -> separator sep -> length vs <> 1%nat -> reads (asc "(" ++ joined sep ss ++ asc ")") (VTuple vs).
Proof.
  intros F P N fuel t L _. change (asc "(") with [40] in *. change (asc ")") with [41] in *. rewrite !app_length in L. cbn [length] in L. destruct fuel as [|k]; [lia|].
  replace (([40] ++ joined sep ss ++ [41]) ++ t) with (40 :: joined sep ss ++ 41 :: t) by (cbn [app]; rewrite <- app_assoc; reflexivity). cbn [parse]. cbn [Z.eqb Pos.eqb].
  rewrite (items_ok ss vs sep 41 k t F P ltac:(unfold closer; lia) ltac:(lia)). cbn [option_map fst snd]. destruct vs as [|v [|w vs]]; try reflexivity. cbn [length] in N. congruence.
Qed.
Lemma reads_set sep ss vs : Forall2 reads ss vs -> separator sep -> vs <> [] -> reads (asc "{" ++ joined sep ss ++ asc "}") (VSet vs).
Proof.
  intros F P N fuel t L _. change (asc "{") with [123] in *. change (asc "}") with [125] in *. rewrite !app_length in L. cbn [length] in L. destruct fuel as [|k]; [lia|].
  replace (([123] ++ joined sep ss ++ [125]) ++ t) with (123 :: joined sep ss ++ 125 :: t) by (cbn [app]; rewrite <- app_assoc; reflexivity). cbn [parse]. cbn [Z.eqb Pos.eqb].
  rewrite (items_ok ss vs sep 125 k t F P ltac:(unfold closer; lia) ltac:(lia)). cbn [obind fst snd]. destruct vs; [congruence|reflexivity].
Qed.
(** names other than those that begin with b *)
Definition is_word (w : list Z) : bool := match w with c :: r => letter c && negb (c =? 98) && forallb wordchar r | [] => false end.
Lemma parse_word k w u : is_word w = true -> match u with [] => True | c :: _ => wordchar c = false end ->
  parse (S k) (w ++ u) =
    if hd 0 u =? 40 then option_map (fun p => (VCall w (fst p), snd p)) (match tl u with c :: r => if c =? 41 then Some ([], r) else more k 41 (tl u) | [] => None end)
    else if hd 0 u =? 61 then option_map (fun p => (VNamed w (fst p), snd p)) (parse k (tl u))
    else Some (VWord w, u).
Proof.
  intros W U. destruct w as [|c w]; [discriminate W|]. cbn [is_word] in W. apply andb_true_iff in W. destruct W as [W W3]. apply andb_true_iff in W. destruct W as [W1 W2].
  assert (B : 65 <= c <= 90 \/ 97 <= c <= 122 \/ c = 95) by (unfold letter in W1; rewrite !orb_true_iff, !andb_true_iff in W1; lia).
  assert (S : span wordchar ((c :: w) ++ u) = (c :: w, u)) by (apply span_app; [cbn [forallb]; unfold wordchar at 1; rewrite W1; exact W3|exact U]). cbn [app] in *.
  cbn [parse]. rewrite S, W1. unfold is_quote, digit.
  replace (c =? 91) with false by lia. replace (c =? 40) with false by lia. replace (c =? 123) with false by lia. replace (c =? 39) with false by lia. replace (c =? 34) with false by lia.
  replace (c =? 98) with false by (apply negb_true_iff in W2; lia). replace (c =? 45) with false by lia. replace (c <? 58) with false by lia. rewrite andb_false_r. replace (c =? 46) with false by lia. cbn [orb andb fst snd]. reflexivity.
Qed.
Lemma reads_call f sep ss vs : is_word f = true -> Forall2 reads ss vs -> separator sep -> reads (f ++ asc "(" ++ joined sep ss ++ asc ")") (VCall f vs).
Proof.
  intros W F P fuel t L _. change (asc "(") with [40] in *. change (asc ")") with [41] in *. rewrite !app_length in L. cbn [length] in L. destruct fuel as [|k]; [lia|].
  replace ((f ++ [40] ++ joined sep ss ++ [41]) ++ t) with (f ++ 40 :: joined sep ss ++ 41 :: t) by (rewrite <- !app_assoc; reflexivity).
  rewrite parse_word by (exact W || exact eq_refl). cbn [hd tl Z.eqb Pos.eqb]. rewrite (items_ok ss vs sep 41 k t F P ltac:(unfold closer; lia) ltac:(lia)). reflexivity.
Qed.
Lemma reads_named w s v : is_word w = true -> reads s v -> reads (w ++ asc "=" ++ s) (VNamed w v).
Proof.
  intros W R fuel t L T. change (asc "=") with [61] in *. rewrite !app_length in L. cbn [length] in L. destruct fuel as [|k]; [lia|].
  replace ((w ++ [61] ++ s) ++ t) with (w ++ 61 :: (s ++ t)) by (rewrite <- !app_assoc; reflexivity). rewrite parse_word by (exact W || exact eq_refl). cbn [hd tl Z.eqb Pos.eqb]. rewrite (R k t ltac:(lia) T). reflexivity.
Qed.
Lemma reads_word w : is_word w = true -> reads w (VWord w).
Proof.
  intros W fuel t L T. destruct fuel as [|k]; [lia|]. rewrite parse_word by (exact W || apply stop_word, T). destruct t as [|c t]; [reflexivity|]. cbn [stop] in T. destruct T as [->|[->|[->| ->]]]; reflexivity.
Qed.
Lemma sep_space : separator (asc ", ").
Proof. right. reflexivity. Qed.
Lemma reads_call_args f ss vs : is_word f = true -> Forall2 reads ss vs -> reads (call f ss) (VCall f vs).
Proof. intros W F. apply reads_call; [exact W|exact F|apply sep_space]. Qed.
Lemma reads_repr_list ss vs : Forall2 reads ss vs -> reads (repr_list ss) (VList vs).
Proof. intro F. apply reads_list; [exact F|apply sep_space]. Qed.
Lemma reads_pair a b v w : reads a v -> reads b w -> reads (repr_pair a b) (VTuple [v; w]).
Proof.
  intros A B. pose proof (reads_tuple (asc ", ") [a; b] [v; w] ltac:(repeat constructor; assumption) sep_space ltac:(discriminate)) as H. cbn [joined] in H.
  unfold repr_pair. rewrite <- app_assoc in H. rewrite <- app_assoc in H. exact H.
Qed.
Lemma forall2_map {A} (f : A -> list Z) (g : A -> value) l : Forall (fun x => reads (f x) (g x)) l -> Forall2 reads (map f l) (map g l).
Proof. induction 1; constructor; assumption. Qed.

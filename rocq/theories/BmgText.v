(** * The text codecs used by BMG files *)
From Coq Require Import String.
From Verif Require Import PyBase PyLemmas PyTac AtLemmas BmgModel BmgSpec.

Lemma encode_nil c : encode c [] = Ok [].
Proof. reflexivity. Qed.
Lemma encode_cons c x s b : encode c (x :: s) = Ok b -> exists u v, c_char c x = Ok u /\ encode c s = Ok v /\ b = u ++ v.
Proof.
  unfold encode. cbn [mapM]. intros H. apply bind_ok in H as (l & H & E). apply bind_ok in H as (u & Hu & H). apply bind_ok in H as (v & Hv & H).
  inversion H; subst l. exists u, (concat v). rewrite Hv. cbn [bind concat] in *. inversion E. auto.
Qed.
Lemma encode_app c s t a b : encode c s = Ok a -> encode c t = Ok b -> encode c (s ++ t) = Ok (a ++ b).
Proof.
  unfold encode. rewrite mapM_app. intros H1 H2. apply bind_ok in H1 as (l1 & -> & E1). apply bind_ok in H2 as (l2 & -> & E2). cbn [bind].
  inversion E1. inversion E2. rewrite concat_app. reflexivity.
Qed.
Lemma encode_single c x u : c_char c x = Ok u -> encode c [x] = Ok u.
Proof. intros H. unfold encode. cbn [mapM]. rewrite H. cbn [bind concat]. rewrite app_nil_r. reflexivity. Qed.

(** sufficient conditions, one character at a time *)
Lemma framed_chars c nul esc s :
  c_dec c [] = Ok [] ->
  (forall x u, In x s -> c_char c x = Ok u ->
     u <> [] /\ (forall r, c_dec c (u ++ r) = (t <- c_dec c r ;; Ok (x :: t))) /\
     exists us, u = concat us /\ Forall (unit_ok nul esc) us) ->
  framed c nul esc s.
Proof.
  intros H0 H b. revert b. induction s as [|x s IH]; intros b E.
  - inversion E; subst. split; [exact H0|]. split; [congruence|]. exists []. split; [reflexivity|constructor].
  - apply encode_cons in E as (u & v & Hu & Hv & ->). destruct (H x u (or_introl eq_refl) Hu) as (N & D & us & -> & F).
    assert (IHv : forall y w, In y s -> c_char c y = Ok w -> w <> [] /\ (forall r, c_dec c (w ++ r) = (t <- c_dec c r ;; Ok (y :: t))) /\ exists us0, w = concat us0 /\ Forall (unit_ok nul esc) us0)
      by (intros y w Hy; apply H; right; exact Hy).
    destruct (IH IHv v Hv) as (D2 & _ & vs & -> & F2). split.
    + rewrite D, D2. reflexivity.
    + split. { intros _ Z. apply app_eq_nil in Z as [Z _]. contradiction. }
      exists (us ++ vs). rewrite concat_app. split; [reflexivity|]. apply Forall_app. split; assumption.
Qed.

(** ** cp1252 *)
Lemma index_of_nth v l p i : index_of v l p = Some i -> p <= i < p + zlen l /\ nth (Z.to_nat (i - p)) l 0 = v.
Proof.
  revert p. induction l as [|x l IH]; intros p H; cbn [index_of] in H; [discriminate|]. rewrite zlen_cons. pose proof (zlen_nonneg l).
  destruct (Z.eqb_spec x v) as [->|].
  - inversion H; subst. split; [lia|]. replace (i - i) with 0 by lia. reflexivity.
  - apply IH in H as [H1 H2]. split; [lia|]. replace (Z.to_nat (i - p)) with (S (Z.to_nat (i - (p + 1)))) by lia. exact H2.
Qed.
Lemma cp1252_framed s : is_text s -> ~ In 0 s -> ~ In 26 s -> framed (mkCodec cp1252_char (mapM cp1252_byte)) [0] [26] s.
Proof.
  intros T N0 N26. apply framed_chars; [reflexivity|]. cbn [c_char c_dec]. intros x u Hx E.
  assert (X : 0 <= x < 0x110000) by (unfold is_text in T; rewrite Forall_forall in T; apply T; exact Hx).
  assert (x <> 0 /\ x <> 26) as [X0 X26] by (split; intros ->; contradiction).
  assert (exists y, u = [y] /\ y <> 0 /\ y <> 26 /\ cp1252_byte y = Ok x) as (y & -> & Y0 & Y26 & D).
  { unfold cp1252_char in E. destruct ((x <? 128) || ((160 <=? x) && (x <? 256))) eqn:C.
    - inversion E. exists x. repeat split; try assumption. unfold cp1252_byte. replace ((128 <=? x) && (x <? 160)) with false by lia. reflexivity.
    - destruct (index_of x cp1252_high 128) as [i|] eqn:I; [|discriminate]. inversion E. apply index_of_nth in I as [I1 I2]. change (zlen cp1252_high) with 32 in I1.
      exists i. repeat split; try lia. unfold cp1252_byte. replace ((128 <=? i) && (i <? 160)) with true by lia. rewrite I2. replace (x =? 0) with false by lia. reflexivity. }
  split; [discriminate|]. split.
  - intros r. cbn [app mapM]. rewrite D. reflexivity.
  - exists [[y]]. split; [reflexivity|]. constructor; [|constructor]. unfold unit_ok. repeat split; congruence.
Qed.

(** ** utf-16 *)
Lemma enc2 e v : enc e 2 v = match e with LE => [v mod 256; v / 256 mod 256] | BE => [v / 256 mod 256; v mod 256] end.
Proof. destruct e; reflexivity. Qed.
Lemma dec2 e v : 0 <= v < 65536 -> dec e (match e with LE => [v mod 256; v / 256 mod 256] | BE => [v / 256 mod 256; v mod 256] end) = v.
Proof. intros H. rewrite <- enc2. apply dec_enc. exact H. Qed.
Lemma utf16_unit e v r : 0 <= v < 65536 ->
  exists a b, enc e 2 v = [a; b] /\ dec e [a; b] = v /\ enc e 2 v ++ r = a :: b :: r.
Proof. intros H. pose proof (dec2 e v H) as D. rewrite enc2. destruct e; eexists; eexists; repeat split; exact D. Qed.
Lemma unit16 e v : 0 <= v < 65536 -> v <> 0 -> v <> 26 -> unit_ok (enc e 2 0) (enc e 2 26) (enc e 2 v).
Proof.
  intros H N0 N26. unfold unit_ok. rewrite !zlen_enc. split; [reflexivity|].
  split; intros E; apply (f_equal (dec e)) in E; rewrite !dec_enc in E by (change (256 ^ Z.of_nat 2) with 65536; lia); contradiction.
Qed.
Lemma utf16_framed e s : is_text s -> ~ In 0 s -> ~ In 26 s -> framed (mkCodec (utf16_char e) (utf16_dec e)) (enc e 2 0) (enc e 2 26) s.
Proof.
  intros T N0 N26. apply framed_chars; [reflexivity|]. cbn [c_char c_dec]. intros x u Hx E.
  assert (X : 0 <= x < 0x110000) by (unfold is_text in T; rewrite Forall_forall in T; apply T; exact Hx).
  assert (x <> 0 /\ x <> 26) as [X0 X26] by (split; intros ->; contradiction).
  unfold utf16_char in E. destruct (surrogateb x) eqn:S; [discriminate|]. destruct (Z.ltb_spec x 65536) as [L|L].
  - inversion E; subst u. split; [rewrite enc2; destruct e; discriminate|]. split.
    + intros r. destruct (utf16_unit e x r ltac:(lia)) as (a & b & E1 & E2 & E3). rewrite E3. cbn [utf16_dec]. rewrite E2, S. reflexivity.
    + exists [enc e 2 x]. split; [cbn [concat]; rewrite app_nil_r; reflexivity|]. constructor; [|constructor]. apply unit16; lia.
  - inversion E; subst u. set (h := 55296 + (x - 65536) / 1024). set (l := 56320 + (x - 65536) mod 1024).
    assert (55296 <= h < 56320) by (subst h; Z.to_euclidean_division_equations; lia). assert (56320 <= l < 57344) by (subst l; Z.to_euclidean_division_equations; lia).
    split; [rewrite enc2; destruct e; discriminate|]. split.
    + intros r. rewrite <- app_assoc. destruct (utf16_unit e h (enc e 2 l ++ r) ltac:(lia)) as (a & b & E1 & E2 & E3). rewrite E3.
      destruct (utf16_unit e l r ltac:(lia)) as (a2 & b2 & F1 & F2 & F3). rewrite F3. cbn [utf16_dec]. rewrite E2, F2.
      replace (surrogateb h) with true by (unfold surrogateb; lia). replace (h <? 56320) with true by lia. replace ((56320 <=? l) && (l <? 57344)) with true by lia.
      replace (65536 + (h - 55296) * 1024 + (l - 56320)) with x by (subst h l; Z.to_euclidean_division_equations; lia). reflexivity.
    + exists [enc e 2 h; enc e 2 l]. split; [cbn [concat]; rewrite app_nil_r; reflexivity|]. constructor; [|constructor; [|constructor]]; apply unit16; lia.
Qed.

(** ** utf-8 *)
Lemma units1 u : Forall (fun b => b <> 0 /\ b <> 26) u -> exists us, u = concat us /\ Forall (unit_ok [0] [26]) us.
Proof.
  induction 1 as [|b u [B0 B26] _ (us & -> & F)]; [exists []; split; [reflexivity|constructor]|].
  exists ([b] :: us). split; [reflexivity|]. constructor; [|exact F]. unfold unit_ok. repeat split; congruence.
Qed.
Lemma utf8_framed s : is_text s -> ~ In 0 s -> ~ In 26 s -> framed (mkCodec utf8_char utf8_dec) [0] [26] s.
Proof.
  intros T N0 N26. apply framed_chars; [reflexivity|]. cbn [c_char c_dec]. intros x u Hx E.
  assert (X : 0 <= x < 0x110000) by (unfold is_text in T; rewrite Forall_forall in T; apply T; exact Hx).
  assert (x <> 0 /\ x <> 26) as [X0 X26] by (split; intros ->; contradiction). clear T N0 N26 Hx.
  unfold utf8_char in E. destruct (surrogateb x) eqn:S; [discriminate|].
  destruct (Z.ltb_spec x 128) as [L|L]; [|destruct (Z.ltb_spec x 2048) as [L2|L2]; [|destruct (Z.ltb_spec x 65536) as [L3|L3]]]; inversion E; subst u; clear E.
  - split; [discriminate|]. split; [|apply units1; repeat constructor; lia].
    intros r. cbn [app utf8_dec]. replace (x <? 128) with true by lia. reflexivity.
  - set (a := 192 + x / 64). set (b := 128 + x mod 64).
    assert (194 <= a < 224 /\ 128 <= b < 192 /\ (a - 192) * 64 + (b - 128) = x) as (A & B & V) by (subst a b; clear S; Z.to_euclidean_division_equations; lia).
    clearbody a b. split; [discriminate|]. split; [|apply units1; repeat constructor; lia].
    intros r. cbn [app utf8_dec]. replace (a <? 128) with false by lia. replace (a <? 194) with false by lia. replace (a <? 224) with true by lia.
    replace (contb b) with true by (unfold contb; lia). rewrite V. reflexivity.
  - set (a := 224 + x / 4096). set (b := 128 + x / 64 mod 64). set (d := 128 + x mod 64).
    assert (224 <= a < 240 /\ 128 <= b < 192 /\ 128 <= d < 192 /\ (a - 224) * 4096 + (b - 128) * 64 + (d - 128) = x) as (A & B & D & V) by (subst a b d; clear S; Z.to_euclidean_division_equations; lia).
    clearbody a b d. split; [discriminate|]. split; [|apply units1; repeat constructor; lia].
    intros r. cbn [app utf8_dec]. replace (a <? 128) with false by lia. replace (a <? 194) with false by lia. replace (a <? 224) with false by lia. replace (a <? 240) with true by lia.
    rewrite V. replace (contb b && contb d && (2048 <=? x) && negb (surrogateb x)) with true by (rewrite S; unfold contb; lia). reflexivity.
  - set (a := 240 + x / 262144). set (b := 128 + x / 4096 mod 64). set (d := 128 + x / 64 mod 64). set (f := 128 + x mod 64).
    assert (240 <= a < 245 /\ 128 <= b < 192 /\ 128 <= d < 192 /\ 128 <= f < 192 /\ (a - 240) * 262144 + (b - 128) * 4096 + (d - 128) * 64 + (f - 128) = x) as (A & B & D & F & V)
      by (subst a b d f; clear S; Z.to_euclidean_division_equations; lia).
    clearbody a b d f. split; [discriminate|]. split; [|apply units1; repeat constructor; lia].
    intros r. cbn [app utf8_dec]. replace (a <? 128) with false by lia. replace (a <? 194) with false by lia. replace (a <? 224) with false by lia. replace (a <? 240) with false by lia. replace (a <? 245) with true by lia.
    rewrite V. replace (contb b && contb d && contb f && (65536 <=? x) && (x <? 1114112)) with true by (unfold contb; lia). reflexivity.
Qed.

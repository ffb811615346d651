(** * BMG: what is decoded is encoded again as the same bytes *)
From Coq Require Import String.
From Verif Require Import PyBase PyLemmas PyTac AtLemmas BmgModel BmgSpec BmgText BmgScan.

(** ** Characters can be read off the front of encoded text *)
Definition reads_chars (c : codec) : Prop :=
  c_dec c [] = Ok [] /\
  forall x u r, 0 <= x < 0x110000 -> c_char c x = Ok u -> u <> [] /\ c_dec c (u ++ r) = (t <- c_dec c r ;; Ok (x :: t)).

Lemma reads_chars_dec c s : reads_chars c -> is_text s -> forall d, encode c s = Ok d -> c_dec c d = Ok s.
Proof.
  intros [H0 H] T. induction T as [|x s X T IH]; intros d E; [inversion E; exact H0|].
  apply encode_cons in E as (u & v & Hu & Hv & ->). destruct (H x u v X Hu) as [_ ->]. rewrite (IH v Hv). reflexivity.
Qed.

Lemma reads_cp1252 : reads_chars (mkCodec cp1252_char (mapM cp1252_byte)).
Proof.
  split; [reflexivity|]. cbn [c_char c_dec]. intros x u r X E.
  assert (exists y, u = [y] /\ cp1252_byte y = Ok x) as (y & -> & D).
  { unfold cp1252_char in E. destruct ((x <? 128) || ((160 <=? x) && (x <? 256))) eqn:C.
    - inversion E. exists x. split; [reflexivity|]. unfold cp1252_byte. replace ((128 <=? x) && (x <? 160)) with false by lia. reflexivity.
    - destruct (index_of x cp1252_high 128) as [i|] eqn:I; [|discriminate]. inversion E. apply index_of_nth in I as [I1 I2]. change (zlen cp1252_high) with 32 in I1.
      exists i. split; [reflexivity|]. unfold cp1252_byte. replace ((128 <=? i) && (i <? 160)) with true by lia. rewrite I2. replace (x =? 0) with false by lia. reflexivity. }
  split; [discriminate|]. cbn [app mapM]. rewrite D. reflexivity.
Qed.

Lemma reads_utf16 e : reads_chars (mkCodec (utf16_char e) (utf16_dec e)).
Proof.
  split; [reflexivity|]. cbn [c_char c_dec]. intros x u r X E.
  unfold utf16_char in E. destruct (surrogateb x) eqn:S; [discriminate|]. destruct (Z.ltb_spec x 65536) as [L|L].
  - inversion E; subst u. split; [rewrite enc2; destruct e; discriminate|].
    destruct (utf16_unit e x r ltac:(lia)) as (a & b & E1 & E2 & E3). rewrite E3. cbn [utf16_dec]. rewrite E2, S. reflexivity.
  - inversion E; subst u. set (h := 55296 + (x - 65536) / 1024). set (l := 56320 + (x - 65536) mod 1024).
    assert (55296 <= h < 56320) by (subst h; Z.to_euclidean_division_equations; lia). assert (56320 <= l < 57344) by (subst l; Z.to_euclidean_division_equations; lia).
    split; [rewrite enc2; destruct e; discriminate|].
    rewrite <- app_assoc. destruct (utf16_unit e h (enc e 2 l ++ r) ltac:(lia)) as (a & b & E1 & E2 & E3). rewrite E3.
    destruct (utf16_unit e l r ltac:(lia)) as (a2 & b2 & F1 & F2 & F3). rewrite F3. cbn [utf16_dec]. rewrite E2, F2.
    replace (surrogateb h) with true by (unfold surrogateb; lia). replace (h <? 56320) with true by lia. replace ((56320 <=? l) && (l <? 57344)) with true by lia.
    replace (65536 + (h - 55296) * 1024 + (l - 56320)) with x by (subst h l; Z.to_euclidean_division_equations; lia). reflexivity.
Qed.

Lemma reads_utf8 : reads_chars (mkCodec utf8_char utf8_dec).
Proof.
  split; [reflexivity|]. cbn [c_char c_dec]. intros x u r X E.
  unfold utf8_char in E. destruct (surrogateb x) eqn:S; [discriminate|].
  destruct (Z.ltb_spec x 128) as [L|L]; [|destruct (Z.ltb_spec x 2048) as [L2|L2]; [|destruct (Z.ltb_spec x 65536) as [L3|L3]]]; inversion E; subst u; clear E; (split; [discriminate|]).
  - cbn [app utf8_dec]. replace (x <? 128) with true by lia. reflexivity.
  - set (a := 192 + x / 64). set (b := 128 + x mod 64).
    assert (194 <= a < 224 /\ 128 <= b < 192 /\ (a - 192) * 64 + (b - 128) = x) as (A & B & V) by (subst a b; clear S; Z.to_euclidean_division_equations; lia).
    clearbody a b. cbn [app utf8_dec]. replace (a <? 128) with false by lia. replace (a <? 194) with false by lia. replace (a <? 224) with true by lia.
    replace (contb b) with true by (unfold contb; lia). rewrite V. reflexivity.
  - set (a := 224 + x / 4096). set (b := 128 + x / 64 mod 64). set (d := 128 + x mod 64).
    assert (224 <= a < 240 /\ 128 <= b < 192 /\ 128 <= d < 192 /\ (a - 224) * 4096 + (b - 128) * 64 + (d - 128) = x) as (A & B & D & V) by (subst a b d; clear S; Z.to_euclidean_division_equations; lia).
    clearbody a b d. cbn [app utf8_dec]. replace (a <? 128) with false by lia. replace (a <? 194) with false by lia. replace (a <? 224) with false by lia. replace (a <? 240) with true by lia.
    rewrite V. replace (contb b && contb d && (2048 <=? x) && negb (surrogateb x)) with true by (rewrite S; unfold contb; lia). reflexivity.
  - set (a := 240 + x / 262144). set (b := 128 + x / 4096 mod 64). set (d := 128 + x / 64 mod 64). set (f := 128 + x mod 64).
    assert (240 <= a < 245 /\ 128 <= b < 192 /\ 128 <= d < 192 /\ 128 <= f < 192 /\ (a - 240) * 262144 + (b - 128) * 4096 + (d - 128) * 64 + (f - 128) = x) as (A & B & D & F & V)
      by (subst a b d f; clear S; Z.to_euclidean_division_equations; lia).
    clearbody a b d f. cbn [app utf8_dec]. replace (a <? 128) with false by lia. replace (a <? 194) with false by lia. replace (a <? 224) with false by lia. replace (a <? 240) with false by lia. replace (a <? 245) with true by lia.
    rewrite V. replace (contb b && contb d && contb f && (65536 <=? x) && (x <? 1114112)) with true by (unfold contb; lia). reflexivity.
Qed.

(** ** Decoding is strict *)
Definition exact (c : codec) : Prop :=
  forall d s, is_bytes d -> c_dec c d = Ok s -> is_text s /\ encode c s = Ok d.

Lemma encode_join c x u s v : c_char c x = Ok u -> encode c s = Ok v -> encode c (x :: s) = Ok (u ++ v).
Proof. intros A B. change (x :: s) with ([x] ++ s). apply encode_app; [apply encode_single; exact A|exact B]. Qed.

Lemma exact_cp1252 : exact (mkCodec cp1252_char (mapM cp1252_byte)).
Proof.
  intros d. cbn [c_dec]. induction d as [|b d IH]; intros s B H; [inversion H; split; [constructor|reflexivity]|].
  cbn [mapM] in H. apply bind_ok in H as (x & HX & H). apply bind_ok in H as (r & HR & H). inversion H; subst s. inversion B as [|? ? B1 B2]; subst. destruct (IH r B2 HR) as [T E].
  assert (0 <= x < 0x110000 /\ cp1252_char x = Ok [b]) as [X C].
  { unfold is_byte in B1. unfold cp1252_byte in HX. destruct ((128 <=? b) && (b <? 160)) eqn:R.
    - cbv zeta in HX. remember (Z.to_nat (b - 128)) as k. assert (b = 128 + Z.of_nat k) by lia. assert (k < 32)%nat by lia. clear Heqk R B1. subst b.
      do 32 (destruct k as [|k]; [cbn in HX; first [discriminate HX | inversion HX; subst x; split; [lia|vm_compute; reflexivity]]|]). lia.
    - inversion HX; subst x. split; [lia|]. unfold cp1252_char. replace ((b <? 128) || ((160 <=? b) && (b <? 256))) with true by lia. reflexivity. }
  split; [constructor; assumption|]. apply (encode_join _ x [b]); assumption.
Qed.

Lemma enc_dec2 e a b : is_byte a -> is_byte b -> enc e 2 (dec e [a; b]) = [a; b] /\ 0 <= dec e [a; b] < 65536.
Proof.
  unfold is_byte. intros A B. rewrite enc2. destruct e; cbn [dec unbe rev app unle].
  - split; [|lia]. f_equal; [|f_equal]; Z.to_euclidean_division_equations; lia.
  - split; [|lia]. f_equal; [|f_equal]; Z.to_euclidean_division_equations; lia.
Qed.

Lemma exact_utf16 e : exact (mkCodec (utf16_char e) (utf16_dec e)).
Proof.
  intros d. cbn [c_dec]. assert (G : forall n d, (length d <= n)%nat -> forall s, is_bytes d -> utf16_dec e d = Ok s -> is_text s /\ encode (mkCodec (utf16_char e) (utf16_dec e)) s = Ok d).
  { clear d. induction n as [|n IH]; intros d L s B H.
    { destruct d; [|cbn in L; lia]. inversion H. split; [constructor|reflexivity]. }
    destruct d as [|a [|b r]]; [inversion H; split; [constructor|reflexivity]|discriminate|]. cbn [length] in L. inversion B as [|? ? B1 B']; subst. inversion B' as [|? ? B2 B3]; subst.
    cbn [utf16_dec] in H. destruct (enc_dec2 e a b B1 B2) as [ED R]. set (u := dec e [a; b]) in *. clearbody u. cbv zeta in H. destruct (surrogateb u) eqn:S.
    - destruct (Z.ltb_spec u 56320) as [U|U]; [|discriminate]. destruct r as [|a2 [|b2 r2]]; try discriminate. cbn [length] in L. inversion B3 as [|? ? B4 B3']; subst. inversion B3' as [|? ? B5 B6]; subst.
      destruct (enc_dec2 e a2 b2 B4 B5) as [ED2 R2]. set (v := dec e [a2; b2]) in *. clearbody v. cbv zeta in H. destruct ((56320 <=? v) && (v <? 57344)) eqn:V; [|discriminate].
      apply bind_ok in H as (t & HT & H). inversion H; subst s. destruct (IH r2 ltac:(lia) t B6 HT) as [T E]. unfold surrogateb in S.
      assert (X : (55296 + (65536 + (u - 55296) * 1024 + (v - 56320) - 65536) / 1024) = u /\ 56320 + (65536 + (u - 55296) * 1024 + (v - 56320) - 65536) mod 1024 = v) by (Z.to_euclidean_division_equations; lia).
      split; [constructor; [lia|exact T]|]. change (a :: b :: a2 :: b2 :: r2) with (([a; b] ++ [a2; b2]) ++ r2). apply encode_join; [|exact E]. cbn [c_char]. unfold utf16_char.
      replace (surrogateb (65536 + (u - 55296) * 1024 + (v - 56320))) with false by (unfold surrogateb; lia).
      replace (65536 + (u - 55296) * 1024 + (v - 56320) <? 65536) with false by lia. destruct X as [-> ->]. rewrite ED, ED2. reflexivity.
    - apply bind_ok in H as (t & HT & H). inversion H; subst s. destruct (IH r ltac:(lia) t B3 HT) as [T E]. split; [constructor; [lia|exact T]|].
      change (a :: b :: r) with ([a; b] ++ r). apply encode_join; [|exact E]. cbn [c_char]. unfold utf16_char. rewrite S. replace (u <? 65536) with true by lia. rewrite ED. reflexivity. }
  apply (G (length d)). lia.
Qed.

Lemma exact_utf8 : exact (mkCodec utf8_char utf8_dec).
Proof.
  intros d. cbn [c_dec]. assert (G : forall n d, (length d <= n)%nat -> forall s, is_bytes d -> utf8_dec d = Ok s -> is_text s /\ encode (mkCodec utf8_char utf8_dec) s = Ok d).
  { clear d. induction n as [|n IH]; intros d L s B H.
    { destruct d; [|cbn in L; lia]. inversion H. split; [constructor|reflexivity]. }
    destruct d as [|a r]; [inversion H; split; [constructor|reflexivity]|]. cbn [length] in L. inversion B as [|? ? B1 B2]; subst. unfold is_byte in B1.
    cbn [utf8_dec] in H.
    destruct (Z.ltb_spec a 128) as [L1|L1].
    { apply bind_ok in H as (t & HT & H). inversion H; subst s. destruct (IH r ltac:(lia) t B2 HT) as [T E]. split; [constructor; [lia|exact T]|].
      apply (encode_join _ a [a]); [|exact E]. cbn [c_char]. unfold utf8_char. replace (surrogateb a) with false by (unfold surrogateb; lia). replace (a <? 128) with true by lia. reflexivity. }
    destruct (Z.ltb_spec a 194) as [L2|L2]; [discriminate|]. destruct (Z.ltb_spec a 224) as [L3|L3].
    { destruct r as [|b r]; [discriminate|]. destruct (contb b) eqn:C; [|discriminate]. cbn [length] in L. inversion B2 as [|? ? _ B3]; subst. unfold contb in C.
      apply bind_ok in H as (t & HT & H). inversion H; subst s. destruct (IH r ltac:(lia) t B3 HT) as [T E]. set (v := (a - 192) * 64 + (b - 128)).
      assert (128 <= v < 2048 /\ 192 + v / 64 = a /\ 128 + v mod 64 = b) as (V & Va & Vb) by (subst v; clear - C L2 L3; Z.to_euclidean_division_equations; lia). clearbody v.
      split; [constructor; [lia|exact T]|]. apply (encode_join _ v [a; b]); [|exact E]. cbn [c_char]. unfold utf8_char. replace (surrogateb v) with false by (unfold surrogateb; lia).
      replace (v <? 128) with false by lia. replace (v <? 2048) with true by lia. rewrite Va, Vb. reflexivity. }
    destruct (Z.ltb_spec a 240) as [L4|L4].
    { destruct r as [|b [|c r]]; try discriminate. cbv zeta in H. destruct (contb b && contb c && _ && _) eqn:C; [|discriminate]. cbn [length] in L. inversion B2 as [|? ? _ B3']; subst. inversion B3' as [|? ? _ B3]; subst. unfold contb in C.
      apply bind_ok in H as (t & HT & H). inversion H; subst s. destruct (IH r ltac:(lia) t B3 HT) as [T E]. set (v := (a - 224) * 4096 + (b - 128) * 64 + (c - 128)) in *.
      assert (SV : surrogateb v = false) by (destruct (surrogateb v); [rewrite andb_false_r in C; discriminate|reflexivity]).
      assert (2048 <= v < 65536 /\ 224 + v / 4096 = a /\ 128 + v / 64 mod 64 = b /\ 128 + v mod 64 = c) as (V & Va & Vb & Vc).
      { assert (128 <= b < 192 /\ 128 <= c < 192 /\ 2048 <= v) as (Q1 & Q2 & Q3) by lia. subst v. clear - Q1 Q2 Q3 L3 L4. Z.to_euclidean_division_equations; lia. } clearbody v.
      split; [constructor; [lia|exact T]|]. apply (encode_join _ v [a; b; c]); [|exact E]. cbn [c_char]. unfold utf8_char. rewrite SV.
      replace (v <? 128) with false by lia. replace (v <? 2048) with false by lia. replace (v <? 65536) with true by lia. rewrite Va, Vb, Vc. reflexivity. }
    destruct (Z.ltb_spec a 245) as [L5|L5]; [|discriminate].
    destruct r as [|b [|c [|f r]]]; try discriminate. cbv zeta in H. destruct (contb b && contb c && contb f && _ && _) eqn:C; [|discriminate]. cbn [length] in L. inversion B2 as [|? ? _ B3']; subst. inversion B3' as [|? ? _ B3'']; subst. inversion B3'' as [|? ? _ B3]; subst. unfold contb in C.
    apply bind_ok in H as (t & HT & H). inversion H; subst s. destruct (IH r ltac:(lia) t B3 HT) as [T E]. set (v := (a - 240) * 262144 + (b - 128) * 4096 + (c - 128) * 64 + (f - 128)) in *.
    assert (65536 <= v < 1114112 /\ 240 + v / 262144 = a /\ 128 + v / 4096 mod 64 = b /\ 128 + v / 64 mod 64 = c /\ 128 + v mod 64 = f) as (V & Va & Vb & Vc & Vf).
    { assert (128 <= b < 192 /\ 128 <= c < 192 /\ 128 <= f < 192 /\ 65536 <= v < 1114112) as (Q1 & Q2 & Q3 & Q4) by lia. subst v. clear - Q1 Q2 Q3 Q4 L4 L5. Z.to_euclidean_division_equations; lia. } clearbody v.
    split; [constructor; [lia|exact T]|]. apply (encode_join _ v [a; b; c; f]); [|exact E]. cbn [c_char]. unfold utf8_char. replace (surrogateb v) with false by (unfold surrogateb; lia).
    replace (v <? 128) with false by lia. replace (v <? 2048) with false by lia. replace (v <? 65536) with false by lia. rewrite Va, Vb, Vc, Vf. reflexivity. }
  apply (G (length d)). lia.
Qed.

Lemma exact_full sj x e : x <> ShiftJis -> exact (full_codec sj x e).
Proof. destruct x; intros H; [apply exact_cp1252|apply exact_utf16|contradiction|apply exact_utf8]. Qed.
Lemma reads_full sj x e : x <> ShiftJis -> reads_chars (full_codec sj x e).
Proof. destruct x; intros H; [apply reads_cp1252|apply reads_utf16|contradiction|apply reads_utf8]. Qed.

(** ** The only failure is UnicodeError *)
Lemma bind_unicode {A B} (r : res A) (f : A -> B) k : (forall k, r = Err k -> k = UnicodeError) -> (s <- r ;; Ok (f s)) = Err k -> k = UnicodeError.
Proof. intros H E. destruct r; cbn [bind] in E; [discriminate|]. apply H. inversion E. reflexivity. Qed.

Lemma dec_unicode sj x e d k : x <> ShiftJis -> c_dec (full_codec sj x e) d = Err k -> k = UnicodeError.
Proof.
  destruct x; intros NS; [| |contradiction|]; cbn [full_codec c_dec].
  - revert k. induction d as [|b d IH]; intros k H; [discriminate|]. cbn [mapM] in H. destruct (cp1252_byte b) eqn:E; cbn [bind] in H.
    + apply (bind_unicode (mapM cp1252_byte d) (cons a) k IH H).
    + unfold cp1252_byte in E. destruct (_ && _); [|discriminate]. cbv zeta in E. destruct (_ =? 0); congruence.
  - assert (G : forall n d k, (length d <= n)%nat -> utf16_dec e d = Err k -> k = UnicodeError); [|apply (G (length d)); lia].
    clear d k. induction n as [|n IH]; intros d k L H; [destruct d; [discriminate|cbn in L; lia]|].
    destruct d as [|a [|b r]]; [discriminate|inversion H; reflexivity|]. cbn [length] in L. cbn [utf16_dec] in H. cbv zeta in H. destruct (surrogateb _).
    + destruct (_ <? _); [|congruence]. destruct r as [|a2 [|b2 r2]]; try congruence. cbn [length] in L. destruct (_ && _); [|congruence].
      apply (bind_unicode _ (fun s => _ :: s) k (fun k => IH r2 k ltac:(lia)) H).
    + apply (bind_unicode _ (fun s => _ :: s) k (fun k => IH r k ltac:(lia)) H).
  - assert (G : forall n d k, (length d <= n)%nat -> utf8_dec d = Err k -> k = UnicodeError); [|apply (G (length d)); lia].
    clear d k. induction n as [|n IH]; intros d k L H; [destruct d; [discriminate|cbn in L; lia]|].
    destruct d as [|a r]; [discriminate|]. cbn [length] in L. cbn [utf8_dec] in H. cbv zeta in H.
    destruct (a <? 128); [apply (bind_unicode _ (fun s => _ :: s) k (fun k => IH r k ltac:(lia)) H)|].
    destruct (a <? 194); [congruence|]. destruct (a <? 224).
    { destruct r as [|b r]; [congruence|]. cbn [length] in L. destruct (contb b); [|congruence]. apply (bind_unicode _ (fun s => _ :: s) k (fun k => IH r k ltac:(lia)) H). }
    destruct (a <? 240).
    { destruct r as [|b [|c r]]; try congruence. cbn [length] in L. destruct (_ && _); [|congruence]. apply (bind_unicode _ (fun s => _ :: s) k (fun k => IH r k ltac:(lia)) H). }
    destruct (a <? 245); [|congruence]. destruct r as [|b [|c [|f r]]]; try congruence. cbn [length] in L. destruct (_ && _); [|congruence]. apply (bind_unicode _ (fun s => _ :: s) k (fun k => IH r k ltac:(lia)) H).
Qed.
Lemma char_unicode sj x e ch k : x <> ShiftJis -> c_char (full_codec sj x e) ch = Err k -> k = UnicodeError.
Proof.
  destruct x; intros NS; [| |contradiction|]; cbn [full_codec c_char].
  - unfold cp1252_char. destruct (_ || _); [discriminate|]. destruct (index_of _ _ _); congruence.
  - unfold utf16_char. destruct (surrogateb ch); [congruence|]. destruct (_ <? _); discriminate.
  - unfold utf8_char. destruct (surrogateb ch); [congruence|]. destruct (ch <? 128); [discriminate|]. destruct (ch <? 2048); [discriminate|]. destruct (ch <? 65536); discriminate.
Qed.
Lemma encode_unicode sj x e s k : x <> ShiftJis -> encode (full_codec sj x e) s = Err k -> k = UnicodeError.
Proof.
  intros NS H. unfold encode in H. destruct (mapM _ s) as [l|k'] eqn:E; cbn [bind] in H; [discriminate|]. assert (k' = k) by congruence. subst k'. clear H. revert k E.
  induction s as [|ch s IH]; intros k E; [discriminate|]. cbn [mapM] in E. destruct (c_char (full_codec sj x e) ch) eqn:C; cbn [bind] in E.
  - apply (bind_unicode (mapM (c_char (full_codec sj x e)) s) (cons a) k IH E).
  - apply (char_unicode sj x e ch k NS). congruence.
Qed.

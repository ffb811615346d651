(** * Proofs about failing saves of sequence events *)
From Verif Require Import PyBase PyLemmas PyTac SeqModel SeqSpec SeqLemmas SeqSave SeqRead SeqTotal SeqErrSpec.

Lemma int_bytes_cases n v : (0 <= v < 256 ^ Z.of_nat n /\ int_bytes n v = Ok (le n v)) \/ (~ 0 <= v < 256 ^ Z.of_nat n /\ int_bytes n v = Err OverflowError).
Proof. unfold int_bytes. destruct ((0 <=? v) && (v <? 256 ^ Z.of_nat n)) eqn:E; [left|right]; (split; [lia|reflexivity]). Qed.
Lemma pack_u_cases n v : (0 <= v < 256 ^ Z.of_nat n /\ exists b, pack_u n v = Ok b) \/ (~ 0 <= v < 256 ^ Z.of_nat n /\ pack_u n v = Err StructError).
Proof. unfold pack_u, pack_e. destruct ((0 <=? v) && (v <? 256 ^ Z.of_nat n)) eqn:E; [left|right]; (split; [lia|]); [eexists|]; reflexivity. Qed.
Lemma pack_s1_cases v : (i8 v /\ exists b, pack_s 1 v = Ok b) \/ (~ i8 v /\ pack_s 1 v = Err StructError).
Proof. unfold pack_s, i8. change (256 ^ Z.of_nat 1 / 2) with 128. destruct ((- (128) <=? v) && (v <? 128)) eqn:E; [left|right]; (split; [lia|]); [eexists|]; reflexivity. Qed.
Lemma pack_s2_cases v : (i16 v /\ exists b, pack_s 2 v = Ok b) \/ (~ i16 v /\ pack_s 2 v = Err StructError).
Proof. unfold pack_s, i16. change (256 ^ Z.of_nat 2 / 2) with 32768. destruct ((- (32768) <=? v) && (v <? 32768)) eqn:E; [left|right]; (split; [lia|]); [eexists|]; reflexivity. Qed.
Lemma vl_cases x : (0 <= x /\ exists b, vl_write x = Ok b) \/ (x < 0 /\ vl_write x = Err ValueError).
Proof. destruct (Z.lt_ge_cases x 0) as [H|H]; [right|left; split; [exact H|apply vl_write_ok; exact H]]. split; [exact H|]. unfold vl_write. replace (x <? 0) with true by lia. reflexivity. Qed.
Lemma to_bytes_cases l : (~ some_not_byte l /\ to_bytes l = Ok l) \/ (some_not_byte l /\ to_bytes l = Err ValueError).
Proof.
  unfold to_bytes, some_not_byte. destruct (forallb byteb l) eqn:E; [left|right]; (split; [|reflexivity]).
  - intros (x & I & N). rewrite forallb_forall in E. specialize (E x I). unfold byteb in E. lia.
  - induction l as [|x l IH]; [discriminate|]. cbn [forallb] in E. destruct (byteb x) eqn:B; cbn [andb] in E.
    + destruct (IH E) as (y & I & N). exists y. split; [right; exact I|exact N].
    + exists x. split; [left; reflexivity|]. unfold byteb in B. lia.
Qed.
Lemma e2o_cases pos r : (exists o, dest pos r o /\ e2o_get pos r = Ok o) \/ (no_dest pos r /\ e2o_get pos r = Err KeyError).
Proof. unfold dest, no_dest. rewrite pos_of_get. destruct (pos_of pos r); [left; eexists; split; reflexivity|right; split; reflexivity]. Qed.

Lemma lor_sign a b : 0 <= a -> (0 <= Z.lor a (Z.shiftl b 7) <-> 0 <= b).
Proof. intros A. rewrite Z.lor_nonneg, Z.shiftl_nonneg. tauto. Qed.
Lemma tracks_bits_range ts : 0 <= tracks_bits ts < 65536.
Proof.
  unfold tracks_bits. assert (G : forall l acc, 0 <= acc < 65536 -> Forall (fun i => 0 <= i < 16) l ->
    0 <= fold_left (fun a i => if existsb (Z.eqb i) ts then Z.lor a (Z.shiftl 1 i) else a) l acc < 65536).
  { induction l as [|i l IH]; intros acc A F; [exact A|]. inversion F; subst. cbn [fold_left]. apply IH; [|assumption]. destruct (existsb (Z.eqb i) ts); [|exact A].
    assert (S : 0 <= Z.shiftl 1 i < 2 ^ 16) by (rewrite Z.shiftl_1_l; split; [apply Z.pow_nonneg; lia|apply Z.pow_lt_mono_r; lia]).
    change 65536 with (2 ^ 16) in *. split; [apply Z.lor_nonneg; lia|].
    assert (N : 0 <= Z.lor acc (Z.shiftl 1 i)) by (apply Z.lor_nonneg; lia).
    destruct (Z.eq_dec (Z.lor acc (Z.shiftl 1 i)) 0) as [->|NZ]; [lia|]. apply Z.log2_lt_pow2; [lia|]. rewrite Z.log2_lor by lia.
    apply Z.max_lub_lt; [destruct (Z.eq_dec acc 0) as [->|]; [reflexivity|apply Z.log2_lt_pow2; lia]|]. rewrite Z.shiftl_1_l, Z.log2_pow2 by lia. lia. }
  apply G; [lia|]. vm_compute. repeat (constructor; [split; congruence|]). constructor.
Qed.


(** leaves: the computed result against the inverted fault *)
Ltac c1 H := let Q := fresh "Q" in let E := fresh "E" in destruct H as [[Q E]|[Q E]]; try (destruct E as (? & E)); rewrite ?E; cbn [bind]; change (256 ^ Z.of_nat 1) with 256 in *; change (256 ^ Z.of_nat 2) with 65536 in *; change (256 ^ Z.of_nat 3) with 16777216 in *.
Ltac absurd_ := match goal with F : False |- _ => destruct F | _ => idtac end; unfold i8, i16, dest, no_dest in *; change (2 ^ 24) with 16777216 in *; try congruence; try tauto; try lia;
  try (exfalso; repeat match goal with H : pos_of _ _ = Some _, H' : pos_of _ _ = Some _ |- _ => rewrite H in H'; injection H' as H' end; subst; lia).
Ltac leaf_ok := split; [intros X; discriminate X|intros X; exfalso; inversion X; subst; absurd_].
Ltac leaf_err := split; [intros X; injection X as X; subst; try (econstructor; absurd_; fail); try (eapply sf_type; [reflexivity|absurd_])|intros X; inversion X; subst; try reflexivity; exfalso; absurd_].

Lemma save_faults pos e k : ev_save e pos = Err k <-> save_fault pos e k.
Proof.
  destruct e; cbn [ev_save].
  - destruct (Z.ltb_spec type 0) as [T|T]; cbn [negb guard bind].
    { split; [intros X; injection X as <-; apply sf_pitch; lia|]. intros X; inversion X; subst; try reflexivity; try lia; contradiction. }
    destruct (Z.ltb_spec 127 type) as [T2|T2]; cbn [negb guard bind].
    { split; [intros X; injection X as <-; apply sf_pitch; lia|]. intros X; inversion X; subst; try reflexivity; try lia; contradiction. }
    destruct (Z.ltb_spec 127 velocity) as [V|V]; cbn [negb guard bind].
    { split; [intros X; injection X as <-; apply sf_velocity; lia|]. intros X; inversion X; subst; try reflexivity; try lia; contradiction. }
    cbv zeta. c1 (int_bytes_cases 1 type); [|lia].
    assert (RV : 0 <= velocity -> 0 <= Z.lor velocity (if unknownFlag then 128 else 0) < 256).
    { intros N. destruct unknownFlag; [rewrite lor128 by lia|rewrite Z.lor_0_r]; lia. }
    c1 (int_bytes_cases 1 (Z.lor velocity (if unknownFlag then 128 else 0))).
    + assert (0 <= velocity) by (destruct Q0 as [Q0 _]; apply Z.lor_nonneg in Q0; lia). c1 (vl_cases duration).
      * leaf_ok.
      * split; [intros X; injection X as <-; apply sf_note; lia|]. intros X; inversion X; subst; try reflexivity; try lia; contradiction.
    + assert (velocity < 0) by lia. split; [intros X; injection X as <-; apply sf_negative; lia|]. intros X; inversion X; subst; try reflexivity; try lia; contradiction.
  - c1 (vl_cases duration); [leaf_ok|leaf_err].
  - assert (N : 0 <= Z.lor (Z.land instrumentID 127) (Z.shiftl bankID 7) <-> 0 <= bankID) by (apply lor_sign; apply Z.land_nonneg; lia).
    c1 (vl_cases (Z.lor (Z.land instrumentID 127) (Z.shiftl bankID 7))); [leaf_ok|leaf_err].
  - c1 (int_bytes_cases 1 trackNumber); [|leaf_err]. destruct (e2o_cases pos firstEvent) as [(o & D & E1)|[D E1]]; rewrite E1; cbn [bind]; [|leaf_err].
    c1 (int_bytes_cases 3 o); [leaf_ok|]. split; [intros X; injection X as <-; eapply sf_begin_far; [exact D|exact Q0]|]. intros X; inversion X; subst; try reflexivity; exfalso; absurd_.
  - destruct (e2o_cases pos destination) as [(o & D & E1)|[D E1]]; rewrite E1; cbn [bind]; [|leaf_err].
    c1 (int_bytes_cases 3 o); [leaf_ok|]. split; [intros X; injection X as <-; eapply sf_jump_far; [exact D|exact Q]|]. intros X; inversion X; subst; try reflexivity; exfalso; absurd_.
  - destruct (e2o_cases pos destination) as [(o & D & E1)|[D E1]]; rewrite E1; cbn [bind]; [|leaf_err].
    c1 (int_bytes_cases 3 o); [leaf_ok|]. split; [intros X; injection X as <-; eapply sf_call_far; [exact D|exact Q]|]. intros X; inversion X; subst; try reflexivity; exfalso; absurd_.
  - c1 (to_bytes_cases (subType :: args)); [|leaf_err]. c1 (pack_s2_cases randMin); [|split; [intros X; injection X as <-; apply sf_random; tauto|]; intros X; inversion X; subst; try reflexivity; tauto].
    c1 (pack_s2_cases randMax); [leaf_ok|split; [intros X; injection X as <-; apply sf_random; tauto|]; intros X; inversion X; subst; try reflexivity; tauto].
  - unfold is_arith. destruct ((176 <=? subType) && (subType <=? 189)) eqn:A; cbn [negb].
    + destruct unknown as [u|]; [|split; [intros X; injection X as <-; apply sf_unknown; lia|]; intros X; inversion X; subst; try reflexivity; lia].
      c1 (pack_u_cases 1 subType); [|lia]. c1 (pack_s1_cases u); [|split; [intros X; injection X as <-; apply sf_fromvar_long; [lia|tauto]|]; intros X; inversion X; subst; try reflexivity; lia].
      c1 (pack_s1_cases variableID); [|split; [intros X; injection X as <-; apply sf_fromvar_long; [lia|tauto]|]; intros X; inversion X; subst; try reflexivity; lia].
      leaf_ok.
    + c1 (pack_u_cases 1 subType); [|split; [intros X; injection X as <-; apply sf_fromvar_short; [lia|tauto]|]; intros X; inversion X; subst; try reflexivity; lia].
      c1 (pack_s2_cases variableID); [|split; [intros X; injection X as <-; apply sf_fromvar_short; [lia|tauto]|]; intros X; inversion X; subst; try reflexivity; lia].
      leaf_ok.
  - c1 (int_bytes_cases 1 type); [|leaf_err]. c1 (pack_u_cases 1 variableID); [|leaf_err]. c1 (pack_s2_cases value); [leaf_ok|leaf_err].
  - c1 (int_bytes_cases 1 type); [|leaf_err]. c1 (int_bytes_cases 1 value); [leaf_ok|leaf_err].
  - c1 (int_bytes_cases 1 type); [|leaf_err]. c1 (pack_u_cases 2 value); [leaf_ok|leaf_err].
  - c1 (int_bytes_cases 1 type); [leaf_ok|leaf_err].
  - pose proof (tracks_bits_range trackNumbers). c1 (pack_u_cases 2 (tracks_bits trackNumbers)); [leaf_ok|lia].
  - leaf_ok.
Qed.

Lemma vll_cases x : (0 <= x /\ exists n, vl_length x = Ok n) \/ (x < 0 /\ vl_length x = Err ValueError).
Proof. unfold vl_length. destruct (Z.ltb_spec x 0); [right|left]; (split; [lia|]); [reflexivity|eexists; reflexivity]. Qed.

Lemma known_in s : In s [0x80; 0x81; 0x93; 0x94; 0x95; 0xA0; 0xA1; 0xA2; 0xE0; 0xE1; 0xE3; 0xFC; 0xFD; 0xFE; 0xFF] <->
  s = 0x80 \/ s = 0x81 \/ s = 0x93 \/ s = 0x94 \/ s = 0x95 \/ s = 0xA0 \/ s = 0xA1 \/ s = 0xA2 \/ s = 0xE0 \/ s = 0xE1 \/ s = 0xE3 \/ s = 0xFC \/ s = 0xFD \/ s = 0xFE \/ s = 0xFF.
Proof. cbn [In]. intuition lia. Qed.
Lemma bare_in s : In s [0xA2; 0xFC; 0xFD; 0xFF] <-> s = 0xA2 \/ s = 0xFC \/ s = 0xFD \/ s = 0xFF.
Proof. cbn [In]. intuition lia. Qed.

Lemma length_faults e k : dataLength e = Err k <-> length_fault e k.
Proof.
  destruct e; cbn [dataLength]; try (split; [intros X; discriminate X|intros X; inversion X]).
  - destruct (vll_cases duration) as [[Q (n & E)]|[Q E]]; rewrite E; cbn [bind].
    + split; [discriminate|intros X; inversion X; subst; lia].
    + split; [intros X; injection X as <-; constructor; exact Q|intros X; inversion X; subst; reflexivity].
  - destruct (vll_cases duration) as [[Q (n & E)]|[Q E]]; rewrite E; cbn [bind].
    + split; [discriminate|intros X; inversion X; subst; lia].
    + split; [intros X; injection X as <-; constructor; exact Q|intros X; inversion X; subst; reflexivity].
  - assert (N : 0 <= Z.lor (Z.shiftl bankID 7) instrumentID <-> 0 <= bankID /\ 0 <= instrumentID) by (rewrite Z.lor_nonneg, Z.shiftl_nonneg; tauto).
    destruct (vll_cases (Z.lor (Z.shiftl bankID 7) instrumentID)) as [[Q (n & E)]|[Q E]]; rewrite E; cbn [bind].
    + split; [discriminate|intros X; inversion X; subst; lia].
    + split; [intros X; injection X as <-; constructor; lia|intros X; inversion X; subst; reflexivity].
  - assert (L : forall v, random_length subType = Ok v -> (dataLength (Random subType args randMin randMax) = Err k <-> length_fault (Random subType args randMin randMax) k)).
    2: { destruct (random_length subType) as [v|x] eqn:R; [specialize (L v eq_refl); cbn [dataLength] in L; rewrite R in L; exact L|].
      unfold random_length, is_arith, is_byte1, is_word1, is_bare in R.
      repeat match type of R with (if ?c then _ else _) = _ => let C := fresh "C" in destruct c eqn:C; try discriminate R end; injection R as <-.
      - split; [intros X; injection X as <-; apply lf_bare; apply bare_in; lia|]. intros X; inversion X; subst; [reflexivity|]. exfalso. match goal with H : ~ known_type _ |- _ => apply H end. unfold known_type. rewrite known_in. lia.
      - split; [intros X; injection X as <-; apply lf_unknown; unfold known_type; rewrite known_in; lia|]. intros X; inversion X; subst; [|reflexivity]. exfalso. match goal with H : In _ _ |- _ => apply bare_in in H end. lia. }
    intros v R. cbn [dataLength]. rewrite R. split; [discriminate|]. intros X. exfalso. unfold random_length, is_arith, is_byte1, is_word1, is_bare in R.
    inversion X; subst.
    + match goal with H : In _ _ |- _ => apply bare_in in H; destruct H as [H|[H|[H|H]]]; rewrite H in R; vm_compute in R; discriminate end.
    + match goal with H : ~ known_type _ |- _ => rename H into N end. unfold known_type in N. rewrite known_in in N.
      repeat match type of R with (if ?c then _ else _) = _ => let C := fresh "C" in destruct c eqn:C; [exfalso; lia|] end. discriminate R.
Qed.

(** ** Lists *)
Lemma first_failure {A B} (f : A -> res B) l :
  (exists ys, Forall2 (fun x y => f x = Ok y) l ys) \/ (exists a x b k, l = a ++ x :: b /\ (forall q, In q a -> exists y, f q = Ok y) /\ f x = Err k).
Proof.
  induction l as [|x l IH]; [left; exists []; constructor|]. destruct (f x) as [y|k] eqn:E.
  - destruct IH as [(ys & F)|(a & z & b & k & -> & A1 & A2)]; [left; exists (y :: ys); constructor; assumption|].
    right. exists (x :: a), z, b, k. split; [reflexivity|]. split; [|exact A2]. intros q [<-|Q]; [exists y; exact E|apply A1; exact Q].
  - right. exists [], x, l, k. split; [reflexivity|]. split; [intros q []|exact E].
Qed.
Lemma first_failure_unique {A B} (f : A -> res B) a x b k a' x' b' k' :
  a ++ x :: b = a' ++ x' :: b' -> (forall q, In q a -> exists y, f q = Ok y) -> f x = Err k ->
  (forall q, In q a' -> exists y, f q = Ok y) -> f x' = Err k' -> k = k'.
Proof.
  revert a'. induction a as [|q a IH]; intros a' E A1 A2 B1 B2; destruct a' as [|q' a']; cbn [app] in E; injection E as E1 E2.
  - subst. congruence.
  - subst. destruct (B1 q' (or_introl eq_refl)) as (y & Y). congruence.
  - subst. destruct (A1 x' (or_introl eq_refl)) as (y & Y). congruence.
  - subst. apply (IH a' E2); auto; intros; [apply A1|apply B1]; right; assumption.
Qed.
Lemma no_fault_ok {A B} (f : A -> res B) (P : A -> exc -> Prop) : (forall x k, f x = Err k <-> P x k) -> forall x, (exists y, f x = Ok y) <-> (forall k, ~ P x k).
Proof.
  intros H x. split.
  - intros (y & E) k F. apply H in F. congruence.
  - intros N. destruct (f x) as [y|k] eqn:E; [eexists; reflexivity|]. destruct (N k). apply H. exact E.
Qed.

Lemma forall2_ok_in {A B} (f : A -> res B) l ys : Forall2 (fun x y => f x = Ok y) l ys -> forall x, In x l -> exists y, f x = Ok y.
Proof. induction 1 as [|x y l ys F _ IH]; intros z I; [destruct I|]. destruct I as [<-|I]; [exists y; exact F|apply IH; exact I]. Qed.
Lemma offsets_table off evs lens : map (fun it : Z * (ev * Z) => (fst it, snd (snd it))) (items_from off evs lens) = offsets off evs lens.
Proof. revert off lens. induction evs as [|[i e] r IH]; intros off [|n ns]; try reflexivity. cbn [items_from map offsets fst snd]. rewrite IH. reflexivity. Qed.
Lemma offsets_fst off evs lens : length evs = length lens -> map fst (offsets off evs lens) = map fst evs.
Proof. revert off lens. induction evs as [|[i e] r IH]; intros off [|n ns] H; try reflexivity; try discriminate. cbn [offsets map fst]. rewrite IH by (cbn in H; lia). reflexivity. Qed.

Lemma layout_fails evs a p b k : evs = a ++ p :: b -> (forall q, In q a -> exists n, dataLength (snd q) = Ok n) -> dataLength (snd p) = Err k -> layout evs = Err k.
Proof.
  intros -> A F. unfold layout. generalize (@nil (Z * (ev * Z))) 0. induction a as [|q a IH]; intros d off.
  - cbn [app foldM]. rewrite F. reflexivity.
  - cbn [app foldM]. destruct (A q (or_introl eq_refl)) as (n & E). rewrite E. cbn [bind]. apply IH. intros x Hx. apply A. right. exact Hx.
Qed.
Lemma write_fails e2o a p b k : forall off ns data, (forall q, In q a -> exists y, ev_save (snd q) e2o = Ok y) -> ev_save (snd p) e2o = Err k -> length (a ++ p :: b) = length ns ->
  foldM (fun data it => let '(_, (e, offset)) := it in
           eData <- ev_save e e2o ;; Ok (slice_set data offset (offset + zlen eData) eData)) data (items_from off (a ++ p :: b) ns) = Err k.
Proof.
  induction a as [|[i e] a IH]; intros off ns data A F L; destruct ns as [|n ns]; try discriminate.
  - cbn [app]. destruct p as [i e]. cbn [items_from foldM snd] in *. rewrite F. reflexivity.
  - cbn [app items_from foldM]. destruct (A (i, e) (or_introl eq_refl)) as (y & E). cbn [snd] in E. rewrite E. cbn [bind]. apply IH; [intros x Hx; apply A; right; exact Hx|exact F|cbn in L; lia].
Qed.
Lemma write_succeeds e2o l : forall off ns data, (forall q, In q l -> exists y, ev_save (snd q) e2o = Ok y) ->
  exists r, foldM (fun data it => let '(_, (e, offset)) := it in
           eData <- ev_save e e2o ;; Ok (slice_set data offset (offset + zlen eData) eData)) data (items_from off l ns) = Ok r.
Proof.
  induction l as [|[i e] l IH]; intros off ns data A; [eexists; reflexivity|]. destruct ns as [|n ns]; [eexists; reflexivity|].
  cbn [items_from foldM]. destruct (A (i, e) (or_introl eq_refl)) as (y & E). cbn [snd] in E. rewrite E. cbn [bind]. apply IH. intros x Hx. apply A. right. exact Hx.
Qed.
Lemma notable_fails pos l : (exists n, In n l /\ ~ In n (map fst pos)) <-> mapM (fun i => e2o_get pos (Some i)) l = Err KeyError.
Proof.
  induction l as [|x l IH]; [split; [intros (n & [] & _)|discriminate]|]. cbn [mapM]. rewrite pos_of_get. destruct (pos_of pos (Some x)) as [o|] eqn:E; cbn [bind].
  - assert (IN : In x (map fst pos)) by (apply pos_of_some in E; change x with (fst (x, o)); apply in_map; exact E).
    destruct (mapM (fun i => e2o_get pos (Some i)) l) as [r|k] eqn:M; cbn [bind].
    + split; [|discriminate]. intros (n & [->|I] & N); [contradiction|]. assert (Ok r = Err KeyError) by (apply IH; exists n; auto). discriminate.
    + split.
      * intros (n & [->|I] & N); [contradiction|]. apply IH. exists n. auto.
      * intros H. apply IH in H as (n & I & N). exists n. split; [right; exact I|exact N].
  - split; [reflexivity|]. intros _. exists x. split; [left; reflexivity|]. intros I. apply pos_of_ex in I as (o & O). congruence.
Qed.
Lemma notable_err pos l k : mapM (fun i => e2o_get pos (Some i)) l = Err k -> k = KeyError.
Proof.
  induction l as [|x l IH]; [discriminate|]. cbn [mapM]. rewrite pos_of_get. destruct (pos_of pos (Some x)); cbn [bind]; [|congruence].
  destruct (mapM (fun i => e2o_get pos (Some i)) l); cbn [bind]; [discriminate|]. intros H. apply IH. exact H.
Qed.

Lemma list_faults evs notable k : NoDup (map fst evs) -> (saveSequenceEvents evs notable = Err k <-> list_fault evs notable k).
Proof.
  intros ND. unfold saveSequenceEvents.
  assert (LN : forall e, (exists n, dataLength e = Ok n) <-> (forall k, ~ length_fault e k)) by (apply no_fault_ok; apply length_faults).
  assert (SN : forall pos e, (exists n, ev_save e pos = Ok n) <-> (forall k, ~ save_fault pos e k)) by (intros pos; apply no_fault_ok; intros e; apply save_faults).
  destruct (first_failure (fun p => dataLength (snd p)) evs) as [(lens & FL)|(a & p & b & k0 & EV & A1 & A2)].
  - rewrite (layout_ok evs lens ND FL). cbn [bind]. rewrite offsets_table. set (pos := offsets 0 evs lens) in *.
    assert (UL : forall lens', Forall2 (fun q n => dataLength (snd q) = Ok n) evs lens' -> lens' = lens).
    { clear - FL. induction FL as [|q n l ns F FL IH]; intros lens' F'; inversion F'; subst; [reflexivity|]. f_equal; [congruence|apply IH; assumption]. }
    assert (NL : forall q k', In q evs -> ~ length_fault (snd q) k').
    { intros q k' I. apply LN. exact (forall2_ok_in (fun p => dataLength (snd p)) _ _ FL q I). }
    assert (LEN : length evs = length lens) by (clear - FL; induction FL; cbn [length]; congruence).
    destruct (first_failure (fun p => ev_save (snd p) pos) evs) as [(bs & FB)|(a & p & b & k0 & EV & A1 & A2)].
    + assert (OKS : forall q, In q evs -> exists y, ev_save (snd q) pos = Ok y).
      { exact (forall2_ok_in _ _ _ FB). }
      destruct (write_succeeds pos evs 0 lens (zeros (sum lens)) OKS) as (data & ->). cbn [bind].
      assert (PF : map fst pos = map fst evs) by (apply offsets_fst; exact LEN). split.
      * intros H. destruct (mapM (fun i => e2o_get pos (Some i)) notable) as [os|k'] eqn:M; cbn [bind] in H; [discriminate|]. assert (k' = k) by congruence. subst k'. pose proof (notable_err _ _ _ M). subst k.
        apply notable_fails in M as (n & I & N). rewrite PF in N. apply (lst_notable evs notable lens n FL); [|exact I|exact N]. intros q k' Hq. apply SN. apply OKS. exact Hq.
      * intros H. inversion H as [a p b k' EV _ F|lens' a p b k' FL' EV _ F|lens' n FL' _ I N]; subst.
        -- exfalso. eapply NL; [|exact F]. apply in_or_app. right. left. reflexivity.
        -- exfalso. rewrite (UL lens' FL') in F. fold pos in F. revert F. apply SN. apply OKS. apply in_or_app. right. left. reflexivity.
        -- assert (M : mapM (fun i => e2o_get pos (Some i)) notable = Err KeyError) by (apply notable_fails; exists n; rewrite PF; auto). rewrite M. reflexivity.
    + assert (W : forall data, foldM (fun data it => let '(_, (e, offset)) := it in eData <- ev_save e pos ;; Ok (slice_set data offset (offset + zlen eData) eData)) data (items_from 0 evs lens) = Err k0).
      { intros data. rewrite EV in LEN |- *. apply write_fails; [exact A1|exact A2|exact LEN]. }
      rewrite W. cbn [bind]. split.
      * intros H. injection H as <-. apply (lst_save evs notable lens a p b k0 FL EV); [|apply save_faults; exact A2]. intros q k' I. apply SN. apply A1. exact I.
      * intros H. inversion H as [a' p' b' k' EV' _ F|lens' a' p' b' k' FL' EV' NF F|lens' n FL' NF I N]; subst k' || subst k.
        -- exfalso. eapply NL; [|exact F]. rewrite EV'. apply in_or_app. right. left. reflexivity.
        -- rewrite (UL lens' FL') in F, NF. fold pos in F, NF. f_equal. apply save_faults in F. rewrite EV in EV'.
           apply (first_failure_unique (fun p => ev_save (snd p) pos) a p b k0 a' p' b' k EV' A1 A2); [|exact F]. intros q Hq. apply SN. intros k'. apply NF. exact Hq.
        -- exfalso. rewrite (UL lens' FL') in NF. fold pos in NF. apply (NF p k0); [rewrite EV; apply in_or_app; right; left; reflexivity|]. apply save_faults. exact A2.
  - rewrite (layout_fails evs a p b k0 EV A1 A2). cbn [bind].
    assert (NOL : forall lens, ~ Forall2 (fun q n => dataLength (snd q) = Ok n) evs lens).
    { intros lens F. rewrite EV in F. apply Forall2_app_inv_l in F as (l1 & l2 & _ & F & _). inversion F; subst. congruence. }
    split.
    + intros H. injection H as <-. apply (lst_length evs notable a p b k0 EV); [|apply length_faults; exact A2]. intros q k' I. apply LN. apply A1. exact I.
    + intros H. inversion H as [a' p' b' k' EV' NF F|lens' a' p' b' k' FL' EV' NF F|lens' n FL' NF I N]; [|destruct (NOL lens' FL')|destruct (NOL lens' FL')]. subst k'.
      f_equal. rewrite EV in EV'. apply (first_failure_unique (fun p => dataLength (snd p)) a p b k0 a' p' b' k EV' A1 A2); [|apply length_faults; exact F].
      intros q Hq. apply LN. intros k'. apply NF. exact Hq.
Qed.

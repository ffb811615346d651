From Verif Require Import PyBase PyLemmas LzLemmas LzModel CodeModel CodeLemmas CsoSpec.

Lemma search_magic_spec n d i : match search_magic n d i with
  | Some o => exists k, (k < n)%nat /\ slice d (i + 4 * Z.of_nat k) (i + 4 * Z.of_nat k + 8) = cs_magic /\ o = i + 4 * Z.of_nat k - 0x1C /\
                forall j, (j < k)%nat -> slice d (i + 4 * Z.of_nat j) (i + 4 * Z.of_nat j + 8) <> cs_magic
  | None => forall j, (j < n)%nat -> slice d (i + 4 * Z.of_nat j) (i + 4 * Z.of_nat j + 8) <> cs_magic
  end.
Proof.
  revert i. induction n as [|n IH]; intros i; cbn [search_magic]; [intros; lia|].
  destruct (beq (slice d i (i + 8)) cs_magic) eqn:E.
  - apply beq_eq in E. exists O. change (Z.of_nat 0) with 0. replace (i + 4 * 0) with i by lia. split; [lia|]. split; [exact E|]. split; [lia|intros; lia].
  - assert (N : slice d i (i + 8) <> cs_magic) by (intros C; apply beq_eq in C; congruence).
    specialize (IH (i + 4)). destruct (search_magic n d (i + 4)) as [o|].
    + destruct IH as (k & K1 & K2 & -> & K4). exists (S k). replace (i + 4 * Z.of_nat (S k)) with (i + 4 + 4 * Z.of_nat k) by lia. split; [lia|]. split; [exact K2|]. split; [reflexivity|].
      intros [|j] L; [change (Z.of_nat 0) with 0; replace (i + 4 * 0) with i by lia; exact N|]. replace (i + 4 * Z.of_nat (S j)) with (i + 4 + 4 * Z.of_nat j) by lia. apply K4. lia.
    + intros [|j] L; [change (Z.of_nat 0) with 0; replace (i + 4 * 0) with i by lia; exact N|]. replace (i + 4 * Z.of_nat (S j)) with (i + 4 + 4 * Z.of_nat j) by lia. apply IH. lia.
Qed.
Lemma search_magic_ok d : match search_magic (Z.to_nat (0x8000 / 4)) d 0 with
  | Some o => exists i, magic_at d i /\ o = i - 0x1C /\ forall j, j < i -> ~ magic_at d j
  | None => no_magic d
  end.
Proof.
  pose proof (search_magic_spec (Z.to_nat (0x8000 / 4)) d 0) as S. set (N := Z.to_nat (0x8000 / 4)) in *. assert (HN : Z.of_nat N = 0x2000) by (unfold N; rewrite Z2Nat.id; [reflexivity|vm_compute; discriminate]). clearbody N.
  assert (G : forall i, magic_at d i -> exists j, (j < N)%nat /\ i = 0 + 4 * Z.of_nat j /\ slice d (0 + 4 * Z.of_nat j) (0 + 4 * Z.of_nat j + 8) = cs_magic).
  { intros i (A & B & C). exists (Z.to_nat (i / 4)). pose proof (Z.div_mod i 4 ltac:(lia)). assert (E : 0 + 4 * Z.of_nat (Z.to_nat (i / 4)) = i) by (rewrite Z2Nat.id; lia). split; [lia|]. rewrite E. split; [reflexivity|exact C]. }
  destruct (search_magic N d 0) as [o|].
  - destruct S as (k & K1 & K2 & -> & K4). exists (0 + 4 * Z.of_nat k). split.
    + split; [lia|]. split; [|exact K2]. replace (0 + 4 * Z.of_nat k) with (Z.of_nat k * 4) by lia. apply Z.mod_mul. lia.
    + split; [reflexivity|]. intros j L M. destruct (G _ M) as (j' & J1 & -> & J3). apply (K4 j'); [lia|exact J3].
  - intros i M. destruct (G _ M) as (j & J1 & _ & J3). exact (S j J1 J3).
Qed.


Lemma slice_short {A} (l : list A) i n : 0 <= i -> 0 <= n -> zlen (slice l i (i + n)) = n -> n = 0 \/ i + n <= zlen l.
Proof.
  intros Hi Hn. unfold slice, clamp. replace (i <? 0) with false by lia. replace (i + n <? 0) with false by lia. rewrite zlen_firstn, zlen_skipn. lia.
Qed.
Lemma occ_end ram d k : is_bytes d -> 0 <= ram + zlen d < 2 ^ 32 -> 0 <= k -> (occ (le 4 (ram + zlen d)) d k <-> end_at ram d k).
Proof.
  intros B R K. unfold end_at, occ. rewrite zlen_le. change (Z.of_nat 4) with 4. split.
  - intros O. split; [exact K|]. assert (L : zlen (slice d k (k + 4)) = 4) by (rewrite O; apply zlen_le).
    assert (L' : k + 4 <= zlen d) by (apply slice_short in L; lia). split; [exact L'|]. rewrite O. apply unle_le_id. change (256 ^ Z.of_nat 4) with (2 ^ 32). lia.
  - intros (_ & L & E). rewrite <- E. symmetry; apply (le_unle_n 4); [apply is_bytes_slice, B|]. pose proof (zlen_slice d k (k + 4) ltac:(lia) ltac:(lia)). unfold zlen in *. lia.
Qed.
Definition first_from (ram : Z) (d : bytes) (lo m : Z) : Prop :=
  (m = -1 /\ forall j, lo <= j -> ~ end_at ram d j) \/ (lo <= m /\ end_at ram d m /\ forall j, lo <= j < m -> ~ end_at ram d j).
Lemma find_in_first ram d i : is_bytes d -> 0 <= ram + zlen d < 2 ^ 32 -> 0 <= i -> first_from ram d i (find_in d (le 4 (ram + zlen d)) i (zlen d)).
Proof.
  intros B R Hi. unfold find_in. pose proof (zlen_nonneg d). rewrite (clamp_id (zlen d) (zlen d)) by lia.
  assert (C : Z.min i (zlen d) = clamp (zlen d) i) by (unfold clamp; destruct (Z.ltb_spec i 0); lia). rewrite <- C.
  rewrite zlen_le. change (Z.of_nat 4) with 4. set (a := Z.min i (zlen d)).
  pose proof (find_from_spec (le 4 (ram + zlen d)) d (Z.to_nat (zlen d - 4 - a + 1)) a ltac:(lia)) as S. cbv zeta in S. unfold first_from.
  set (r := find_from _ _ _ _) in *. clearbody r. destruct S as [[S F]|[S [O F]]].
  - left. split; [exact S|]. intros j Hj E. apply (F j); [|apply occ_end; [exact B|exact R|lia|exact E]]. destruct E as (E1 & E2 & _). lia.
  - right. apply occ_end in O; [|exact B|exact R|lia]. assert (a = i) by (destruct O as (_ & O & _); lia). split; [lia|]. split; [exact O|]. intros j Hj E. apply (F j); [lia|]. apply occ_end; [exact B|exact R|lia|exact E].
Qed.
Lemma unpack_before d m : m = 0 \/ 4 <= m -> m + 4 <= zlen d -> unpack_u 4 d (m - 4) = Ok (word_before d m).
Proof.
  intros M L. unfold unpack_u, unpack_e, word_before. change (Z.of_nat 4) with 4. destruct M as [->|M].
  - unfold rd, struct_off. change (0 - 4 <? 0) with true. cbv iota. change (0 <? 0 - 4 + 4) with false. cbn [orb]. replace (0 - 4 + zlen d <? 0) with false by lia. cbn [bind]. change (0 =? 0) with true. cbv iota.
    change (dec LE) with unle. replace (slice d (zlen d - 4) (zlen d)) with (slice d (zlen d - 4) (zlen d - 4 + 4)) by (f_equal; lia). rewrite slice_firstn_skipn by lia. replace (0 - 4 + zlen d) with (zlen d - 4) by lia. reflexivity.
  - rewrite rd_slice by lia. cbn [bind]. replace (m =? 0) with false by lia. change (dec LE) with unle. replace (m - 4 + 4) with m by lia. reflexivity.
Qed.
Lemma search_end_spec ram d : is_bytes d -> 0 <= ram + zlen d < 2 ^ 32 -> forall fuel lo m, 0 <= lo -> first_from ram d lo m -> (1 <= fuel)%nat -> zlen d - Z.max 0 m < Z.of_nat fuel ->
  match search_end fuel d (le 4 (ram + zlen d)) (ram + zlen d) m with
  | Ok (Some o) => exists k, settings_at ram d k /\ o = k - 4 /\ forall j, lo <= j < k -> ~ settings_at ram d j
  | Ok None => forall j, lo <= j -> ~ settings_at ram d j
  | Err e => e = StructError /\ exists k, end_at ram d k /\ 1 <= k <= 3
  end.
Proof.
  intros B R. induction fuel as [|fuel IH]; intros lo m Hlo F H1 H2; [lia|]. cbn [search_end].
  destruct F as [[-> F]|(F1 & F2 & F3)].
  - change (-1 =? -1) with true. cbv iota. intros j J [E _]. exact (F j J E).
  - replace (m =? -1) with false by lia. pose proof F2 as (_ & L & _). assert (D : (m = 0 \/ 4 <= m) \/ 1 <= m <= 3) by lia. destruct D as [D|D].
    2:{ unfold unpack_u, unpack_e, rd, struct_off. change (Z.of_nat 4) with 4. replace (m - 4 <? 0) with true by lia. replace (0 <? m - 4 + 4) with true by lia. cbn [orb bind]. split; [reflexivity|]. exists m. split; [exact F2|exact D]. }
    rewrite unpack_before by assumption. cbn [bind].
    assert (T : (word_before d m mod 4 =? 0) && ((ram + zlen d - word_before d m) mod 12 =? 0) && (ram + zlen d - word_before d m <? 0x100) = true <-> table_before ram d m).
    { unfold table_before. rewrite !andb_true_iff, !Z.eqb_eq, Z.ltb_lt. rewrite (Z.mod_divide _ 12) by lia. intuition lia. }
    destruct ((word_before d m mod 4 =? 0) && ((ram + zlen d - word_before d m) mod 12 =? 0) && (ram + zlen d - word_before d m <? 0x100)).
    + exists m. split; [split; [exact F2|apply T; reflexivity]|]. split; [reflexivity|]. intros j J [E _]. exact (F3 j J E).
    + assert (NT : ~ table_before ram d m) by (intros X; apply T in X; discriminate X). clear T.
      pose proof (find_in_first ram d (m + 1) B R ltac:(lia)) as F. set (m' := find_in d (le 4 (ram + zlen d)) (m + 1) (zlen d)) in *. clearbody m'.
      assert (NS : forall j, lo <= j < m + 1 -> ~ settings_at ram d j).
      { intros j J [E T]. destruct (Z.eq_dec j m) as [->|]; [exact (NT T)|]. apply (F3 j); [lia|exact E]. }
      assert (M' : zlen d - Z.max 0 m' < Z.of_nat fuel \/ m' = -1) by (destruct F as [[-> _]|(X & _)]; [right; reflexivity|left; lia]).
      assert (H1' : (1 <= fuel)%nat) by lia.
      destruct M' as [M'| ->].
      * specialize (IH (m + 1) m' ltac:(lia) F H1' M'). destruct (search_end fuel d _ _ m') as [[o|]|e].
        -- destruct IH as (k & K1 & K2 & K3). exists k. split; [exact K1|]. split; [exact K2|]. intros j J. destruct (Z_lt_ge_dec j (m + 1)); [apply NS; lia|apply K3; lia].
        -- intros j J. destruct (Z_lt_ge_dec j (m + 1)); [apply NS; lia|apply IH; lia].
        -- exact IH.
      * destruct fuel; [lia|]. cbn [search_end]. change (-1 =? -1) with true. cbv iota. destruct F as [[_ F]|(X & _)]; [|lia].
        intros j J. destruct (Z_lt_ge_dec j (m + 1)); [apply NS; lia|]. intros [E _]. apply (F j); [lia|exact E].
Qed.
Lemma search_cso_spec ram d : is_bytes d ->
  match search_cso ram d with
  | Ok (Some o) => (exists i, magic_at d i /\ o = i - 0x1C /\ forall j, j < i -> ~ magic_at d j) \/
                   (no_magic d /\ exists m, settings_at ram d m /\ o = m - 4 /\ forall j, j < m -> ~ settings_at ram d j)
  | Ok None => no_magic d /\ forall m, ~ settings_at ram d m
  | Err e => e = StructError /\ no_magic d /\ (~ 0 <= ram + zlen d < 2 ^ 32 \/ exists m, end_at ram d m /\ 1 <= m <= 3)
  end.
Proof.
  intros B. unfold search_cso. pose proof (search_magic_ok d) as SM. destruct (search_magic _ d 0) as [o|]; [left; exact SM|].
  unfold pack_u, pack_e. change (256 ^ Z.of_nat 4) with (2 ^ 32). destruct ((0 <=? ram + zlen d) && (ram + zlen d <? 2 ^ 32)) eqn:R; cbn [bind].
  2:{ split; [reflexivity|]. split; [exact SM|]. left. lia. }
  assert (R' : 0 <= ram + zlen d < 2 ^ 32) by lia. change (enc LE 4 (ram + zlen d)) with (le 4 (ram + zlen d)).
  pose proof (search_end_spec ram d B R' (S (length d)) 0 _ ltac:(lia) (find_in_first ram d 0 B R' ltac:(lia)) ltac:(lia)) as X.
  assert (Y : zlen d - Z.max 0 (find_in d (le 4 (ram + zlen d)) 0 (zlen d)) < Z.of_nat (S (length d))) by (unfold zlen; lia). specialize (X Y). clear Y.
  assert (NN : forall j, j < 0 -> ~ settings_at ram d j) by (intros j J [(E & _) _]; lia).
  destruct (search_end _ d _ _ _) as [[o|]|e].
  - right. split; [exact SM|]. destruct X as (k & K1 & K2 & K3). exists k. split; [exact K1|]. split; [exact K2|]. intros j J. destruct (Z_lt_ge_dec j 0); [apply NN; lia|apply K3; lia].
  - split; [exact SM|]. intros j. destruct (Z_lt_ge_dec j 0); [apply NN; lia|apply X; lia].
  - destruct X as (-> & X). split; [reflexivity|]. split; [exact SM|]. right. exact X.
Qed.

Lemma unpack_word d off v : unpack_u 4 d off = Ok v <-> (0 <= off /\ off + 4 <= zlen d \/ - zlen d <= off <= -4) /\ v = unle (slice d (from_end d off) (from_end d off + 4)).
Proof.
  unfold unpack_u, unpack_e, rd, struct_off, from_end. change (Z.of_nat 4) with 4. change (dec LE) with unle. pose proof (zlen_nonneg d). destruct (Z.ltb_spec off 0).
  - destruct (Z.ltb_spec 0 (off + 4)); cbn [orb bind]; [split; [discriminate|lia]|]. destruct (Z.ltb_spec (off + zlen d) 0); cbn [bind]; [split; [discriminate|lia]|].
    rewrite slice_firstn_skipn by lia. split; [intros [= <-]; split; [lia|reflexivity]|intros [_ ->]; reflexivity].
  - destruct (Z.ltb_spec (zlen d) (off + 4)); cbn [bind]; [split; [discriminate|lia]|].
    rewrite slice_firstn_skipn by lia. split; [intros [= <-]; split; [lia|reflexivity]|intros [_ ->]; reflexivity].
Qed.
Lemma pointer_spec ram d p o : p <> 0 -> (cso_from_pointer ram d p = Some o <-> points_to ram d p o).
Proof.
  intros P. unfold cso_from_pointer, points_to. cbv zeta.
  assert (Q : (if p - ram <? 4 then p - ram + zlen d else p - ram) = from_end d (p - ram - 4) + 4) by (unfold from_end; destruct (Z.ltb_spec (p - ram) 4), (Z.ltb_spec (p - ram - 4) 0); lia). rewrite Q. clear Q.
  replace (from_end d (p - ram - 4) + 4 - 4) with (from_end d (p - ram - 4)) by lia.
  destruct (unpack_u 4 d (p - ram - 4)) as [a|e] eqn:E.
  - apply unpack_word in E as [E1 ->]. set (w := unle _). destruct ((0 <=? w - ram) && (w - ram <? zlen d - 4)) eqn:C.
    + split; [intros [= <-]|intros (_ & _ & X & Y); f_equal]; lia.
    + split; [discriminate|]. intros (_ & _ & X & Y). lia.
  - split; [discriminate|]. intros (_ & X & Y & _). assert (E' : unpack_u 4 d (p - ram - 4) = Ok (ram + o)) by (apply unpack_word; split; [lia|symmetry; exact Y]). congruence.
Qed.
Lemma find_cso_spec ram d ptr : 
  (forall p o, ptr = Some p -> points_to ram d p o -> find_cso ram d ptr = Ok (Some o)) /\
  ((forall p o, ptr = Some p -> ~ points_to ram d p o) -> find_cso ram d ptr = search_cso ram d).
Proof.
  unfold find_cso. split.
  - intros p o -> PT. pose proof PT as [P _]. replace (p =? 0) with false by lia. apply (pointer_spec ram d p o P) in PT. rewrite PT. reflexivity.
  - intros N. destruct ptr as [p|]; [|reflexivity]. destruct (Z.eqb_spec p 0); [reflexivity|]. destruct (cso_from_pointer ram d p) as [o|] eqn:E; [|reflexivity]. apply pointer_spec in E; [|assumption]. destruct (N p o eq_refl E).
Qed.

Lemma unpack3_spec d off a b c : unpack3 d off = Ok (a, b, c) -> (0 <= off /\ off + 12 <= zlen d \/ - zlen d <= off <= -12) /\ a = setting d off 0 /\ b = setting d off 1 /\ c = setting d off 2.
Proof.
  unfold unpack3. intros H. apply bind_ok in H as (x & X & H). injection H as <- <- <-.
  assert (Y : (0 <= off /\ off + 12 <= zlen d \/ - zlen d <= off <= -12) /\ x = slice d (from_end d off) (from_end d off + 12)).
  { revert X. unfold rd, struct_off, from_end. pose proof (zlen_nonneg d). destruct (Z.ltb_spec off 0).
    - destruct (Z.ltb_spec 0 (off + 12)); cbn [orb bind]; [discriminate|]. destruct (Z.ltb_spec (off + zlen d) 0); cbn [bind]; [discriminate|]. rewrite slice_firstn_skipn by lia. intros [= <-]. split; [lia|reflexivity].
    - destruct (Z.ltb_spec (zlen d) (off + 12)); cbn [bind]; [discriminate|]. rewrite slice_firstn_skipn by lia. intros [= <-]. split; [lia|reflexivity]. }
  destruct Y as [Y ->]. split; [exact Y|]. unfold setting. set (q := from_end d off) in *. assert (Q : 0 <= q /\ q + 12 <= zlen d) by (unfold q, from_end; destruct (Z.ltb_spec off 0); lia). clearbody q. clear Y X.
  assert (G : forall i, 0 <= i -> i + 4 <= 12 -> slice (slice d q (q + 12)) i (i + 4) = slice d (q + i) (q + i + 4)).
  { intros i I1 I2. assert (D : d = slice d 0 q ++ slice d q (q + 12) ++ slice d (q + 12) (zlen d)) by (rewrite (slice_app_eq d q (q + 12) (zlen d)), (slice_app_eq d 0 q (zlen d)), slice_all by lia; reflexivity).
    rewrite D at 2. rewrite slice_skip by (rewrite ?zlen_slice by lia; lia). rewrite zlen_slice by lia. rewrite slice_app_l by (rewrite ?zlen_slice by lia; lia). f_equal; lia. }
  pose proof (G 0 ltac:(lia) ltac:(lia)) as G0. pose proof (G 4 ltac:(lia) ltac:(lia)) as G4. pose proof (G 8 ltac:(lia) ltac:(lia)) as G8. change (0 + 4) with 4 in G0. change (4 + 4) with 8 in G4. change (8 + 4) with 12 in G8. rewrite G0, G4, G8. replace (q + 4 * 0) with (q + 0) by lia. replace (q + 4 * 1) with (q + 4) by lia. replace (q + 4 * 2) with (q + 8) by lia. repeat split; reflexivity.
Qed.

Lemma copy_table_spec d t tend db : 0 <= t -> forall fuel i r, copy_table fuel d (t + 12 * Z.of_nat i) tend (db + sizes d t i) = Ok r ->
  (t + 12 * (Z.of_nat i + zlen r) >= tend /\ (0 < zlen r -> t + 12 * (Z.of_nat i + zlen r) < tend + 12)) /\
  forall k, (k < length r)%nat -> nth_error r k = Some {| sData := slice d (db + sizes d t (i + k)) (db + sizes d t (S (i + k))); sRam := row d t (Z.of_nat (i + k)) 0;
    sBss := row d t (Z.of_nat (i + k)) 2; sImplicit := false |}.
Proof.
  intros T. induction fuel as [|fuel IH]; intros i r H; [discriminate H|]. cbn [copy_table] in H. destruct (Z.ltb_spec (t + 12 * Z.of_nat i) tend).
  2:{ injection H as <-. change (zlen (@nil section)) with 0. split; [lia|]. cbn [length]. intros; lia. }
  apply bind_ok in H as ([[ra sz] bss] & U & H). apply bind_ok in H as (rest & C & H). injection H as <-. apply unpack3_spec in U as (U0 & U1 & U2 & U3).
  assert (W : forall j, setting d (t + 12 * Z.of_nat i) j = row d t (Z.of_nat i) j) by (intros j; unfold setting, row, from_end; replace (t + 12 * Z.of_nat i <? 0) with false by lia; reflexivity).
  rewrite W in U1, U2, U3. subst ra sz bss. replace (t + 12 * Z.of_nat i + 12) with (t + 12 * Z.of_nat (S i)) in C by lia.
  replace (db + sizes d t i + row d t (Z.of_nat i) 1) with (db + sizes d t (S i)) in * by (cbn [sizes]; lia).
  apply IH in C as [C1 C2]. rewrite zlen_cons. split; [lia|]. intros [|k] K.
  - cbn [nth_error]. rewrite Nat.add_0_r. reflexivity.
  - cbn [nth_error length] in *. rewrite C2 by lia. replace (S i + k)%nat with (i + S k)%nat by lia. reflexivity.
Qed.

Lemma mcf_new_inv d0 ram ptr m d : mcf_new d0 ram ptr = Ok m -> code_decompress d0 = Ok d -> mRam m = ram /\ find_cso ram d ptr = Ok (mCso m) /\
  match mCso m with
  | None => mSections m = [{| sData := d; sRam := ram; sBss := 0; sImplicit := true |}]
  | Some o => (0 <= o /\ o + 12 <= zlen d \/ - zlen d <= o <= -12) /\
      exists rest, mSections m = {| sData := slice d 0 (setting d o 2 - ram); sRam := ram; sBss := 0; sImplicit := true |} :: rest /\
        copy_table (S (S (2 * length d))) d (setting d o 0 - ram) (setting d o 1 - ram) (setting d o 2 - ram) = Ok rest
  end.
Proof.
  intros H D. unfold mcf_new in H. rewrite D in H. cbn [bind] in H. apply bind_ok in H as (cso & F & H). apply bind_ok in H as ([[a b] c] & S & H). apply bind_ok in H as (rest & C & H). injection H as <-. cbn [mRam mCso mSections].
  split; [reflexivity|]. split; [exact F|]. destruct cso as [o|].
  - apply bind_ok in S as ([[x y] z] & U & S). injection S as <- <- <-. apply unpack3_spec in U as (U0 & -> & -> & ->). split; [exact U0|]. exists rest. split; [reflexivity|exact C].
  - injection S as <- <- <-. cbn [copy_table] in C. change (0 <? 0) with false in C. cbv iota in C. injection C as <-. rewrite slice_all. reflexivity.
Qed.

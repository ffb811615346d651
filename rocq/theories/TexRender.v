From Verif Require Import PyBase PyLemmas PyTac ColorModel ColorLemmas NarcLemmas TexModel TexSpec.

(** ** results up to the kind of error *)
Definition oke {A} (a b : res A) : Prop := forall x, a = Ok x <-> b = Ok x.
Lemma oke_refl {A} (a : res A) : oke a a.
Proof. intros x. reflexivity. Qed.
Lemma oke_trans {A} (a b c : res A) : oke a b -> oke b c -> oke a c.
Proof. intros H1 H2 x. rewrite (H1 x). apply H2. Qed.
Lemma oke_sym {A} (a b : res A) : oke a b -> oke b a.
Proof. intros H x. symmetry. apply H. Qed.
Lemma oke_bind {A B} (a a' : res A) (k k' : A -> res B) : oke a a' -> (forall x, a = Ok x -> oke (k x) (k' x)) -> oke (bind a k) (bind a' k').
Proof.
  intros H1 H2 y. split; intros H; apply bind_ok in H as (x & E & H).
  - pose proof (proj1 (H1 x) E) as E'. rewrite E'. cbn [bind]. apply (H2 x E y), H.
  - pose proof (proj2 (H1 x) E) as E'. rewrite E'. cbn [bind]. apply (H2 x E' y), H.
Qed.
Lemma oke_err {A} e e' : oke (@Err A e) (Err e').
Proof. intros x. split; discriminate. Qed.
Lemma bind_assoc_ {A B C} (a : res A) (f : A -> res B) (g : B -> res C) : bind (bind a f) g = bind a (fun x => bind (f x) g).
Proof. destruct a; reflexivity. Qed.

(** ** writes *)
Section Writes.
Context (f : Z -> res color).
Definition wr (d : pixels) (p : Z) : res pixels := c <- f p ;; setl d p (Some c).
Lemma wr_ok d p d' : 0 <= p -> wr d p = Ok d' -> exists c, f p = Ok c /\ p < zlen d /\ d' = upd d (Z.to_nat p) (Some c).
Proof. intros P H. apply bind_ok in H as (c & Hc & H). apply setl_inv in H as [H1 H2]; [|exact P]. eauto. Qed.
Definition holds (d : pixels) (p : Z) : Prop := exists c, f p = Ok c /\ get d p = Ok (Some c).
Lemma get_upd {A} (l : list A) i j x : 0 <= i < zlen l -> 0 <= j -> get (upd l (Z.to_nat i) x) j = if j =? i then Ok x else get l j.
Proof.
  intros Hi Hj. unfold get. replace (j <? 0) with false by lia. cbv zeta. replace (j <? 0) with false by lia.
  destruct (Z.eqb_spec j i) as [->|N].
  - rewrite nth_error_upd_same by (unfold zlen in Hi; lia). reflexivity.
  - rewrite nth_error_upd_other by lia. reflexivity.
Qed.
Lemma zlen_upd {A} (l : list A) n x : zlen (upd l n x) = zlen l.
Proof. unfold zlen. f_equal. revert n. induction l as [|y l IH]; intros [|n]; cbn [upd length]; [reflexivity|reflexivity|reflexivity|rewrite IH; reflexivity]. Qed.
Lemma writes_inv : forall ps d d', Forall (fun p => 0 <= p) ps -> foldM wr d ps = Ok d' ->
  zlen d' = zlen d /\ (forall p, In p ps -> holds d' p /\ p < zlen d) /\ (forall p, 0 <= p -> holds d p -> holds d' p).
Proof.
  induction ps as [|q ps IH]; intros d d' F H; cbn [foldM] in H.
  - injection H as <-. split; [reflexivity|]. split; [intros p []|auto].
  - inversion F as [|? ? F1 F2]; subst. apply bind_ok in H as (d1 & H1 & H). apply wr_ok in H1 as (c & Hc & L & ->); [|assumption].
    apply IH in H as (I1 & I2 & I3); [|assumption]. rewrite zlen_upd in *. split; [exact I1|].
    assert (K : forall p, 0 <= p -> holds d p -> holds (upd d (Z.to_nat q) (Some c)) p).
    { intros p Hp (c' & E1 & E2). exists c'. split; [exact E1|]. rewrite get_upd by lia. destruct (Z.eqb_spec p q) as [->|]; [congruence|exact E2]. }
    split; [|intros p Hp Hh; apply I3, K; assumption].
    intros p [<-|Hp]; [|apply I2, Hp]. split; [|exact L]. apply I3; [assumption|]. exists c. split; [exact Hc|]. rewrite get_upd by lia. rewrite Z.eqb_refl. reflexivity.
Qed.
Lemma writes_total : forall ps d, (forall p, In p ps -> 0 <= p < zlen d /\ exists c, f p = Ok c) -> exists d', foldM wr d ps = Ok d'.
Proof.
  induction ps as [|q ps IH]; intros d H; cbn [foldM]; [eauto|]. destruct (H q (or_introl eq_refl)) as (L & c & Hc). unfold wr at 1. rewrite Hc. cbn [bind].
  assert (E : setl d q (Some c) = Ok (upd d (Z.to_nat q) (Some c))). { unfold setl. replace (q <? 0) with false by lia. cbv zeta. replace (q <? 0) with false by lia. replace (zlen d <=? q) with false by lia. reflexivity. }
  rewrite E. cbn [bind]. apply IH. intros p Hp. rewrite zlen_upd. apply H. right. exact Hp.
Qed.
(** a loop over the grid is a list of writes *)
Lemma loop_writes {S} (step : S -> Z * Z -> res S) (mk : pixels -> Z -> S) (P : Z * Z -> list Z) (C : Z -> Z * Z -> Prop) :
  (forall d j yx, C j yx -> oke (step (mk d j) yx) (d' <- foldM wr d (P yx) ;; Ok (mk d' (j + 1)))) ->
  forall l j d, (forall i yx, nth_error l i = Some yx -> C (j + Z.of_nat i) yx) ->
  oke (foldM step (mk d j) l) (d' <- foldM wr d (flat_map P l) ;; Ok (mk d' (j + zlen l))).
Proof.
  intros HS. induction l as [|yx l IH]; intros j d HC; cbn [foldM flat_map].
  - cbn [bind]. change (zlen []) with 0. rewrite Z.add_0_r. apply oke_refl.
  - rewrite foldM_app. rewrite bind_assoc_. eapply oke_trans.
    + apply oke_bind; [apply HS; specialize (HC O yx eq_refl); rewrite Z.add_0_r in HC; exact HC|intros x _; apply oke_refl].
    + rewrite bind_assoc_. apply oke_bind; [apply oke_refl|]. intros d1 _. cbn [bind].
      replace (j + zlen (yx :: l)) with (j + 1 + zlen l) by (rewrite zlen_cons; lia). apply IH.
      intros i yx' E. replace (j + 1 + Z.of_nat i) with (j + Z.of_nat (Datatypes.S i)) by lia. apply HC. exact E.
Qed.
End Writes.

(** ** the grid *)
Lemma nth_flat {A B} (g : A -> list B) (n : Z) : forall l, (forall x, In x l -> zlen (g x) = n) -> 0 < n ->
  forall i y, nth_error (flat_map g l) i = Some y -> exists x, nth_error l (Z.to_nat (Z.of_nat i / n)) = Some x /\ nth_error (g x) (Z.to_nat (Z.of_nat i mod n)) = Some y.
Proof.
  induction l as [|x l IH]; intros H N i y E; cbn [flat_map] in E; [destruct i; discriminate|].
  assert (L : zlen (g x) = n) by (apply H; left; reflexivity). destruct (Z.ltb_spec (Z.of_nat i) n) as [Lt|Ge].
  - rewrite nth_error_app1 in E by (unfold zlen in L; lia). rewrite Z.div_small, Z.mod_small by lia. exists x. split; [reflexivity|]. rewrite Nat2Z.id. exact E.
  - rewrite nth_error_app2 in E by (unfold zlen in L; lia). apply IH in E as (x' & E1 & E2); [|intros; apply H; right; assumption|assumption].
    assert (R : Z.of_nat (i - length (g x)) = Z.of_nat i - 1 * n) by (unfold zlen in L; lia). rewrite R in E1, E2.
    exists x'. replace (Z.of_nat i - 1 * n) with (Z.of_nat i + (-1) * n) in E1, E2 by lia. rewrite Z.div_add in E1 by lia. rewrite Z.mod_add in E2 by lia. split; [|exact E2].
    assert (1 <= Z.of_nat i / n) by (apply Z.div_le_lower_bound; lia). replace (Z.to_nat (Z.of_nat i / n)) with (Datatypes.S (Z.to_nat (Z.of_nat i / n + -1))) by lia. exact E1.
Qed.
Lemma zlen_steps n s : 0 <= n -> 0 < s -> n mod s = 0 -> zlen (steps n s) = n / s.
Proof. intros H1 H2 H3. unfold steps. rewrite zlen_map, zlen_range_z. rewrite Z2Nat.id by (apply Z.div_pos; lia). apply Z.mod_divide in H3 as [k ->]; [|lia]. replace (k * s + s - 1) with (s - 1 + k * s) by lia. rewrite Z.div_add, Z.div_mul by lia. rewrite Z.div_small; lia. Qed.
Lemma nth_steps n s i x : 0 < s -> nth_error (steps n s) i = Some x -> x = Z.of_nat i * s.
Proof.
  intros S H. unfold steps in H. rewrite nth_error_map in H. destruct (nth_error (range_z _ _) i) eqn:E; [|discriminate]. injection H as <-.
  assert (L : (i < Z.to_nat ((n + s - 1) / s))%nat). { assert (i < length (range_z 0 (Z.to_nat ((n + s - 1) / s))))%nat by (apply nth_error_Some; congruence). pose proof (zlen_range_z 0 (Z.to_nat ((n + s - 1) / s))) as L. unfold zlen in L. lia. }
  rewrite nth_error_range_z in E by exact L. injection E as <-. lia.
Qed.
Lemma in_steps n s x : 0 <= n -> 0 < s -> n mod s = 0 -> In x (steps n s) <-> exists i, 0 <= i < n / s /\ x = i * s.
Proof.
  intros H1 H2 H3. pose proof (zlen_steps n s H1 H2 H3) as L. unfold steps in *. rewrite zlen_map, zlen_range_z in L. rewrite in_map_iff. split.
  - intros (i & <- & H). apply in_range_z in H. exists i. split; [lia|reflexivity].
  - intros (i & H & ->). exists i. split; [reflexivity|]. apply in_range_z. lia.
Qed.
Lemma nth_grid h ys w xs : 0 < w -> 0 < ys -> 0 < xs -> w mod xs = 0 -> forall i yx, nth_error (grid h ys w xs) i = Some yx ->
  fst yx = ys * (Z.of_nat i / (w / xs)) /\ snd yx = xs * (Z.of_nat i mod (w / xs)).
Proof.
  intros W Y X M i yx E. assert (Q : 0 < w / xs) by (apply Z.mod_divide in M as [k ->]; [|lia]; rewrite Z.div_mul by lia; nia).
  unfold grid in E. apply (nth_flat _ (w / xs)) in E as (y & E1 & E2); [|intros; rewrite zlen_map; apply zlen_steps; lia|exact Q].
  rewrite nth_error_map in E2. destruct (nth_error (steps w xs) _) as [x|] eqn:E; [|discriminate]. injection E2 as <-. apply nth_steps in E1; [|assumption]. apply nth_steps in E; [|assumption]. cbn [fst snd].
  assert (0 <= Z.of_nat i / (w / xs)) by (apply Z.div_pos; lia). pose proof (Z.mod_pos_bound (Z.of_nat i) _ Q). rewrite Z2Nat.id in E1, E by lia. lia.
Qed.
Lemma in_grid h ys w xs y x : 0 <= h -> 0 <= w -> 0 < ys -> 0 < xs -> h mod ys = 0 -> w mod xs = 0 ->
  In (y, x) (grid h ys w xs) <-> exists i j, 0 <= i < h / ys /\ 0 <= j < w / xs /\ y = i * ys /\ x = j * xs.
Proof.
  intros H1 H2 H3 H4 H5 H6. unfold grid. rewrite in_flat_map. split.
  - intros (y' & A & B). apply in_map_iff in B as (x' & E & B). injection E as <- <-. apply in_steps in A as (i & A & ->); try assumption. apply in_steps in B as (j & B & ->); try assumption. exists i, j. auto.
  - intros (i & j & A & B & -> & ->). exists (i * ys). split; [apply in_steps; try assumption; eauto|]. apply in_map_iff. exists (j * xs). split; [reflexivity|]. apply in_steps; try assumption; eauto.
Qed.

(** ** reading *)
Definition from (data : bytes) (j : Z) : bytes := skipn (Z.to_nat j) data.
Lemma next_from data j : 0 <= j -> next_ (from data j) = match get data j with Ok v => Ok (v, from data (j + 1)) | Err _ => Err StopIteration end.
Proof.
  intros H. unfold get. replace (j <? 0) with false by lia. cbv zeta. replace (j <? 0) with false by lia. unfold from. replace (Z.to_nat (j + 1)) with (S (Z.to_nat j)) by lia.
  generalize (Z.to_nat j). clear. intros n. revert data. induction n as [|n IH]; intros [|x l]; cbn [skipn nth_error next_]; try reflexivity. rewrite IH. destruct l; reflexivity.
Qed.
Definition u16s (pal : list Z) : Prop := Forall (fun v => 0 <= v < 65536) pal.
Lemma lut_rgb v dest pos a : 0 <= v < 65536 -> (c <- lut_get (PInt v) ;; plot dest pos c a) = setl dest pos (Some (rgb v a)).
Proof.
  intros H. unfold lut_get. replace (v <? - 0x10000) with false by lia. replace (v >=? 0x10000) with false by lia. cbn [orb bind]. replace (v <? 0) with false by lia.
  change (lut_unpacked v) with (unpack v). rewrite unpack_div. reflexivity.
Qed.
Lemma pal_int pal i : pal_get (Some (map PInt pal)) i = (c <- get pal i ;; Ok (PInt c)).
Proof. unfold pal_get, get. cbv zeta. rewrite zlen_map. destruct (_ <? 0) eqn:E; [reflexivity|]. rewrite nth_error_map. destruct (nth_error pal _); reflexivity. Qed.
Lemma get_all {A} (P : A -> Prop) l i v : Forall P l -> get l i = Ok v -> P v.
Proof. intros F H. unfold get in H. cbv zeta in H. destruct (_ <? 0) eqn:E in H; [discriminate|]. destruct (nth_error l _) eqn:N; [|discriminate]. injection H as <-. rewrite Forall_forall in F. apply F. eapply nth_error_In, N. Qed.
Lemma pal_step (pal : list Z) i (k : pcolor -> res pixels) : (color <- pal_get (Some (map PInt pal)) i ;; k color) = (c <- get pal i ;; k (PInt c)).
Proof. rewrite pal_int, bind_assoc_. reflexivity. Qed.

Lemma land3 v : Z.land v 3 = v mod 4.
Proof. exact (land_mask v 2 ltac:(lia)). Qed.
Lemma land7 v : Z.land v 7 = v mod 8.
Proof. exact (land_mask v 3 ltac:(lia)). Qed.
Lemma land15 v : Z.land v 15 = v mod 16.
Proof. exact (land_mask v 4 ltac:(lia)). Qed.

(** ** the formats in row order *)
Section Rows.
Context (d1 d2 : bytes) (w : Z) (pal : list Z) (c0 : bool) (W : 0 < w) (B1 : is_bytes d1) (PV : u16s pal).
Definition fpix (fmt p : Z) : res color := pixel fmt d1 d2 w pal c0 (p mod w) (p / w).
Lemma lin p : p / w * w + p mod w = p.
Proof. rewrite Z.mul_comm. symmetry. apply Z.div_mod. lia. Qed.
Lemma modmod p k : 0 < k -> w mod k = 0 -> (p mod w) mod k = p mod k.
Proof. intros K M. apply Z.mod_divide in M as [q ->]; [|lia]. rewrite (Z.div_mod p (q * k)) at 2 by lia. rewrite (Z.mul_comm (q * k)), Z.mul_assoc, Z.add_comm, Z.mod_add by lia. reflexivity. Qed.
Definition rowpos (xs : Z) (yx : Z * Z) : list Z := range_z (fst yx * w + snd yx) (Z.to_nat xs).
Definition rowc (xs j : Z) (yx : Z * Z) : Prop := 0 <= j /\ fst yx * w + snd yx = xs * j.
Definition mk1 (n : Z) (d : pixels) (j : Z) : pixels * bytes := (d, from d1 (n * j)).
Notation colors := (Some (map PInt pal)).
Lemma byte_at i v : get d1 i = Ok v -> 0 <= v < 256.
Proof. exact (get_all is_byte d1 i v B1). Qed.
Lemma pal_at i v : get pal i = Ok v -> 0 <= v < 65536.
Proof. exact (get_all _ pal i v PV). Qed.
Lemma alpha_step fmt mask alpha n : (fmt = 1 /\ mask = 31 /\ alpha = alpha3 /\ n = 1) \/ (fmt = 6 /\ mask = 7 /\ alpha = alpha5 /\ n = 1) ->
  forall d j yx, rowc 1 j yx -> oke (step_alpha mask alpha w colors (mk1 1 d j) yx) (d' <- foldM (wr (fpix fmt)) d (rowpos 1 yx) ;; Ok (mk1 1 d' (j + 1))).
Proof.
  intros F d j yx [J E]. unfold rowpos, step_alpha, mk1. rewrite E. change (Z.to_nat 1) with 1%nat. cbn [range_z foldM fst snd]. rewrite next_from by lia. rewrite !bind_assoc_. unfold wr, fpix.
  assert (FX : pixel fmt d1 d2 w pal c0 ((1 * j) mod w) ((1 * j) / w) = (v <- get d1 (1 * j) ;; c <- get pal (Z.land v mask) ;; Ok (rgb c (alpha v)))).
  { destruct F as [(-> & -> & -> & ->)|(-> & -> & -> & ->)]; cbn [pixel]; rewrite lin.
    - destruct (get d1 (1 * j)) as [v|] eqn:G; [|reflexivity]. cbn [bind]. apply byte_at in G. rewrite land_31. destruct (get pal _); [|reflexivity]. cbn [bind]. unfold alpha3. rewrite Z.shiftr_div_pow2, Z.shiftr_div_pow2 by lia. change (2 ^ 5) with 32. change (2 ^ 1) with 2.
      rewrite Z.lor_comm. f_equal. f_equal. assert (0 <= v / 32 / 2 < 4) by lia. rewrite (lor_add (v / 32 / 2) (v / 32) 2) by (try change (2 ^ 2) with 4; lia). change (2 ^ 2) with 4. lia.
    - destruct (get d1 (1 * j)) as [v|] eqn:G; [|reflexivity]. cbn [bind]. rewrite land7. unfold alpha5. rewrite Z.shiftr_div_pow2 by lia. reflexivity. }
  rewrite FX. destruct (get d1 (1 * j)) as [v|] eqn:G; [|apply oke_err]. cbn [bind]. rewrite pal_int, !bind_assoc_. destruct (get pal (Z.land v mask)) as [c|] eqn:GP; [|apply oke_err]. cbn [bind].
  rewrite <- (lut_rgb c d (1 * j) (alpha v)) by (eapply pal_at, GP). rewrite !bind_assoc_. replace (1 * (j + 1)) with (1 * j + 1) by lia. destruct (lut_get (PInt c)) as [cc|]; cbn [bind]; [|apply oke_err].
  destruct (plot d (1 * j) cc (alpha v)); apply oke_refl.
Qed.
Lemma put_rgb d p i : put_index colors (if c0 then 0 else 31) d p i = (c <- indexed pal c0 i ;; setl d p (Some c)).
Proof.
  unfold put_index, indexed. rewrite pal_step, bind_assoc_. destruct (get pal i) as [c|] eqn:G; [|reflexivity]. cbn [bind]. rewrite lut_rgb by (eapply pal_at, G).
  destruct (i =? 0), c0; reflexivity.
Qed.
Lemma i8_step d j yx : rowc 1 j yx -> oke (step_i8 (if c0 then 0 else 31) w colors d1 d yx) (d' <- foldM (wr (fpix 4)) d (rowpos 1 yx) ;; Ok d').
Proof.
  intros [J E]. unfold step_i8, rowpos. rewrite E. change (Z.to_nat 1) with 1%nat. cbn [range_z foldM]. unfold wr, fpix. cbn [pixel]. rewrite lin, !bind_assoc_. destruct (get d1 (1 * j)); [|apply oke_err]. cbn [bind].
  rewrite put_rgb. destruct (indexed _ _ _); [|apply oke_err]. cbn [bind]. destruct (setl _ _ _); apply oke_refl.
Qed.
Lemma fpix2 p : w mod 4 = 0 -> fpix 2 p = (v <- get d1 (p / 4) ;; indexed pal c0 (v / 4 ^ (p mod 4) mod 4)).
Proof. intros M. unfold fpix. cbn [pixel]. rewrite lin, modmod by (lia || assumption). reflexivity. Qed.
Lemma fpix3 p : w mod 2 = 0 -> fpix 3 p = (v <- get d1 (p / 2) ;; indexed pal c0 (v / 16 ^ (p mod 2) mod 16)).
Proof. intros M. unfold fpix. cbn [pixel]. rewrite lin, modmod by (lia || assumption). reflexivity. Qed.
Lemma i2_step : w mod 4 = 0 -> forall d j yx, rowc 4 j yx -> oke (step_i2 (if c0 then 0 else 31) w colors (mk1 1 d j) yx) (d' <- foldM (wr (fpix 2)) d (rowpos 4 yx) ;; Ok (mk1 1 d' (j + 1))).
Proof.
  intros M d j yx [J E]. unfold step_i2, rowpos, mk1. rewrite E. change (Z.to_nat 4) with 4%nat. cbn [range_z foldM fst snd]. rewrite next_from by lia. rewrite !bind_assoc_. unfold wr. rewrite !fpix2 by assumption.
  replace (4 * j / 4) with j by lia. replace ((4 * j) mod 4) with 0 by lia. replace ((4 * j + 1) / 4) with j by lia. replace ((4 * j + 1) mod 4) with 1 by lia.
  replace ((4 * j + 1 + 1) / 4) with j by lia. replace ((4 * j + 1 + 1) mod 4) with 2 by lia. replace ((4 * j + 1 + 1 + 1) / 4) with j by lia. replace ((4 * j + 1 + 1 + 1) mod 4) with 3 by lia.
  replace (4 * j + 2) with (4 * j + 1 + 1) by lia. replace (4 * j + 3) with (4 * j + 1 + 1 + 1) by lia. replace (1 * (j + 1)) with (1 * j + 1) by lia. replace (1 * j) with j by lia.
  destruct (get d1 j) as [v|] eqn:G; [|apply oke_err]. cbn [bind]. apply byte_at in G.
  rewrite !land3. rewrite !Z.shiftr_div_pow2 by lia. change (2 ^ 2) with 4. change (2 ^ 4) with 16. change (2 ^ 6) with 64. change (4 ^ 0) with 1. change (4 ^ 1) with 4. change (4 ^ 2) with 16. change (4 ^ 3) with 64.
  replace (v / 1) with v by lia. replace (v / 64 mod 4) with (v / 64) by lia. rewrite put_rgb, !bind_assoc_. apply oke_bind; [apply oke_refl|]. intros a1 _. apply oke_bind; [apply oke_refl|]. intros e1 _.
  rewrite put_rgb, !bind_assoc_. apply oke_bind; [apply oke_refl|]. intros a2 _. apply oke_bind; [apply oke_refl|]. intros e2 _.
  rewrite put_rgb, !bind_assoc_. apply oke_bind; [apply oke_refl|]. intros a3 _. apply oke_bind; [apply oke_refl|]. intros e3 _.
  rewrite put_rgb, !bind_assoc_. apply oke_bind; [apply oke_refl|]. intros a4 _. apply oke_bind; [apply oke_refl|]. intros e4 _. apply oke_refl.
Qed.
Lemma i4_step : w mod 2 = 0 -> forall d j yx, rowc 2 j yx -> oke (step_i4 (if c0 then 0 else 31) w colors (mk1 1 d j) yx) (d' <- foldM (wr (fpix 3)) d (rowpos 2 yx) ;; Ok (mk1 1 d' (j + 1))).
Proof.
  intros M d j yx [J E]. unfold step_i4, rowpos, mk1. rewrite E. change (Z.to_nat 2) with 2%nat. cbn [range_z foldM fst snd]. rewrite next_from by lia. rewrite !bind_assoc_. unfold wr. rewrite !fpix3 by assumption.
  replace (2 * j / 2) with j by lia. replace ((2 * j) mod 2) with 0 by lia. replace ((2 * j + 1) / 2) with j by lia. replace ((2 * j + 1) mod 2) with 1 by lia. replace (1 * (j + 1)) with (1 * j + 1) by lia. replace (1 * j) with j by lia.
  destruct (get d1 j) as [v|] eqn:G; [|apply oke_err]. cbn [bind]. apply byte_at in G.
  rewrite !land15. rewrite !Z.shiftr_div_pow2 by lia. change (2 ^ 4) with 16. change (16 ^ 0) with 1. change (16 ^ 1) with 16. replace (v / 1) with v by lia. replace (v / 16 mod 16) with (v / 16) by lia.
  rewrite put_rgb, !bind_assoc_. apply oke_bind; [apply oke_refl|]. intros a1 _. apply oke_bind; [apply oke_refl|]. intros e1 _.
  rewrite put_rgb, !bind_assoc_. apply oke_bind; [apply oke_refl|]. intros a2 _. apply oke_bind; [apply oke_refl|]. intros e2 _. apply oke_refl.
Qed.
Lemma direct_step d j yx : rowc 1 j yx -> oke (step_direct w (mk1 2 d j) yx) (d' <- foldM (wr (fpix 7)) d (rowpos 1 yx) ;; Ok (mk1 2 d' (j + 1))).
Proof.
  intros [J E]. unfold step_direct, rowpos, mk1. rewrite E. change (Z.to_nat 1) with 1%nat. cbn [range_z foldM fst snd]. rewrite next_from by lia. rewrite !bind_assoc_. unfold wr, fpix. cbn [pixel]. rewrite lin. replace (2 * (1 * j)) with (2 * j) by lia.
  destruct (get d1 (2 * j)) as [lo|] eqn:G1; [|apply oke_err]. cbn [bind]. rewrite next_from by lia. rewrite !bind_assoc_. destruct (get d1 (2 * j + 1)) as [hi|] eqn:G2; [|apply oke_err]. cbn [bind]. apply byte_at in G1, G2.
  rewrite (lor_add lo hi 8) by (try change (2 ^ 8) with 256; lia). change (2 ^ 8) with 256. replace (2 * (j + 1)) with (2 * j + 1 + 1) by lia.
  assert (A : (c <- lut_get (PInt (lo + 256 * hi)) ;; plot d (1 * j) c (if truthy (ca c) then 31 else 0)) = setl d (1 * j) (Some (rgb (lo + 256 * hi) (if 128 <=? hi then 31 else 0)))).
  { unfold lut_get. replace (_ <? - 0x10000) with false by lia. replace (_ >=? 0x10000) with false by lia. cbn [orb bind]. replace (lo + 256 * hi <? 0) with false by lia.
    change (lut_unpacked (lo + 256 * hi)) with (unpack (lo + 256 * hi)). rewrite unpack_div. unfold plot. cbn [cr cg cb ca]. unfold rgb, truthy. do 4 f_equal.
    destruct (128 <=? hi) eqn:E8; [replace ((lo + 256 * hi) / 32768 mod 2) with 1 by lia|replace ((lo + 256 * hi) / 32768 mod 2) with 0 by lia]; reflexivity. }
  rewrite <- A, !bind_assoc_. destruct (lut_get _); cbn [bind]; [|apply oke_err]. destruct (plot _ _ _ _); apply oke_refl.
Qed.
End Rows.

(** ** the 4x4-block format *)
Lemma land_mid c n k m : 0 <= n -> 0 <= k -> m = 2 ^ n * (2 ^ k - 1) -> Z.land c m = 2 ^ n * (c / 2 ^ n mod 2 ^ k).
Proof.
  intros N K ->. assert (P : 0 < 2 ^ n) by (apply Z.pow_pos_nonneg; lia). rewrite <- land_mask by assumption. rewrite (Z.mul_comm (2 ^ n)), (Z.mul_comm (2 ^ n)). rewrite <- !Z.shiftl_mul_pow2 by assumption. rewrite Z.shiftl_land.
  rewrite (Z.div_mod c (2 ^ n)) at 1 by lia. rewrite Z.add_comm. pose proof (Z.mod_pos_bound c (2 ^ n) P) as R. rewrite <- lor_add by assumption. rewrite Z.land_lor_distr_l.
  rewrite land_shiftl_0 by assumption. reflexivity.
Qed.
Lemma div_swap k n m x : 0 < k -> 0 < m -> x = k * n -> x / m / k = n / m.
Proof. intros K M ->. rewrite Z.div_div by lia. rewrite (Z.mul_comm m k). rewrite <- Z.div_div by lia. rewrite (Z.mul_comm k), Z.div_mul by lia. reflexivity. Qed.
Lemma blend_mix a b sh v0 v1 : (a = 1 /\ b = 1 /\ sh = 1) \/ (a = 5 /\ b = 3 /\ sh = 3) \/ (a = 3 /\ b = 5 /\ sh = 3) ->
  0 <= blend a b sh v0 v1 < 32768 /\ rgb (blend a b sh v0 v1) 31 = mix a b (2 ^ sh) v0 v1.
Proof.
  intros H. unfold blend. rewrite !land_31. rewrite !(land_mid _ 5 5 0x3E0) by (try lia; reflexivity). rewrite !(land_mid _ 10 5 0x7C00) by (try lia; reflexivity).
  change (2 ^ 10) with 1024. change (2 ^ 5) with 32. rewrite !Z.shiftr_div_pow2 by lia. unfold mix.
  assert (R0 : 0 <= v0 mod 32 < 32) by lia. assert (G0 : 0 <= v0 / 32 mod 32 < 32) by lia. assert (B0 : 0 <= v0 / 1024 mod 32 < 32) by lia.
  assert (R1 : 0 <= v1 mod 32 < 32) by lia. assert (G1 : 0 <= v1 / 32 mod 32 < 32) by lia. assert (B1 : 0 <= v1 / 1024 mod 32 < 32) by lia.
  revert R0 G0 B0 R1 G1 B1. generalize (v0 mod 32) (v0 / 32 mod 32) (v0 / 1024 mod 32) (v1 mod 32) (v1 / 32 mod 32) (v1 / 1024 mod 32). intros r0 g0 b0 r1 g1 b1 R0 G0 B0 R1 G1 B1.
  assert (K : forall r g bl, 0 <= r < 32 -> 0 <= g < 32 -> 0 <= bl < 32 -> Z.lor (Z.lor r (32 * g)) (1024 * bl) = r + 32 * g + 1024 * bl).
  { intros r g bl Hr Hg Hb. replace (32 * g) with (Z.shiftl g 5) by (rewrite Z.shiftl_mul_pow2 by lia; lia). rewrite (lor_add r g 5) by (try change (2 ^ 5) with 32; lia). change (2 ^ 5) with 32.
    replace (1024 * bl) with (Z.shiftl bl 10) by (rewrite Z.shiftl_mul_pow2 by lia; lia). rewrite (lor_add _ bl 10) by (try change (2 ^ 10) with 1024; lia). change (2 ^ 10) with 1024. rewrite !Z.shiftl_mul_pow2 by lia. change (2 ^ 5) with 32. change (2 ^ 10) with 1024. lia. }
  assert (Q : exists r g bl, 0 <= r < 32 /\ 0 <= g < 32 /\ 0 <= bl < 32 /\ (r0 * a + r1 * b) / 2 ^ sh = r /\ ((32 * g0 * a + 32 * g1 * b) / 2 ^ sh) / 32 mod 32 = g /\ ((1024 * b0 * a + 1024 * b1 * b) / 2 ^ sh) / 1024 mod 32 = bl /\
    (a * r0 + b * r1) / 2 ^ sh = r /\ (a * g0 + b * g1) / 2 ^ sh = g /\ (a * b0 + b * b1) / 2 ^ sh = bl).
  { exists ((a * r0 + b * r1) / 2 ^ sh), ((a * g0 + b * g1) / 2 ^ sh), ((a * b0 + b * b1) / 2 ^ sh).
    assert (PS : 0 < 2 ^ sh) by (apply Z.pow_pos_nonneg; lia). rewrite (div_swap 32 (a * g0 + b * g1)), (div_swap 1024 (a * b0 + b * b1)) by (assumption || lia).
    clear K. destruct H as [(-> & -> & ->)|[(-> & -> & ->)|(-> & -> & ->)]]; [change (2 ^ 1) with 2|change (2 ^ 3) with 8|change (2 ^ 3) with 8]; repeat split; try reflexivity; lia. }
  destruct Q as (r & g & bl & Hr & Hg & Hb & -> & -> & -> & -> & -> & ->). rewrite K by assumption. split; [lia|]. unfold rgb. f_equal; clear - Hr Hg Hb; lia.
Qed.
Section Blocks.
Context (d1 d2 : bytes) (w : Z) (pal : list Z) (c0 : bool) (W : 0 < w) (M : w mod 4 = 0) (B1 : is_bytes d1) (B2 : is_bytes d2) (PV : u16s pal).
Notation colors := (Some (map PInt pal)).
Lemma put_texel_ok po md d p sub : 0 <= md < 4 -> 0 <= sub < 4 -> put_texel colors po md d p sub = (c <- texel_color pal po md sub ;; setl d p (Some c)).
Proof.
  intros Hm Hs. unfold put_texel.
  assert (DIR : forall i, (o <- (c <- pal_get colors i ;; Ok (Some c)) ;; match o with None => plot d p (C4 0 0 0 0) 0 | Some color => c <- lut_get color ;; plot d p c 31 end) = (c <- (c <- get pal i ;; Ok (rgb c 31)) ;; setl d p (Some c))).
  { intros i. rewrite pal_int, !bind_assoc_. destruct (get pal i) eqn:G; [|reflexivity]. cbn [bind]. apply lut_rgb. exact (get_all _ _ _ _ PV G). }
  assert (MIX : forall a b sh n, (a = 1 /\ b = 1 /\ sh = 1) \/ (a = 5 /\ b = 3 /\ sh = 3) \/ (a = 3 /\ b = 5 /\ sh = 3) -> n = 2 ^ sh ->
     (o <- (c <- blend_of colors po a b sh ;; Ok (Some c)) ;; match o with None => plot d p (C4 0 0 0 0) 0 | Some color => c <- lut_get color ;; plot d p c 31 end) = (c <- (c0 <- get pal po ;; c1 <- get pal (po + 1) ;; Ok (mix a b n c0 c1)) ;; setl d p (Some c))).
  { intros a b sh n Hc ->. unfold blend_of. rewrite !pal_int, !bind_assoc_. destruct (get pal po) as [v0|] eqn:G0; [|reflexivity]. cbn [bind]. rewrite !bind_assoc_. destruct (get pal (po + 1)) as [v1|] eqn:G1; [|reflexivity]. cbn [bind as_int].
    destruct (blend_mix a b sh v0 v1 Hc) as [R E]. rewrite lut_rgb by lia. rewrite E. reflexivity. }
  assert (HS : sub = 0 \/ sub = 1 \/ sub = 2 \/ sub = 3) by lia. assert (HM : md = 0 \/ md = 1 \/ md = 2 \/ md = 3) by lia.
  destruct HS as [->|[->|[->| ->]]], HM as [->|[->|[->| ->]]]; unfold texel, texel_color; cbn [Z.ltb Z.eqb Z.compare Pos.compare Pos.compare_cont Pos.eqb]; cbv zeta; try apply DIR; try (apply MIX; [tauto|reflexivity]); reflexivity.
Qed.
Definition blkpos (yx : Z * Z) : list Z := flat_map (fun sy => map (fun sx => (fst yx + sy) * w + snd yx + sx) (range_z 0 4)) (range_z 0 4).
Definition blkc (j : Z) (yx : Z * Z) : Prop := 0 <= j /\ fst yx = 4 * (j / (w / 4)) /\ snd yx = 4 * (j mod (w / 4)).
Definition mk2 (d : pixels) (j : Z) : pixels * bytes * bytes := (d, from d1 (4 * j), from d2 (2 * j)).
Lemma fpix5 j y x sy sx : blkc j (y, x) -> 0 <= sy < 4 -> 0 <= sx < 4 ->
  fpix d1 d2 w pal c0 5 ((y + sy) * w + x + sx) =
  (lo <- get d2 (2 * j) ;; hi <- get d2 (2 * j + 1) ;; v <- get d1 (4 * j + sy) ;; texel_color pal (2 * ((lo + 256 * hi) mod 16384)) (hi / 64) (v / 4 ^ sx mod 4)).
Proof.
  intros (J & EY & EX) SY SX. cbn [fst snd] in *. apply Z.mod_divide in M as [q Eq]; [|lia]. assert (Q : 0 < q) by lia. assert (E4 : w / 4 = q) by (rewrite Eq; apply Z.div_mul; lia). rewrite E4 in *.
  pose proof (Z.mod_pos_bound j q Q) as MB. pose proof (Z.div_mod j q ltac:(lia)) as DM. assert (D0 : 0 <= j / q) by (apply Z.div_pos; lia). 
  set (a := j / q) in *. set (b := j mod q) in *. clearbody a b. subst j.
  assert (X1 : ((y + sy) * w + x + sx) mod w = x + sx). { replace ((y + sy) * w + x + sx) with (x + sx + (y + sy) * w) by lia. rewrite Z.mod_add by lia. apply Z.mod_small. nia. }
  assert (Y1 : ((y + sy) * w + x + sx) / w = y + sy). { replace ((y + sy) * w + x + sx) with (x + sx + (y + sy) * w) by lia. rewrite Z.div_add by lia. rewrite Z.div_small by nia. lia. }
  unfold fpix. cbn [pixel]. rewrite X1, Y1, E4. subst x y. replace ((4 * a + sy) / 4) with a by (clear - SY; lia). replace ((4 * a + sy) mod 4) with sy by (clear - SY; lia).
  replace ((4 * b + sx) / 4) with b by (clear - SX; lia). replace ((4 * b + sx) mod 4) with sx by (clear - SX; lia). replace (a * q + b) with (q * a + b) by lia. reflexivity.
Qed.
Lemma row_step j y x lo hi v2 d sy : blkc j (y, x) -> 0 <= sy < 4 -> get d2 (2 * j) = Ok lo -> get d2 (2 * j + 1) = Ok hi -> v2 = lo + 256 * hi ->
  oke (step_texrow w colors (Z.land v2 0x3FFF * 2) (Z.shiftr v2 14) (y, x) (d, from d1 (4 * j + sy)) sy)
      (d' <- foldM (wr (fpix d1 d2 w pal c0 5)) d (map (fun sx => (y + sy) * w + x + sx) (range_z 0 4)) ;; Ok (d', from d1 (4 * j + sy + 1))).
Proof.
  intros C SY G1 G2 EV. pose proof C as (J & _). unfold step_texrow. cbn [fst snd]. rewrite next_from by lia. 
  assert (R1 : 0 <= lo < 256) by exact (get_all is_byte d2 _ _ B2 G1). assert (R2 : 0 <= hi < 256) by exact (get_all is_byte d2 _ _ B2 G2).
  replace (Z.land v2 0x3FFF * 2) with (2 * ((lo + 256 * hi) mod 16384)) by (rewrite (land_mask v2 14 ltac:(lia) : Z.land v2 0x3FFF = v2 mod 16384); subst v2; lia).
  replace (Z.shiftr v2 14) with (hi / 64) by (rewrite Z.shiftr_div_pow2 by lia; change (2 ^ 14) with 16384; subst v2; lia).
  change (range_z 0 4) with [0; 1; 2; 3]. cbn [map foldM]. unfold wr. rewrite !(fpix5 j) by (assumption || lia). rewrite G1, G2. cbn [bind].
  destruct (get d1 (4 * j + sy)) as [v|] eqn:G; [|apply oke_err]. cbn [bind]. rewrite !land3, !Z.shiftr_div_pow2 by lia.
  change (2 ^ (2 * 0)) with (4 ^ 0). change (2 ^ (2 * 1)) with (4 ^ 1). change (2 ^ (2 * 2)) with (4 ^ 2). change (2 ^ (2 * 3)) with (4 ^ 3). rewrite !bind_assoc_.
  rewrite put_texel_ok by (clear - R1 R2; lia). rewrite !bind_assoc_. apply oke_bind; [apply oke_refl|]. intros a1 _. apply oke_bind; [apply oke_refl|]. intros e1 _. rewrite !bind_assoc_.
  rewrite put_texel_ok by (clear - R1 R2; lia). rewrite !bind_assoc_. apply oke_bind; [apply oke_refl|]. intros a2 _. apply oke_bind; [apply oke_refl|]. intros e2 _. rewrite !bind_assoc_.
  rewrite put_texel_ok by (clear - R1 R2; lia). rewrite !bind_assoc_. apply oke_bind; [apply oke_refl|]. intros a3 _. apply oke_bind; [apply oke_refl|]. intros e3 _. rewrite !bind_assoc_.
  rewrite put_texel_ok by (clear - R1 R2; lia). rewrite !bind_assoc_. apply oke_bind; [apply oke_refl|]. intros a4 _. apply oke_bind; [apply oke_refl|]. intros e4 _. apply oke_refl.
Qed.
Lemma blk_step d j yx : blkc j yx -> oke (step_texblock w colors (mk2 d j) yx) (d' <- foldM (wr (fpix d1 d2 w pal c0 5)) d (blkpos yx) ;; Ok (mk2 d' (j + 1))).
Proof.
  intros C. pose proof C as (J & _). destruct yx as [y x]. unfold step_texblock, mk2. rewrite next_from by lia.
  destruct (get d2 (2 * j)) as [lo|] eqn:G1.
  2:{ cbn [bind]. unfold blkpos. cbn [range_z flat_map map app foldM fst snd]. unfold wr at 1. rewrite (fpix5 j) by (assumption || lia). rewrite G1. apply oke_err. }
  cbn [bind]. rewrite next_from by lia. destruct (get d2 (2 * j + 1)) as [hi|] eqn:G2.
  2:{ cbn [bind]. unfold blkpos. cbn [range_z flat_map map app foldM fst snd]. unfold wr at 1. rewrite (fpix5 j) by (assumption || lia). rewrite G1, G2. apply oke_err. }
  cbn [bind]. assert (R1 : 0 <= lo < 256) by exact (get_all is_byte d2 _ _ B2 G1). rewrite (lor_add lo hi 8) by (try change (2 ^ 8) with 256; lia). change (2 ^ 8) with 256.
  unfold blkpos. change (range_z 0 4) with [0; 1; 2; 3] at 1. change (flat_map ?f (range_z 0 4)) with (f 0 ++ f 1 ++ f 2 ++ f 3 ++ []). cbv beta. rewrite app_nil_r. cbn [foldM fst snd]. rewrite !foldM_app, !bind_assoc_.
  pose proof (fun d sy Hs => row_step j y x lo hi (lo + 256 * hi) d sy C Hs G1 G2 eq_refl) as RS. 
  assert (RS' : forall d sy n n', 0 <= sy < 4 -> n = 4 * j + sy -> n' = n + 1 -> oke (step_texrow w colors (Z.land (lo + 256 * hi) 0x3FFF * 2) (Z.shiftr (lo + 256 * hi) 14) (y, x) (d, from d1 n) sy)
      (d' <- foldM (wr (fpix d1 d2 w pal c0 5)) d (map (fun sx => (y + sy) * w + x + sx) (range_z 0 4)) ;; Ok (d', from d1 n'))) by (intros d' sy n n' Hs -> ->; apply RS, Hs).
  eapply oke_trans; [apply oke_bind; [apply (RS' _ _ _ (4 * j + 1)); lia|intros; apply oke_refl]|]. rewrite !bind_assoc_. apply oke_bind; [apply oke_refl|]. intros e1 _. cbn [bind]. rewrite ?foldM_app, !bind_assoc_.
  eapply oke_trans; [apply oke_bind; [apply (RS' _ _ _ (4 * j + 2)); lia|intros; apply oke_refl]|]. rewrite !bind_assoc_. apply oke_bind; [apply oke_refl|]. intros e2 _. cbn [bind]. rewrite ?foldM_app, !bind_assoc_.
  eapply oke_trans; [apply oke_bind; [apply (RS' _ _ _ (4 * j + 3)); lia|intros; apply oke_refl]|]. rewrite !bind_assoc_. apply oke_bind; [apply oke_refl|]. intros e3 _. cbn [bind]. rewrite ?foldM_app, !bind_assoc_.
  eapply oke_trans; [apply oke_bind; [apply (RS' _ _ _ (4 * j + 4)); lia|intros; apply oke_refl]|]. rewrite !bind_assoc_. apply oke_bind; [apply oke_refl|]. intros e4 _. cbn [bind].
  replace (2 * j + 1 + 1) with (2 * (j + 1)) by lia. replace (4 * j + 4) with (4 * (j + 1)) by lia. apply oke_refl.
Qed.
End Blocks.

(** ** the whole image *)
Definition image (f : Z -> res color) (r : res pixels) (n : Z) : Prop :=
  (forall d, r = Ok d -> zlen d = n /\ forall p, 0 <= p < n -> holds f d p) /\ ((forall p, 0 <= p < n -> exists c, f p = Ok c) -> exists d, r = Ok d).
Lemma finish f r ps n : oke r (foldM (wr f) (rep None n) ps) -> 0 <= n -> (forall p, In p ps <-> 0 <= p < n) -> image f r n.
Proof.
  intros O N I. split.
  - intros d H. apply O in H. apply writes_inv in H as (L & A & _); [|apply Forall_forall; intros p Hp; apply I in Hp; lia]. rewrite zlen_rep in L by lia. split; [exact L|]. intros p Hp. apply A, I, Hp.
  - intros H. destruct (writes_total f ps (rep None n)) as (d & E); [|exists d; apply O, E]. intros p Hp. apply I in Hp. rewrite zlen_rep by lia. split; [exact Hp|apply H, Hp].
Qed.
Lemma fst_loop f {S} (step : S -> Z * Z -> res S) (out : S -> pixels) (mk : pixels -> Z -> S) P (C : Z -> Z * Z -> Prop) : (forall d j, out (mk d j) = d) ->
  (forall d j yx, C j yx -> oke (step (mk d j) yx) (d' <- foldM (wr f) d (P yx) ;; Ok (mk d' (j + 1)))) ->
  forall l d, (forall i yx, nth_error l i = Some yx -> C (Z.of_nat i) yx) ->
  oke (s <- foldM step (mk d 0) l ;; Ok (out s)) (foldM (wr f) d (flat_map P l)).
Proof.
  intros HO HS l d HC. eapply oke_trans; [apply oke_bind; [apply (loop_writes f step mk P C HS l 0 d); intros i yx E; exact (HC i yx E)|intros; apply oke_refl]|].
  rewrite bind_assoc_. cbn [bind].
  destruct (foldM _ _ _); cbn [bind]; [rewrite HO|]; apply oke_refl.
Qed.
Lemma row_cover w h xs p : 0 < w -> 0 <= h -> 0 < xs -> w mod xs = 0 -> In p (flat_map (rowpos w xs) (grid h 1 w xs)) <-> 0 <= p < w * h.
Proof.
  intros W H X M. rewrite in_flat_map. apply Z.mod_divide in M as [q Eq]; [|lia]. assert (Q : 0 < q) by nia. assert (E : w / xs = q) by (rewrite Eq; apply Z.div_mul; lia). split.
  - intros ((y & x) & I & R). apply in_grid in I as (i & j & I & J & -> & ->); try lia; try (rewrite Eq; apply Z.mod_mul; lia). rewrite E, Z.div_1_r in *.
    unfold rowpos in R. cbn [fst snd] in R. apply in_range_z in R. rewrite Z2Nat.id in R by lia. split; [nia|]. assert ((i + 1) * w <= w * h) by nia. assert ((j + 1) * xs <= w) by nia. lia.
  - intros R. pose proof (Z.mod_pos_bound p w W) as MB. assert (D : 0 <= p / w < h) by (split; [apply Z.div_pos; lia|apply Z.div_lt_upper_bound; lia]). pose proof (Z.div_mod p w ltac:(lia)) as DM.
    set (r := p mod w) in *. pose proof (Z.mod_pos_bound r xs X) as MR. pose proof (Z.div_mod r xs ltac:(lia)) as DR.
    exists (p / w * 1, r / xs * xs). split.
    + apply in_grid; try lia; try (rewrite Eq; apply Z.mod_mul; lia). exists (p / w), (r / xs). rewrite E, Z.div_1_r. split; [lia|]. split; [|auto]. split; [apply Z.div_pos; lia|apply Z.div_lt_upper_bound; lia].
    + unfold rowpos. cbn [fst snd]. apply in_range_z. rewrite Z2Nat.id by lia. lia.
Qed.
Lemma row_c w h xs : 0 < w -> 0 < xs -> w mod xs = 0 -> forall i yx, nth_error (grid h 1 w xs) i = Some yx -> rowc w xs (Z.of_nat i) yx.
Proof.
  intros W X M i yx E. apply nth_grid in E as [E1 E2]; try assumption; [|lia]. unfold rowc. split; [lia|]. rewrite E1, E2. apply Z.mod_divide in M as [q Eq]; [|lia]. assert (Q : 0 < q) by nia. assert (E : w / xs = q) by (rewrite Eq; apply Z.div_mul; lia). rewrite E.
  rewrite (Z.div_mod (Z.of_nat i) q) at 3 by lia. subst w. ring.
Qed.
Lemma blk_cover w h p : 0 < w -> 0 <= h -> w mod 4 = 0 -> h mod 4 = 0 -> In p (flat_map (blkpos w) (grid h 4 w 4)) <-> 0 <= p < w * h.
Proof.
  intros W H M MH. rewrite in_flat_map. apply Z.mod_divide in M as [q Eq]; [|lia]. assert (Q : 0 < q) by nia. assert (E : w / 4 = q) by (rewrite Eq; apply Z.div_mul; lia).
  apply Z.mod_divide in MH as [g Eg]; [|lia]. assert (EG : h / 4 = g) by (rewrite Eg; apply Z.div_mul; lia). split.
  - intros ((y & x) & I & R). apply in_grid in I as (i & j & I & J & -> & ->); try lia. rewrite E, EG in *. unfold blkpos in R. cbn [fst snd] in R. apply in_flat_map in R as (sy & SY & R). apply in_map_iff in R as (sx & <- & SX). apply in_range_z in SY, SX.
    assert ((i * 4 + sy + 1) * w <= w * h) by nia. nia.
  - intros R. pose proof (Z.mod_pos_bound p w W) as MB. assert (D : 0 <= p / w < h) by (split; [apply Z.div_pos; lia|apply Z.div_lt_upper_bound; lia]). pose proof (Z.div_mod p w ltac:(lia)) as DM.
    set (r := p mod w) in *. set (y := p / w) in *. clearbody r y.
    exists (y / 4 * 4, r / 4 * 4). split.
    + apply in_grid; try lia. exists (y / 4), (r / 4). rewrite E, EG. subst w h. clear - D MB. lia.
    + unfold blkpos. cbn [fst snd]. apply in_flat_map. exists (y mod 4). split; [apply in_range_z; clear; lia|]. apply in_map_iff. exists (r mod 4). split; [|apply in_range_z; clear; lia].
      replace (y / 4 * 4 + y mod 4) with y by (clear; lia). rewrite <- Z.add_assoc. replace (r / 4 * 4 + r mod 4) with r by (clear; lia). lia.
Qed.
Lemma render_image fmt d1 d2 w h pal c0 : 1 <= fmt <= 7 -> size_fits fmt w h -> is_bytes d1 -> is_bytes d2 -> u16s pal ->
  image (fpix d1 d2 w pal c0 fmt) (renderTextureData d1 d2 fmt w h (Some (map PInt pal)) c0) (w * h).
Proof.
  intros F (W0 & H0 & S) B1 B2 PV. destruct (Z.eq_dec w 0) as [->|NW].
  { assert (G : forall ys xs, 0 < xs -> grid h ys 0 xs = []). { intros ys xs X. unfold grid, steps. rewrite Z.add_0_l. rewrite (Z.div_small (xs - 1) xs) by lia. cbn [Z.to_nat range_z map]. induction (map _ (range_z 0 (Z.to_nat ((h + ys - 1) / ys)))); [reflexivity|exact IHl]. }
    rewrite Z.mul_0_l. assert (E : renderTextureData d1 d2 fmt 0 h (Some (map PInt pal)) c0 = Ok []).
    { unfold renderTextureData. rewrite Z.mul_0_l, !G by lia. cbn [foldM bind fst snd]. change (rep None 0) with (@nil (option color)).
      assert (K : fmt = 1 \/ fmt = 2 \/ fmt = 3 \/ fmt = 4 \/ fmt = 5 \/ fmt = 6 \/ fmt = 7) by lia. destruct K as [->|[->|[->|[->|[->|[->| ->]]]]]]; reflexivity. }
    rewrite E. split; [intros d [= <-]; split; [reflexivity|intros; lia]|eauto]. }
  assert (W : 0 < w) by lia. assert (N : 0 <= w * h) by nia. unfold renderTextureData. cbv zeta.
  assert (K : fmt = 1 \/ fmt = 2 \/ fmt = 3 \/ fmt = 4 \/ fmt = 5 \/ fmt = 6 \/ fmt = 7) by lia. destruct K as [->|[->|[->|[->|[->|[->| ->]]]]]]; cbn [Z.eqb Pos.eqb size_fits] in *.
  - eapply finish; [|exact N|intros p; apply (row_cover w h 1); try lia; apply Z.mod_1_r].
    apply (fst_loop _ _ fst (mk1 d1 1) (rowpos w 1) (rowc w 1)); [reflexivity| |apply row_c; try lia; apply Z.mod_1_r]. apply (alpha_step d1 d2 w pal c0 W B1 PV 1 31 alpha3 1). left. auto.
  - eapply finish; [|exact N|intros p; apply (row_cover w h 4); try lia; apply Z.mod_1_r].
    apply (fst_loop _ _ fst (mk1 d1 1) (rowpos w 4) (rowc w 4)); [reflexivity| |apply row_c; try lia; apply Z.mod_1_r]. apply (i2_step d1 d2 w pal c0 W B1 PV). exact S.
  - eapply finish; [|exact N|intros p; apply (row_cover w h 2); try lia; apply Z.mod_1_r].
    apply (fst_loop _ _ fst (mk1 d1 1) (rowpos w 2) (rowc w 2)); [reflexivity| |apply row_c; try lia; apply Z.mod_1_r]. apply (i4_step d1 d2 w pal c0 W B1 PV). exact S.
  - eapply finish; [|exact N|intros p; apply (row_cover w h 1); try lia; apply Z.mod_1_r].
    eapply oke_trans; [|apply (fst_loop _ (step_i8 (if c0 then 0 else 31) w (Some (map PInt pal)) d1) (fun d => d) (fun d _ => d) (rowpos w 1) (rowc w 1)); [reflexivity| |apply row_c; try lia; apply Z.mod_1_r]].
    + destruct (foldM _ _ _); apply oke_refl.
    + intros d j yx. apply (i8_step d1 d2 w pal c0 W PV).
  - destruct S as [S1 S2]. eapply finish; [|exact N|intros p; apply (blk_cover w h); assumption].
    apply (fst_loop _ _ (fun s => fst (fst s)) (mk2 d1 d2) (blkpos w) (blkc w)); [reflexivity|intros d j yx; apply (blk_step d1 d2 w pal c0 W S1 B2 PV)|].
    intros i yx E. apply nth_grid in E as [E1 E2]; try lia. unfold blkc. split; [lia|auto].
  - eapply finish; [|exact N|intros p; apply (row_cover w h 1); try lia; apply Z.mod_1_r].
    apply (fst_loop _ _ fst (mk1 d1 1) (rowpos w 1) (rowc w 1)); [reflexivity| |apply row_c; try lia; apply Z.mod_1_r]. apply (alpha_step d1 d2 w pal c0 W B1 PV 6 7 alpha5 1). right. auto.
  - eapply finish; [|exact N|intros p; apply (row_cover w h 1); try lia; apply Z.mod_1_r].
    apply (fst_loop _ _ fst (mk1 d1 2) (rowpos w 1) (rowc w 1)); [reflexivity|intros d j yx; apply (direct_step d1 d2 w pal c0 W B1)|apply row_c; try lia; apply Z.mod_1_r].
Qed.

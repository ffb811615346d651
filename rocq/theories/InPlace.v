(** Proofs for C125. *)
From Verif Require Import PyBase PyLemmas PyTac RomSpec ViewSpec LzModel LzSpec LzLemmas Lz10Lemmas CodeLzLemmas ViewLzSpec ViewLemmas ViewFiles ViewLz BnText ViewLzAny SeqRead InPlaceSpec InPlaceLz.

(** ** nothing reached saves more than [S] *)
Fixpoint fits_toks (S c r : Z) (ts : list token) : Prop :=
  match ts with
  | [] => True
  | t :: q => (c + tok_len t) - (r + zlen (tok_bytes 3 t)) <= S /\ fits_toks S (c + tok_len t) (r + zlen (tok_bytes 3 t)) q
  end.
Fixpoint toks_len (ts : list token) : Z := match ts with [] => 0 | t :: q => tok_len t + toks_len q end.
Fixpoint fits_blocks (S c r : Z) (bs : list (list token)) : Prop :=
  match bs with
  | [] => True
  | b :: q => fits_toks S c (r + 1) b /\ fits_blocks S (c + toks_len b) (r + 1 + zlen (toks_bytes 3 b)) q
  end.

Section Machine.
Variables (W tgt : bytes) (P : Z) (m0 : memory).
Notation N := (P + zlen tgt).
Notation room := (zlen tgt - zlen W).

Record inv (r c : Z) (s : machine) : Prop := {
  i_src : src s = P + zlen W - r;
  i_dst : dst s = N - c;
  i_unread : forall j, r <= j < zlen W -> ram s (P + zlen W - 1 - j) = byte W j;
  i_done : forall i, 0 <= i < c -> ram s (N - 1 - i) = byte tgt i;
  i_else : forall a, a < P \/ N <= a -> ram s a = m0 a }.

Lemma copy_down_inv n : forall r c d s, inv r c s -> 0 <= c -> 0 < d <= c -> c + Z.of_nat n <= zlen tgt -> c + Z.of_nat n - r <= room -> 0 <= r ->
  (forall j, 0 <= j < Z.of_nat n -> byte tgt (c - d + j) = byte tgt (c + j)) ->
  inv r (c + Z.of_nat n) (copy_down n d s).
Proof.
  induction n as [|n IH]; intros r c d s I C D T R R0 H; cbn [copy_down].
  - rewrite Z.add_0_r. exact I.
  - replace (c + Z.of_nat (S n)) with (c + 1 + Z.of_nat n) in * by lia.
    apply IH; try lia.
    2:{ intros j J. replace (c + 1 - d + j) with (c - d + (j + 1)) by lia. replace (c + 1 + j) with (c + (j + 1)) by lia. apply H. lia. }
    destruct I as [I1 I2 I3 I4 I5]. constructor; cbn [ram src dst]; unfold store.
    + exact I1.
    + lia.
    + intros j J. destruct (Z.eqb_spec (P + zlen W - 1 - j) (dst s - 1)); [lia|]. apply I3, J.
    + intros i Ii. destruct (Z.eqb_spec (N - 1 - i) (dst s - 1)) as [E|E].
      * assert (i = c) as -> by lia. replace (dst s - 1 + d) with (N - 1 - (c - d)) by lia. rewrite I4 by lia.
        specialize (H 0 ltac:(lia)). rewrite !Z.add_0_r in H. exact H.
      * apply I4. lia.
    + intros a A. destruct (Z.eqb_spec a (dst s - 1)); [lia|]. apply I5, A.
Qed.

Lemma item_inv t pre rest c s : W = pre ++ tok_bytes 3 t ++ rest -> inv (zlen pre) c s -> 0 <= c -> tok_dec tgt c t ->
  c + tok_len t - (zlen pre + zlen (tok_bytes 3 t)) <= room ->
  inv (zlen pre + zlen (tok_bytes 3 t)) (c + tok_len t) (item (is_ref t) s).
Proof.
  intros HW I C T R. pose proof (zlen_nonneg pre) as Z1. pose proof (zlen_nonneg rest) as Z2.
  assert (ZW : zlen W = zlen pre + zlen (tok_bytes 3 t) + zlen rest) by (rewrite HW, !zlen_app; lia).
  unfold item. destruct t as [b|l d]; cbn [is_ref tok_len tok_dec tok_bytes] in *.
  - rewrite zlen_cons in *. change (zlen (@nil Z)) with 0 in *. destruct I as [I1 I2 I3 I4 I5].
    pose proof (get_ok_range _ _ _ C T) as G. assert (B : byte tgt c = b) by (rewrite get_byte in T by lia; congruence).
    assert (E : ram s (src s - 1) = b).
    { replace (src s - 1) with (P + zlen W - 1 - zlen pre) by lia. rewrite I3 by lia. rewrite HW. apply byte_mid. reflexivity. }
    rewrite E. constructor; cbn [ram src dst]; unfold store.
    + lia.
    + lia.
    + intros j J. destruct (Z.eqb_spec (P + zlen W - 1 - j) (dst s - 1)); [lia|]. apply I3. lia.
    + intros i Ii. destruct (Z.eqb_spec (N - 1 - i) (dst s - 1)) as [E1|E1]; [assert (i = c) as -> by lia; congruence|]. apply I4. lia.
    + intros a A. destruct (Z.eqb_spec a (dst s - 1)); [lia|]. apply I5, A.
  - rewrite !zlen_cons in *. change (zlen (@nil Z)) with 0 in *. destruct T as (L & D & DC & CL & H).
    pose proof I as [I1 I2 I3 I4 I5].
    set (b1 := (l - 3) * 16 + (d - 3) / 256) in *. set (b2 := (d - 3) mod 256) in *.
    assert (E1 : ram s (src s - 1) = b1).
    { replace (src s - 1) with (P + zlen W - 1 - zlen pre) by lia. rewrite I3 by lia. rewrite HW. apply byte_mid. reflexivity. }
    assert (E2 : ram s (src s - 2) = b2).
    { replace (src s - 2) with (P + zlen W - 1 - (zlen pre + 1)) by lia. rewrite I3 by lia. rewrite HW.
      change (pre ++ [b1; b2] ++ rest) with (pre ++ [b1] ++ b2 :: rest). rewrite app_assoc. apply byte_mid. rewrite zlen_app. reflexivity. }
    rewrite E1, E2. replace (b1 / 16 + 3) with l by (unfold b1; lia). replace (b1 mod 16 * 256 + b2 + 3) with d by (unfold b1, b2; lia).
    replace (c + l) with (c + Z.of_nat (Z.to_nat l)) by lia.
    apply copy_down_inv; try lia.
    + constructor; cbn [ram src dst]; [lia|lia| |exact I4|exact I5]. intros j J. apply I3. lia.
    + intros j J. specialize (H j ltac:(lia)). rewrite !get_byte in H by lia. congruence.
Qed.

Lemma items_inv ts : forall fr pre rest c c' s, W = pre ++ toks_bytes 3 ts ++ rest -> inv (zlen pre) c s -> 0 <= c ->
  toksd tgt c ts c' -> fits_toks room c (zlen pre) ts ->
  exists s', items P (map is_ref ts ++ fr) s = items P fr s' /\ inv (zlen pre + zlen (toks_bytes 3 ts)) c' s'.
Proof.
  induction ts as [|t ts IH]; intros fr pre rest c c' s HW I C T F.
  - apply toksd_nil_inv in T as ->. exists s. split; [reflexivity|]. change (zlen (toks_bytes 3 [])) with 0. rewrite Z.add_0_r. exact I.
  - apply toksd_inv in T as [T1 T2]. cbn [fits_toks] in F. destruct F as [F1 F2].
    change (toks_bytes 3 (t :: ts)) with (tok_bytes 3 t ++ toks_bytes 3 ts) in *. rewrite <- app_assoc in HW.
    pose proof (item_inv t pre _ c s HW I C T1 F1) as I'.
    assert (TB : 1 <= zlen (tok_bytes 3 t)) by (destruct t; cbn [tok_bytes]; rewrite ?zlen_cons; change (zlen (@nil Z)) with 0; lia).
    assert (ZW : zlen W = zlen pre + (zlen (tok_bytes 3 t) + zlen (toks_bytes 3 ts ++ rest))) by (rewrite HW, !zlen_app; lia).
    pose proof (zlen_nonneg (toks_bytes 3 ts ++ rest)). pose proof (zlen_nonneg pre).
    pose proof (tok_dec_len tgt c t C T1).
    destruct (IH fr (pre ++ tok_bytes 3 t) rest (c + tok_len t) c' (item (is_ref t) s)) as (s' & E & I2).
    + rewrite HW, <- app_assoc. reflexivity.
    + rewrite zlen_app. exact I'.
    + lia.
    + exact T2.
    + rewrite zlen_app. exact F2.
    + exists s'. split; [|rewrite !zlen_app in *; rewrite Z.add_assoc; exact I2].
      cbn [map app items]. destruct (Z.leb_spec (src s) P) as [L|L]; [rewrite (i_src _ _ _ I) in L; lia|]. exact E.
Qed.

Lemma flags_read fl pre rest c s : W = pre ++ [fl] ++ rest -> inv (zlen pre) c s ->
  ram s (src s - 1) = fl /\ inv (zlen pre + 1) c {| ram := ram s; src := src s - 1; dst := dst s |} /\ (src s <=? P) = false.
Proof.
  intros HW [I1 I2 I3 I4 I5]. pose proof (zlen_nonneg pre). pose proof (zlen_nonneg rest).
  assert (ZW : zlen W = zlen pre + (1 + zlen rest)) by (rewrite HW, !zlen_app; reflexivity).
  split; [|split].
  - replace (src s - 1) with (P + zlen W - 1 - zlen pre) by lia. rewrite I3 by lia. rewrite HW. apply byte_mid. reflexivity.
  - constructor; cbn [ram src dst]; [lia|lia| |exact I4|exact I5]. intros j J. apply I3. lia.
  - apply Z.leb_gt. lia.
Qed.

Lemma toksd_len ts : forall c c', toksd tgt c ts c' -> c' = c + toks_len ts.
Proof.
  induction ts as [|t ts IH]; intros c c' T; [apply toksd_nil_inv in T; cbn [toks_len]; lia|].
  apply toksd_inv in T as [_ T]. apply IH in T. cbn [toks_len]. lia.
Qed.

Lemma blocks_inv bs : forall rounds pre rest c c' s, W = pre ++ stream_bytes code_params bs ++ rest -> inv (zlen pre) c s -> 0 <= c ->
  Forall (fun b => zlen b = 8) bs -> toksd tgt c (concat bs) c' -> fits_blocks room c (zlen pre) bs ->
  exists s', unpack_down (length bs + rounds) P s = unpack_down rounds P s' /\ inv (zlen pre + zlen (stream_bytes code_params bs)) c' s'.
Proof.
  induction bs as [|b bs IH]; intros rounds pre rest c c' s HW I C F8 T F.
  - apply toksd_nil_inv in T as ->. exists s. split; [reflexivity|]. change (zlen (stream_bytes code_params [])) with 0. rewrite Z.add_0_r. exact I.
  - inversion F8 as [|? ? B8 F8']; subst. cbn [concat] in T. apply toksd_app in T as (q & T1 & T2). cbn [fits_blocks] in F. destruct F as [F1 F2].
    pose proof (toksd_len _ _ _ T1) as Q. subst q.
    pose proof (toksd_le tgt _ _ _ C T1) as L1.
    assert (ES : stream_bytes code_params (b :: bs) = [flag_byte 128 b] ++ toks_bytes 3 b ++ stream_bytes code_params bs).
    { unfold stream_bytes. cbn [map concat]. unfold block_bytes at 1. cbn [zerosAtEnd code_params posSubtract]. rewrite app_nil_r. reflexivity. }
    rewrite ES in HW |- *.
    destruct (flags_read (flag_byte 128 b) pre (toks_bytes 3 b ++ stream_bytes code_params bs ++ rest) c s) as (E1 & I1 & NS); [rewrite HW, <- !app_assoc; reflexivity|exact I|].
    destruct (items_inv b [] (pre ++ [flag_byte 128 b]) (stream_bytes code_params bs ++ rest) c (c + toks_len b) _ ltac:(rewrite HW, <- !app_assoc; reflexivity)
      ltac:(rewrite zlen_app; exact I1) C T1 ltac:(rewrite zlen_app; exact F1)) as (s1 & E2 & I2).
    destruct (IH rounds ((pre ++ [flag_byte 128 b]) ++ toks_bytes 3 b) rest (c + toks_len b) c' s1) as (s2 & E3 & I3).
    + rewrite HW, <- !app_assoc. reflexivity.
    + rewrite zlen_app. exact I2.
    + pose proof (zlen_nonneg b). lia.
    + exact F8'.
    + exact T2.
    + rewrite !zlen_app. exact F2.
    + exists s2. split.
      * cbn [length Nat.add unpack_down]. rewrite NS, E1, bits_flag by (unfold zlen in B8; lia).
        replace (8 - length b)%nat with 0%nat by (unfold zlen in B8; lia). cbn [repeat]. rewrite E2. cbn [items]. exact E3.
      * rewrite !zlen_app in *. replace (zlen pre + (zlen [flag_byte 128 b] + (zlen (toks_bytes 3 b) + zlen (stream_bytes code_params bs)))) with
          (zlen pre + zlen [flag_byte 128 b] + zlen (toks_bytes 3 b) + zlen (stream_bytes code_params bs)) by lia. exact I3.
Qed.

Lemma machine_runs bs1 ts1 ts2 rounds s :
  W = stream_bytes code_params bs1 ++ [flag_byte 128 (ts1 ++ ts2)] ++ toks_bytes 3 ts1 ->
  Forall (fun b => zlen b = 8) bs1 -> zlen (ts1 ++ ts2) <= 8 -> toksd tgt 0 (concat bs1 ++ ts1) (zlen tgt) ->
  fits_blocks room 0 0 (bs1 ++ [ts1]) -> (length bs1 < rounds)%nat -> inv 0 0 s ->
  inv (zlen W) (zlen tgt) (unpack_down rounds P s).
Proof.
  intros HW F8 H8 T F R I. apply toksd_app in T as (q & T1 & T2).
  assert (G : forall bs r c, fits_blocks room c r (bs ++ [ts1]) -> fits_blocks room c r bs /\ fits_toks room (c + toks_len (concat bs)) (r + zlen (stream_bytes code_params bs) + 1) ts1).
  { clear. induction bs as [|b bs IH]; intros r c F.
    - cbn [app fits_blocks concat toks_len] in *. change (zlen (stream_bytes code_params [])) with 0. rewrite !Z.add_0_r. destruct F as [F _]. split; [exact I|exact F].
    - cbn [app fits_blocks concat] in *. destruct F as [F1 F2]. apply IH in F2 as [F2 F3]. split; [split; assumption|].
      replace (toks_len (b ++ concat bs)) with (toks_len b + toks_len (concat bs)) by (clear; induction b as [|x b IHb]; cbn [app toks_len]; lia).
      rewrite Z.add_assoc.
      replace (r + zlen (stream_bytes code_params (b :: bs))) with (r + 1 + zlen (toks_bytes 3 b) + zlen (stream_bytes code_params bs)); [exact F3|].
      unfold stream_bytes. cbn [map concat]. unfold block_bytes at 2. cbn [zerosAtEnd code_params posSubtract]. rewrite app_nil_r, zlen_app, zlen_cons. lia. }
  assert (FB : fits_blocks room 0 0 bs1 /\ fits_toks room q (zlen (stream_bytes code_params bs1) + 1) ts1).
  { apply toksd_len in T1. apply G in F. rewrite !Z.add_0_l in F, T1. rewrite T1. exact F. }
  destruct FB as [FB FT].
  replace rounds with (length bs1 + S (rounds - length bs1 - 1))%nat by lia.
  destruct (blocks_inv bs1 (S (rounds - length bs1 - 1)) [] ([flag_byte 128 (ts1 ++ ts2)] ++ toks_bytes 3 ts1) 0 q s HW I (Z.le_refl 0) F8 T1 FB) as (s1 & E1 & I1).
  rewrite E1. cbn [unpack_down]. change (zlen (@nil Z)) with 0 in I1. rewrite Z.add_0_l in I1.
  destruct (flags_read (flag_byte 128 (ts1 ++ ts2)) (stream_bytes code_params bs1) (toks_bytes 3 ts1) q s1 HW I1) as (E2 & I2 & NS).
  rewrite NS, E2, bits_flag by (unfold zlen in H8; lia). rewrite map_app, <- app_assoc.
  pose proof (toksd_le tgt _ _ _ (Z.le_refl 0) T1) as L1. pose proof (zlen_nonneg (concat bs1)).
  destruct (items_inv ts1 (map is_ref ts2 ++ repeat false (8 - length (ts1 ++ ts2))) (stream_bytes code_params bs1 ++ [flag_byte 128 (ts1 ++ ts2)]) [] q (zlen tgt) _
    ltac:(rewrite HW, app_nil_r, <- !app_assoc; reflexivity) ltac:(rewrite zlen_app; exact I2) ltac:(lia) T2 ltac:(rewrite zlen_app; exact FT)) as (s2 & E3 & I3).
  rewrite E3.
  assert (ZW : zlen (stream_bytes code_params bs1 ++ [flag_byte 128 (ts1 ++ ts2)]) + zlen (toks_bytes 3 ts1) = zlen W) by (rewrite HW, !zlen_app; lia).
  rewrite ZW in I3.
  assert (STOP : (src s2 <=? P) = true) by (apply Z.leb_le; rewrite (i_src _ _ _ I3); lia).
  replace (items P _ s2) with s2 by (destruct (map is_ref ts2 ++ repeat false (8 - length (ts1 ++ ts2))); cbn [items]; rewrite ?STOP; reflexivity).
  replace (unpack_down _ P s2) with s2 by (destruct (rounds - length bs1 - 1)%nat; cbn [unpack_down]; rewrite ?STOP; reflexivity). exact I3.
Qed.
End Machine.

(** ** the compressor's output *)
Section Fit.
Variables (raw : bytes) (bs : list (list token)) (S C : Z).
Hypothesis PK : forall c' r', boundary code_params raw bs [] c' r' -> c' <= C -> c' - r' <= S.

Lemma toks_ok_len p ts : forall c c', toks_ok p raw c ts c' -> c' = c + toks_len ts.
Proof.
  induction ts as [|t ts IH]; intros c c' T; inversion T; subst; cbn [toks_len]; [lia|]. erewrite (IH _ c') by eassumption. lia.
Qed.

Lemma toks_fit q : forall t0 q2 D E c c1, toks_ok code_params raw 0 (concat D ++ t0) c -> toks_ok code_params raw c q c1 -> c1 <= C ->
  bs = D ++ (t0 ++ q ++ q2) :: E -> fits_toks S c (zlen (stream_bytes code_params D) + 1 + zlen (toks_bytes 3 t0)) q.
Proof.
  induction q as [|t q IH]; intros t0 q2 D E c c1 T0 T L B; cbn [fits_toks]; [exact I|].
  inversion T as [|? ? ? ? T1 T2]; subst.
  assert (T01 : toks_ok code_params raw 0 (concat D ++ (t0 ++ [t])) (c + tok_len t)).
  { rewrite app_assoc. apply toks_ok_app. exists c. split; [assumption|]. constructor; [assumption|constructor]. }
  pose proof (toks_ok_le _ _ _ _ _ code_params_ok T2) as L2. pose proof (zlen_nonneg q).
  assert (ZB : zlen (toks_bytes 3 (t0 ++ [t])) = zlen (toks_bytes 3 t0) + zlen (tok_bytes 3 t)).
  { rewrite toks_bytes_app, zlen_app. unfold toks_bytes at 2. cbn [map concat]. rewrite app_nil_r. reflexivity. }
  split.
  - apply PK; [|lia]. right; left. exists D, (t0 ++ [t]), (q ++ q2), E. rewrite <- app_assoc. split; [reflexivity|].
    split; [destruct t0; discriminate|]. split; [exact T01|]. cbn [posSubtract code_params]. lia.
  - replace (zlen (stream_bytes code_params D) + 1 + zlen (toks_bytes 3 t0) + zlen (tok_bytes 3 t)) with (zlen (stream_bytes code_params D) + 1 + zlen (toks_bytes 3 (t0 ++ [t]))) by lia.
    eapply (IH (t0 ++ [t]) q2 D E); [exact T01|exact T2|exact L|]. rewrite <- !app_assoc. reflexivity.
Qed.

Lemma stream_snoc D b : zlen (stream_bytes code_params (D ++ [b])) = zlen (stream_bytes code_params D) + 1 + zlen (toks_bytes 3 b).
Proof.
  rewrite code_stream_app, zlen_app. unfold stream_bytes at 2. cbn [map concat]. rewrite app_nil_r.
  unfold block_bytes. cbn [zerosAtEnd code_params posSubtract]. rewrite app_nil_r, zlen_cons. lia.
Qed.

Lemma blocks_fit B ts1 ts2 bs2 : forall D c, bs = D ++ B ++ (ts1 ++ ts2) :: bs2 -> toks_ok code_params raw 0 (concat D) c ->
  toks_ok code_params raw c (concat B ++ ts1) C -> fits_blocks S c (zlen (stream_bytes code_params D)) (B ++ [ts1]).
Proof.
  induction B as [|b B IH]; intros D c E T0 T; cbn [app fits_blocks concat] in *.
  - split; [|exact I]. replace (zlen (stream_bytes code_params D) + 1) with (zlen (stream_bytes code_params D) + 1 + zlen (toks_bytes 3 [])) by (change (zlen (toks_bytes 3 [])) with 0; lia).
    eapply (toks_fit ts1 [] ts2 D bs2); [rewrite app_nil_r; exact T0|exact T|lia|exact E].
  - rewrite <- app_assoc in T. apply toks_ok_app in T as (m & T1 & T2). pose proof (toks_ok_len _ _ _ _ T1) as ->.
    pose proof (toks_ok_le _ _ _ _ _ code_params_ok T2) as L. pose proof (zlen_nonneg (concat B ++ ts1)). split.
    + replace (zlen (stream_bytes code_params D) + 1) with (zlen (stream_bytes code_params D) + 1 + zlen (toks_bytes 3 [])) by (change (zlen (toks_bytes 3 [])) with 0; lia).
      eapply (toks_fit b [] [] D (B ++ (ts1 ++ ts2) :: bs2)); [rewrite app_nil_r; exact T0|exact T1|lia|]. cbn [app]. rewrite app_nil_r. exact E.
    + rewrite <- stream_snoc. apply IH; [rewrite E, <- app_assoc; reflexivity| |exact T2].
      rewrite concat_app. cbn [concat]. rewrite app_nil_r. apply toks_ok_app. exists c. split; assumption.
Qed.
End Fit.

Lemma bounds_fit raw bs S C bs1 ts1 ts2 bs2 : (forall c' r', boundary code_params raw bs [] c' r' -> c' <= C -> c' - r' <= S) ->
  bs = bs1 ++ (ts1 ++ ts2) :: bs2 -> toks_ok code_params raw 0 (concat bs1 ++ ts1) C -> fits_blocks S 0 0 (bs1 ++ [ts1]).
Proof. intros PK E T. apply (blocks_fit raw bs S C PK bs1 ts1 ts2 bs2 [] 0); [exact E|constructor|exact T]. Qed.

(** as [comp_shape] in CodeLzLemmas, and nothing before the end saves more *)
Definition safe_shape (data pre W tgt : bytes) : Prop :=
  data = pre ++ rev tgt /\
  exists bs1 ts1 ts2, W = stream_bytes code_params bs1 ++ [flag_byte 128 (ts1 ++ ts2)] ++ toks_bytes 3 ts1 /\
    Forall (fun b => zlen b = 8) bs1 /\ zlen (ts1 ++ ts2) <= 8 /\ ts1 <> [] /\
    toksd tgt 0 (concat bs1 ++ ts1) (zlen tgt) /\ fits_blocks (zlen tgt - zlen W) 0 0 (bs1 ++ [ts1]).

Lemma safe_slices data bs c r bs1 ts1 ts2 bs2 :
  bs = bs1 ++ (ts1 ++ ts2) :: bs2 ->
  toks_ok code_params (rev data) 0 (concat bs1 ++ ts1) c ->
  r = zlen (stream_bytes code_params bs1) + 1 + zlen (toks_bytes 3 ts1) ->
  blocks_shape bs -> ts1 <> [] -> fits_blocks (c - r) 0 0 (bs1 ++ [ts1]) ->
  exists pre W tgt, safe_shape data pre W tgt /\ zlen W = r /\ zlen tgt = c /\ zlen pre = zlen data - c /\
    slice_to data (zlen data - c) = pre /\
    slice_from (rev (stream_bytes code_params bs)) (zlen (stream_bytes code_params bs) - r) = rev W.
Proof.
  intros Hbs Ht Hr Hsh Hne Hfit.
  pose proof (toks_mono code_params _ _ _ _ eq_refl Ht (Z.le_refl 0) (zlen_nonneg _)) as Hc. rewrite zlen_rev in Hc.
  set (W := stream_bytes code_params bs1 ++ [flag_byte 128 (ts1 ++ ts2)] ++ toks_bytes 3 ts1).
  assert (HWl : zlen W = r) by (unfold W; rewrite !zlen_app, zlen_cons; change (zlen (@nil Z)) with 0; lia).
  assert (HS : exists rest, stream_bytes code_params bs = W ++ rest).
  { exists (toks_bytes 3 ts2 ++ stream_bytes code_params bs2). rewrite Hbs, code_stream_app.
    unfold W. unfold stream_bytes at 2. cbn [map concat]. unfold block_bytes at 1. cbn [zerosAtEnd code_params posSubtract].
    rewrite app_nil_r, toks_bytes_app. unfold stream_bytes. rewrite <- ?app_assoc. cbn [app]. rewrite <- ?app_assoc. reflexivity. }
  destruct HS as (rest & HS).
  exists (firstn (Z.to_nat (zlen data - c)) data), W, (firstn (Z.to_nat c) (rev data)).
  assert (HT : zlen (firstn (Z.to_nat c) (rev data)) = c) by (rewrite zlen_firstn, zlen_rev; lia).
  assert (HD : data = firstn (Z.to_nat (zlen data - c)) data ++ rev (firstn (Z.to_nat c) (rev data))).
  { rewrite firstn_rev, rev_involutive. replace (length data - Z.to_nat c)%nat with (Z.to_nat (zlen data - c)) by (unfold zlen in *; lia).
    symmetry. apply firstn_skipn. }
  split; [|split; [assumption|split; [assumption|split; [|split]]]].
  - split; [assumption|]. exists bs1, ts1, ts2.
    destruct (blocks_shape_split bs1 (ts1 ++ ts2) bs2) as [F1 F2]; [rewrite <- Hbs; assumption|].
    split; [reflexivity|]. split; [assumption|]. split; [assumption|]. split; [assumption|].
    rewrite HT, HWl. split; [|assumption]. eapply (toks_ok_toksd code_params (rev data)); try exact Ht; try reflexivity; rewrite ?zlen_rev; cbn; lia.
  - rewrite zlen_firstn. lia.
  - unfold slice_to. rewrite <- (firstn_skipn (Z.to_nat (zlen data - c)) data) at 1. apply slice_hit; [reflexivity|]. rewrite zlen_firstn. lia.
  - unfold slice_from. rewrite HS. rewrite rev_app_distr, zlen_app, zlen_app, !zlen_rev.
    replace (zlen W + zlen rest) with (zlen rest + zlen W) by lia.
    rewrite <- (app_nil_r (rev rest ++ rev W)), <- app_assoc. apply slice_mid; rewrite ?zlen_rev; lia.
Qed.

Lemma code_body_safe data :
  code_compress_body data = Ok (stored data) \/
  (exists pre W tgt padn, safe_shape data pre W tgt /\ 0 <= padn <= 3 /\ (zlen pre + zlen W + padn) mod 4 = 0 /\
     let hl := 8 + padn in
     let ex := zlen tgt - zlen W - hl in
     (0 <= ex -> zlen data < 2 ^ 24 ->
       code_compress_body data = Ok (pre ++ rev W ++ rep 0xFF padn ++ trailer (zlen W) hl ex)) /\
     (ex < 0 -> code_compress_body data = Err StructError)) \/
  (code_compress_body data = Err StructError).
Proof.
  unfold code_compress_body.
  destruct (lz_compress_peaks code_params code_params_ok (rev data)) as (bs & ignD & ignC & E & Ht & Hs & Hb).
  rewrite E. cbn [bind]. set (fwd := stream_bytes code_params bs) in *. rewrite zlen_rev in *.
  destruct ((zlen fwd =? 0) || _) eqn:EB; [left; reflexivity|right].
  apply orb_false_iff in EB as [EB1 _]. apply Z.eqb_neq in EB1.
  assert (Hbs : bs <> []) by (intros ->; apply EB1; reflexivity).
  (* the cut *)
  assert (CUT : (exists pre W tgt, safe_shape data pre W tgt /\ zlen pre = ignD /\ zlen W = zlen fwd - ignC /\
      slice_to data ignD = pre /\ slice_from (rev fwd) ignC = rev W) \/ (ignD = zlen data /\ ignC = zlen fwd)).
  { assert (A : forall c r bs1 ts1 ts2 bs2, ignD = zlen data - c -> ignC = zlen fwd - r ->
       bs = bs1 ++ (ts1 ++ ts2) :: bs2 -> ts1 <> [] ->
       toks_ok code_params (rev data) 0 (concat bs1 ++ ts1) c ->
       r = zlen (stream_bytes code_params bs1) + 1 + zlen (toks_bytes 3 ts1) ->
       (forall c' r', boundary code_params (rev data) bs [] c' r' -> c' <= c -> c' - r' <= c - r) ->
       exists pre W tgt, safe_shape data pre W tgt /\ zlen pre = ignD /\ zlen W = zlen fwd - ignC /\
      slice_to data ignD = pre /\ slice_from (rev fwd) ignC = rev W).
    { intros c r bs1 ts1 ts2 bs2 E1 E2 E3 E4 E5 E6 E7.
      destruct (safe_slices data bs c r bs1 ts1 ts2 bs2 E3 E5 E6 Hs E4 (bounds_fit _ _ _ c bs1 ts1 ts2 bs2 E7 E3 E5)) as (pre & W & tgt & H1 & H2 & H3 & H4 & H5 & H6).
      exists pre, W, tgt. subst ignD ignC. fold fwd in H6. split; [assumption|]. split; [assumption|]. split; [lia|]. split; assumption. }
    destruct Hb as [(-> & -> & PK)|(c & r & E1 & E2 & _ & _ & B & PK)].
    - left. destruct (blocks_last bs Hbs) as (bs1 & b & Eb).
      assert (Hbl : b <> []).
      { intros ->. destruct (blocks_shape_split bs1 [] []) as [_ L]; [rewrite <- Eb; assumption|].
        clear - Hs Eb. subst bs. induction bs1 as [|x bs1 IH]; cbn [app] in Hs; [cbn in Hs; change (zlen (@nil token)) with 0 in Hs; lia|].
        apply IH. cbn [blocks_shape] in Hs. destruct (bs1 ++ [[]]) eqn:Q; [destruct bs1; discriminate|]. apply Hs. }
      apply (A (zlen data) (zlen fwd) bs1 b [] []); try lia; try assumption.
      + rewrite app_nil_r. assumption.
      + rewrite Eb, concat_app in Ht. cbn [concat] in Ht. rewrite app_nil_r in Ht. assumption.
      + unfold fwd. rewrite Eb, code_stream_app, zlen_app. unfold stream_bytes at 2. cbn [map concat]. rewrite app_nil_r.
        unfold block_bytes. cbn [zerosAtEnd code_params posSubtract]. rewrite app_nil_r, zlen_cons. lia.
    - destruct B as [[-> ->]|[B|B]].
      + right. lia.
      + left. destruct B as (bs1 & ts1 & ts2 & bs2 & E3 & E4 & E5 & E6). apply (A c r bs1 ts1 ts2 bs2); assumption.
      + destruct B as (ts1 & ts2 & E3 & E4 & _). destruct ts1; [congruence|discriminate]. }
  destruct CUT as [(pre & W & tgt & Hsh & HpD & HW & HT & HF)|[-> ->]].
  - left. set (c1 := pre ++ rev W). set (padn := (- zlen c1) mod 4).
    assert (Hpad : 0 <= padn <= 3) by (unfold padn; lia).
    pose proof (zlen_nonneg pre). pose proof (zlen_nonneg W). pose proof (zlen_nonneg tgt).
    assert (HD : zlen data = zlen pre + zlen tgt) by (destruct Hsh as [-> _]; zl).
    exists pre, W, tgt, padn. split; [assumption|]. split; [assumption|]. split; [unfold padn, c1; zl; lia|]. cbv zeta.
    rewrite HT, HF. fold c1.
    assert (Lc : zlen c1 = zlen pre + zlen W) by (unfold c1; zl).
    assert (Lp : zlen (pad_to 4 255 c1) = zlen c1 + padn) by (apply zlen_pad_to; lia).
    rewrite Lp. replace (zlen c1 + padn - zlen c1) with padn by lia.
    replace (zlen data - zlen c1 - (8 + padn)) with (zlen tgt - zlen W - (8 + padn)) by lia.
    replace (zlen fwd - ignC + (8 + padn)) with (zlen W + (8 + padn)) by lia.
    set (ex := zlen tgt - zlen W - (8 + padn)).
    split.
    + intros Hex H24. unfold ex in Hex.
      rewrite pack_u_ok by (change (256 ^ Z.of_nat 4) with (2 ^ 32); lia). cbn [bind].
      change (zeros 8) with (zeros 4 ++ zeros 4).
      rewrite (put_mid (pad_to 4 255 c1) (zeros 4) (zeros 4)) by (rewrite ?Lp, ?zlen_le; reflexivity). cbn [bind].
      replace (le 4 (zlen W + (8 + padn))) with (le 3 (zlen W + (8 + padn)) ++ [0]).
      2:{ replace (zlen W + (8 + padn)) with (zlen W + (8 + padn) + 2 ^ 24 * 0) at 2 by lia. rewrite le4_split by lia. reflexivity. }
      replace (pad_to 4 255 c1 ++ (le 3 (zlen W + (8 + padn)) ++ [0]) ++ zeros 4)
        with ((pad_to 4 255 c1 ++ le 3 (zlen W + (8 + padn))) ++ 0 :: zeros 4) by (rewrite <- !app_assoc; reflexivity).
      rewrite setl_mid by (rewrite zlen_app, Lp, zlen_le; reflexivity). cbn [bind].
      rewrite pack_u_ok by (change (256 ^ Z.of_nat 4) with (2 ^ 32); unfold ex; lia). cbn [bind].
      replace ((pad_to 4 255 c1 ++ le 3 (zlen W + (8 + padn))) ++ (8 + padn) :: zeros 4)
        with ((pad_to 4 255 c1 ++ le 3 (zlen W + (8 + padn)) ++ [8 + padn]) ++ zeros 4 ++ []) by (rewrite app_nil_r, <- !app_assoc; reflexivity).
      rewrite put_mid by (rewrite ?zlen_le, ?zlen_app, ?Lp, ?zlen_le; try reflexivity; rewrite zlen_cons; change (zlen (@nil Z)) with 0; lia).
      rewrite app_nil_r. f_equal. unfold trailer, pad_to, c1. fold padn. rewrite <- !app_assoc. reflexivity.
    + intros Hex. unfold ex in Hex. unfold pack_u at 1, pack_e.
      destruct (_ && _); [|reflexivity]. cbn [bind].
      rewrite <- Lp. 
      match goal with |- context [put ?d ?o ?b] => destruct (put d o b) as [c4|e4] eqn:P1 end.
      2:{ cbn [bind]. f_equal. unfold put, struct_off in P1. destruct (_ <? 0) in P1; [destruct (_ || _) in P1|destruct (_ <? _) in P1]; cbn [bind] in P1; congruence. }
      cbn [bind]. apply put_zlen in P1. rewrite zlen_app in P1. change (zlen (zeros 8)) with 8 in P1.
      unfold setl. destruct (Z.ltb_spec (zlen (pad_to 4 255 c1) + 3) 0); [lia|].
      destruct (Z.ltb_spec (zlen (pad_to 4 255 c1) + 3) 0); [lia|]. cbn [orb].
      destruct (Z.leb_spec (zlen c4) (zlen (pad_to 4 255 c1) + 3)); [lia|]. cbn [bind].
      rewrite pack_u_err by (fold ex in Hex; lia). reflexivity.
  - right. 
    replace (slice_to data (zlen data)) with data by (symmetry; apply slice_all).
    replace (slice_from (rev fwd) (zlen fwd)) with (@nil Z).
    2:{ symmetry. unfold slice_from. rewrite zlen_rev. apply slice_nil. pose proof (zlen_nonneg fwd). lia. }
    rewrite app_nil_r. set (padn := (- zlen data) mod 4). assert (0 <= padn <= 3) by (unfold padn; lia). pose proof (zlen_nonneg data).
    rewrite zlen_pad_to by lia. fold padn. replace (zlen fwd - zlen fwd + (8 + (zlen data + padn - zlen data))) with (8 + padn) by lia.
    rewrite pack_u_ok by (change (256 ^ Z.of_nat 4) with (2 ^ 32); lia). cbn [bind].
    assert (Lp : zlen (pad_to 4 255 data) = zlen data + padn) by (apply zlen_pad_to; lia).
    change (zeros 8) with (zeros 4 ++ zeros 4).
    rewrite (put_mid (pad_to 4 255 data) (zeros 4) (zeros 4)) by (rewrite ?Lp, ?zlen_le; reflexivity). cbn [bind].
    replace (le 4 (8 + padn)) with (le 3 (8 + padn) ++ [0]).
    2:{ replace (8 + padn) with (8 + padn + 2 ^ 24 * 0) at 2 by lia. rewrite le4_split by lia. reflexivity. }
    replace (pad_to 4 255 data ++ (le 3 (8 + padn) ++ [0]) ++ zeros 4)
        with ((pad_to 4 255 data ++ le 3 (8 + padn)) ++ 0 :: zeros 4) by (rewrite <- !app_assoc; reflexivity).
    rewrite setl_mid by (rewrite zlen_app, Lp, zlen_le; reflexivity). cbn [bind].
    rewrite pack_u_err by lia. reflexivity.
Qed.


(** ** the whole *)
Lemma stream_rounds bs : (length bs <= length (stream_bytes code_params bs))%nat.
Proof.
  induction bs as [|b bs IH]; [cbn; lia|]. unfold stream_bytes in *. cbn [map concat]. unfold block_bytes at 1. cbn [app length].
  rewrite !app_length. cbn [length]. lia.
Qed.

Lemma part_end (a b : bytes) o n : o = zlen a -> n = zlen b -> ViewSpec.part (a ++ b) o n = b.
Proof.
  intros -> ->. unfold ViewSpec.part, zlen. rewrite !Nat2Z.id, skipn_app, skipn_all, Nat.sub_diag. cbn [skipn app]. apply firstn_all.
Qed.

Lemma safe_runs pre W tgt padn around bs1 ts1 ts2 :
  W = stream_bytes code_params bs1 ++ [flag_byte 128 (ts1 ++ ts2)] ++ toks_bytes 3 ts1 ->
  Forall (fun b => zlen b = 8) bs1 -> zlen (ts1 ++ ts2) <= 8 -> toksd tgt 0 (concat bs1 ++ ts1) (zlen tgt) ->
  fits_blocks (zlen tgt - zlen W) 0 0 (bs1 ++ [ts1]) ->
  0 <= padn <= 3 -> 0 <= zlen tgt - zlen W - (8 + padn) -> zlen tgt < 2 ^ 24 ->
  let c := pre ++ rev W ++ rep 0xFF padn ++ trailer (zlen W) (8 + padn) (zlen tgt - zlen W - (8 + padn)) in
  inv W tgt (zlen pre) (loaded c around) (zlen W) (zlen tgt) (unpack_in_place c around).
Proof.
  intros HW F8 H8 T F Hp Hex H24 c. set (ex := zlen tgt - zlen W - (8 + padn)) in *.
  pose proof (zlen_nonneg pre). pose proof (zlen_nonneg W).
  set (front := pre ++ rev W ++ rep 255 padn).
  assert (Hc : c = front ++ trailer (zlen W) (8 + padn) ex) by (unfold c, front; rewrite <- !app_assoc; reflexivity).
  assert (ZF : zlen front = zlen pre + zlen W + padn) by (unfold front; rewrite !zlen_app, zlen_rev, zlen_rep by lia; lia).
  assert (Zc : zlen c = zlen front + 8) by (rewrite Hc, zlen_app; unfold trailer; rewrite !zlen_app, !zlen_le; reflexivity).
  assert (E1 : end_len c 0 = 8 + padn).
  { unfold end_len. rewrite Zc, Hc. unfold trailer. rewrite app_assoc. cbn [app]. apply byte_mid. rewrite zlen_app, zlen_le. change (Z.of_nat 3) with 3. lia. }
  assert (E2 : comp_len c 0 = zlen W + (8 + padn)).
  { unfold comp_len. replace (ViewSpec.part c (zlen c - 0 - 8) 3) with (le 3 (zlen W + (8 + padn))).
    - rewrite unle_le. change (256 ^ Z.of_nat 3) with (2 ^ 24). apply Z.mod_small. unfold ex in *. lia.
    - rewrite Zc, Hc. replace (zlen front + 8 - 0 - 8) with (zlen front) by lia. unfold trailer, ViewSpec.part. rewrite skipn_app_exact by (unfold zlen; lia). reflexivity. }
  assert (E3 : extra_len c 0 = ex).
  { unfold extra_len. replace (ViewSpec.part c (zlen c - 0 - 4) 4) with (le 4 ex).
    - rewrite unle_le. change (256 ^ Z.of_nat 4) with (2 ^ 32). apply Z.mod_small. unfold ex in *. lia.
    - rewrite Hc. unfold trailer. rewrite !app_assoc. symmetry. apply part_end; [|rewrite zlen_le; reflexivity].
      rewrite <- !app_assoc. rewrite app_assoc. rewrite !zlen_app, !zlen_le. change (zlen [8 + padn]) with 1. lia. }
  unfold unpack_in_place. rewrite E1, E2, E3.
  replace (zlen c - (zlen W + (8 + padn))) with (zlen pre) by lia.
  apply (machine_runs W tgt (zlen pre) (loaded c around) bs1 ts1 ts2 (length c)); try assumption.
  - pose proof (stream_rounds bs1). assert (length W = length (stream_bytes code_params bs1) + 1 + length (toks_bytes 3 ts1))%nat by (rewrite HW, !app_length; cbn [length]; lia).
    unfold zlen in *. lia.
  - constructor; cbn [ram src dst].
    + lia.
    + unfold ex. lia.
    + intros j J. unfold loaded. rewrite (proj2 (Z.leb_le _ _)), (proj2 (Z.ltb_lt _ _)) by lia. cbn [andb].
      unfold c. unfold byte. rewrite app_nth2 by (unfold zlen in *; lia). rewrite app_nth1 by (rewrite rev_length; unfold zlen in *; lia).
      rewrite rev_nth by (unfold zlen in *; lia). f_equal. unfold zlen in *. lia.
    + intros i Ii. lia.
    + reflexivity.
Qed.

Lemma in_place_gen P data c around : zlen data < 2 ^ 24 -> code_compress_body data = Ok c ->
  slice_from (P ++ c) (-4) <> [0; 0; 0; 0] ->
  let s := unpack_in_place (P ++ c) around in
  unpacked (P ++ data) around s /\ src s = zlen (P ++ c) - comp_len (P ++ c) 0 /\ dst s = zlen (P ++ c) - comp_len (P ++ c) 0.
Proof.
  intros Hl E Hne s. destruct (code_body_safe data) as [H|[(pre & W & tgt & padn & Hsh & Hp & Hm & Hok & Herr)|H]].
  - rewrite H in E. exfalso. assert (c = stored data) as -> by congruence. apply Hne. unfold stored. rewrite app_assoc.
    apply slice_from_end; reflexivity.
  - cbv zeta in Hok, Herr. set (ex := zlen tgt - zlen W - (8 + padn)) in *.
    destruct (Z.lt_ge_cases ex 0) as [Hex|Hex]; [rewrite Herr in E by assumption; discriminate|].
    rewrite (Hok ltac:(lia) Hl) in E. apply SeqRead.ok_inj in E. clear Hok Herr.
    destruct Hsh as [HD (bs1 & ts1 & ts2 & H1 & H2 & H3 & H4 & H5 & H6)].
    assert (HDl : zlen data = zlen pre + zlen tgt) by (rewrite HD; zl). pose proof (zlen_nonneg pre). pose proof (zlen_nonneg W). pose proof (zlen_nonneg tgt).
    pose proof (zlen_nonneg P).
    assert (EC : P ++ c = (P ++ pre) ++ rev W ++ rep 255 padn ++ trailer (zlen W) (8 + padn) ex) by (rewrite <- E, <- !app_assoc; reflexivity).
    pose proof (safe_runs (P ++ pre) W tgt padn around bs1 ts1 ts2 H1 H2 H3 H5 H6 Hp ltac:(fold ex; lia) ltac:(lia)) as R. cbv zeta in R. fold ex in R.
    assert (ZC : zlen (P ++ c) = zlen (P ++ pre) + zlen W + padn + 8).
    { rewrite EC, !zlen_app, zlen_rev, zlen_rep by lia. unfold trailer. rewrite !zlen_app, !zlen_le. change (zlen [8 + padn]) with 1. lia. }
    assert (CL : comp_len (P ++ c) 0 = zlen W + (8 + padn)).
    { unfold comp_len. replace (ViewSpec.part (P ++ c) (zlen (P ++ c) - 0 - 8) 3) with (le 3 (zlen W + (8 + padn))).
      - rewrite unle_le. change (256 ^ Z.of_nat 3) with (2 ^ 24). apply Z.mod_small. unfold ex in *. lia.
      - rewrite ZC, EC. set (front := (P ++ pre) ++ rev W ++ rep 255 padn).
        replace ((P ++ pre) ++ rev W ++ rep 255 padn ++ trailer (zlen W) (8 + padn) ex) with (front ++ trailer (zlen W) (8 + padn) ex) by (unfold front; rewrite <- !app_assoc; reflexivity).
        assert (ZF : zlen front = zlen (P ++ pre) + zlen W + padn) by (unfold front; rewrite !zlen_app, zlen_rev, zlen_rep by lia; lia).
        replace (zlen (P ++ pre) + zlen W + padn + 8 - 0 - 8) with (zlen front) by lia. unfold trailer, ViewSpec.part. rewrite skipn_app_exact by (unfold zlen; lia). reflexivity. }
    rewrite <- EC in R. fold s in R. destruct R as [R1 R2 R3 R4 R5]. rewrite CL.
    assert (ZPP : zlen (P ++ pre) = zlen P + zlen pre) by apply zlen_app. rewrite ZPP in *.
    split; [|split; lia].
    assert (ZPD : zlen (P ++ data) = zlen P + zlen pre + zlen tgt) by (rewrite zlen_app; lia).
    split; intros a A; rewrite ZPD in A.
    + destruct (Z.lt_ge_cases a (zlen P + zlen pre)) as [L|L].
      * rewrite R5 by lia. unfold loaded. rewrite ZC, (proj2 (Z.leb_le _ _)), (proj2 (Z.ltb_lt _ _)) by lia. cbn [andb].
        rewrite EC, HD, (app_assoc P pre (rev tgt)). unfold byte. rewrite !(app_nth1 (P ++ pre)) by (rewrite app_length; unfold zlen in *; lia). reflexivity.
      * replace a with (zlen P + zlen pre + zlen tgt - 1 - (zlen P + zlen pre + zlen tgt - 1 - a)) at 1 by lia. rewrite R4 by lia.
        rewrite HD, (app_assoc P pre (rev tgt)). unfold byte. rewrite app_nth2 by (rewrite app_length; unfold zlen in *; lia).
        rewrite rev_nth by (rewrite app_length; unfold zlen in *; lia). f_equal. rewrite app_length. unfold zlen in *. lia.
    + rewrite R5 by lia. unfold loaded. rewrite ZC. destruct (Z.leb_spec 0 a) as [L|L]; [|reflexivity].
      destruct (Z.ltb_spec a (zlen P + zlen pre + zlen W + padn + 8)) as [L2|L2]; [unfold ex in *; lia|]. reflexivity.
  - congruence.
Qed.

Lemma in_place data isArm9 c around : zlen data < 2 ^ 24 -> code_compress data isArm9 = Ok c -> slice_from c (-4) <> [0; 0; 0; 0] ->
  let s := unpack_in_place c around in
  unpacked data around s /\ src s = zlen c - comp_len c 0 /\ dst s = zlen c - comp_len c 0.
Proof.
  intros Hl E Hne. unfold code_compress in E. destruct isArm9.
  - apply bind_ok in E as (c0 & E0 & E1). assert (c = slice_to data 0x4000 ++ c0) as -> by congruence.
    pose proof (zlen_slice_from data 0x4000 ltac:(lia)).
    pose proof (in_place_gen (slice_to data 0x4000) (slice_from data 0x4000) c0 around ltac:(lia) E0 Hne) as R.
    rewrite slice_split in R by lia. exact R.
  - apply (in_place_gen [] data c around Hl E Hne).
Qed.

(** * Proofs about bnbl.py and bncl.py *)
From Coq Require Import String.
From Verif Require Import PyBase PyLemmas PyTac CommonModel CommonLemmas BnModel.

Definition coord (v : Z) : Prop := 0 <= v < 4096.
Definition area_ok (t : touchArea) : Prop :=
  coord (taX t) /\ coord (taY t) /\ In (taAlign t) valid_alignments /\ is_byte (taW t) /\ is_byte (taH t).
Definition pos_ok (p : imagePosition) : Prop :=
  coord (ipX p) /\ coord (ipY p) /\ In (ipAlign p) valid_alignments /\ 0 <= ipImageID p < 2 ^ 32.

Lemma pack_align_range x y al : coord x -> coord y -> In al valid_alignments ->
  let '(xp, yp) := packAlignmentIntoPos x y al in 0 <= xp < 0x3000 /\ 0 <= yp < 0x3000.
Proof.
  unfold coord. intros Hx Hy Hal. unfold packAlignmentIntoPos. rewrite !land_fff, (Z.mod_small x), (Z.mod_small y) by assumption.
  pose proof (lor_add_12 x 1 Hx) as X1. pose proof (lor_add_12 x 2 Hx) as X2. pose proof (lor_add_12 y 1 Hy) as Y1. pose proof (lor_add_12 y 2 Hy) as Y2.
  change (Z.shiftl 1 12) with 0x1000 in *. change (Z.shiftl 2 12) with 0x2000 in *. rewrite X1, X2, Y1, Y2.
  destruct (negb _); destruct (negb _); try destruct (negb _); try destruct (negb _); lia.
Qed.
Lemma area_roundtrip t : area_ok t -> exists b, touchArea_save t = Ok b /\ zlen b = 6 /\ touchArea_fromData b = Ok t.
Proof.
  intros (Hx & Hy & Hal & Hw & Hh). unfold touchArea_save.
  pose proof (pack_align_range _ _ _ Hx Hy Hal) as R. pose proof (unpack_pack_alignment _ _ _ Hx Hy Hal) as U. cbv zeta in U.
  destruct (packAlignmentIntoPos (taX t) (taY t) (taAlign t)) as [xp yp]. cbn [fst snd] in U. unfold is_byte in *.
  rewrite pack_us_ok by (repeat constructor; cbn [fst snd]; p256; lia).
  eexists. split; [reflexivity|]. split; [reflexivity|]. unfold les, touchArea_fromData. cbn [map concat fst snd]. rewrite app_nil_r.
  rdalls. rewrite U. destruct t; reflexivity.
Qed.
Lemma pos_roundtrip t : pos_ok t -> exists b, imagePosition_save t = Ok b /\ zlen b = 8 /\ imagePosition_fromData b = Ok t.
Proof.
  intros (Hx & Hy & Hal & Hi). unfold imagePosition_save.
  pose proof (pack_align_range _ _ _ Hx Hy Hal) as R. pose proof (unpack_pack_alignment _ _ _ Hx Hy Hal) as U. cbv zeta in U.
  destruct (packAlignmentIntoPos (ipX t) (ipY t) (ipAlign t)) as [xp yp]. cbn [fst snd] in U. change (2 ^ 32) with 4294967296 in Hi.
  rewrite pack_us_ok by (repeat constructor; cbn [fst snd]; p256; lia).
  eexists. split; [reflexivity|]. split; [reflexivity|]. unfold les, imagePosition_fromData. cbn [map concat fst snd]. rewrite app_nil_r.
  rdalls. rewrite U. destruct t; reflexivity.
Qed.
Lemma mapM_exists {A B} (f : A -> res B) l : (forall x, In x l -> exists y, f x = Ok y) -> exists r, mapM f l = Ok r.
Proof.
  induction l as [|x l IH]; intros H; cbn [mapM]; [eauto|]. destruct (H x) as (y & ->); [left; reflexivity|]. cbn [bind].
  destruct IH as (r & ->); [intros; apply H; right; assumption|]. cbn [bind]. eauto.
Qed.

Lemma bnbl_roundtrip b : 0 <= blUnk04 b < 65536 -> zlen (blAreas b) < 65536 -> Forall area_ok (blAreas b) ->
  exists d, bnbl_save b = Ok d /\ zlen d = 8 + 6 * zlen (blAreas b) /\ forall tail, bnbl_load (d ++ tail) = Ok b.
Proof.
  intros Hu Hn F. rewrite Forall_forall in F. pose proof (zlen_nonneg (blAreas b)) as P0. unfold bnbl_save.
  rewrite pack_us_ok by (repeat constructor; cbn [fst snd]; p256; lia). cbn [bind].
  destruct (mapM_exists touchArea_save (blAreas b)) as (bs & Hbs); [intros t Ht; destruct (area_roundtrip t (F t Ht)) as (x & -> & _); eauto|].
  rewrite Hbs. cbn [bind]. eexists. split; [reflexivity|].
  set (h := les _). assert (Lh : zlen h = 4) by reflexivity.
  assert (R : forall post, zlen (concat bs) = zlen (blAreas b) * 6 /\
    mapM (fun i => touchArea_fromData (slice ((asc "JNBL" ++ h) ++ concat bs ++ post) (8 + i * 6) (8 + i * 6 + 6))) (range_z 0 (length (blAreas b))) = Ok (blAreas b)).
  { intros post. apply (records_load touchArea_save); [assumption| |reflexivity|lia].
    intros x y Hx Hy. destruct (area_roundtrip x (F x Hx)) as (z & Hz & L & R). assert (z = y) as -> by congruence. auto. }
  split; [destruct (R []) as [L _]; rewrite !zlen_app, L; change (zlen (asc "JNBL")) with 4; lia|].
  intros tail. destruct (R tail) as [_ R']. rewrite <- app_assoc in R'. unfold bnbl_load. rewrite <- !app_assoc. unfold slice_to. rewrite slice_hit by reflexivity.
  rewrite beq_refl. cbn [guard bind]. revert R'. unfold h, les. cbn [map concat fst snd]. rewrite app_nil_r, <- !app_assoc. intros R'.
  rewrite (unpack_u_skip 2 (asc "JNBL") _ 4) by reflexivity. rewrite (unpack_u_skip 2 (asc "JNBL") _ 6) by (change (zlen (asc "JNBL")) with 4; lia).
  change (4 - zlen (asc "JNBL")) with 0. change (6 - zlen (asc "JNBL")) with 2. 
  rewrite (unpack_u_hit 2 _ _ 0) by (p256; lia). cbn [bind]. rewrite unpack_u_skip by zg. rewrite unpack_u_hit by (p256; zg). cbn [bind].
  rewrite length_zlen, R'. destruct b; reflexivity.
Qed.
Lemma bncl_roundtrip b : 0 <= clUnk04 b < 65536 -> zlen (clPositions b) < 65536 -> Forall pos_ok (clPositions b) ->
  exists d, bncl_save b = Ok d /\ zlen d = 8 + 8 * zlen (clPositions b) /\ forall tail, bncl_load (d ++ tail) = Ok b.
Proof.
  intros Hu Hn F. rewrite Forall_forall in F. pose proof (zlen_nonneg (clPositions b)) as P0. unfold bncl_save.
  rewrite pack_us_ok by (repeat constructor; cbn [fst snd]; p256; lia). cbn [bind].
  destruct (mapM_exists imagePosition_save (clPositions b)) as (bs & Hbs); [intros t Ht; destruct (pos_roundtrip t (F t Ht)) as (x & -> & _); eauto|].
  rewrite Hbs. cbn [bind]. eexists. split; [reflexivity|].
  set (h := les _). assert (Lh : zlen h = 4) by reflexivity.
  assert (R : forall post, zlen (concat bs) = zlen (clPositions b) * 8 /\
    mapM (fun i => imagePosition_fromData (slice ((asc "JNCL" ++ h) ++ concat bs ++ post) (8 + i * 8) (8 + i * 8 + 8))) (range_z 0 (length (clPositions b))) = Ok (clPositions b)).
  { intros post. apply (records_load imagePosition_save); [assumption| |reflexivity|lia].
    intros x y Hx Hy. destruct (pos_roundtrip x (F x Hx)) as (z & Hz & L & R). assert (z = y) as -> by congruence. auto. }
  split; [destruct (R []) as [L _]; rewrite !zlen_app, L; change (zlen (asc "JNCL")) with 4; lia|].
  intros tail. destruct (R tail) as [_ R']. rewrite <- app_assoc in R'. unfold bncl_load. rewrite <- !app_assoc. unfold slice_to. rewrite slice_hit by reflexivity.
  rewrite beq_refl. cbn [guard bind]. revert R'. unfold h, les. cbn [map concat fst snd]. rewrite app_nil_r, <- !app_assoc. intros R'.
  rewrite (unpack_u_skip 2 (asc "JNCL") _ 4) by reflexivity. rewrite (unpack_u_skip 2 (asc "JNCL") _ 6) by (change (zlen (asc "JNCL")) with 4; lia).
  change (4 - zlen (asc "JNCL")) with 0. change (6 - zlen (asc "JNCL")) with 2. 
  rewrite (unpack_u_hit 2 _ _ 0) by (p256; lia). cbn [bind]. rewrite unpack_u_skip by zg. rewrite unpack_u_hit by (p256; zg). cbn [bind].
  rewrite length_zlen, R'. destruct b; reflexivity.
Qed.

(** canonical records: alignment codes below 3 and no bits above *)
Definition area_bytes_ok (b : bytes) : Prop := is_bytes b /\ unle (slice b 0 2) < 0x3000 /\ unle (slice b 2 4) < 0x3000.
Lemma area_resave b : zlen b = 6 -> area_bytes_ok b -> exists t, touchArea_fromData b = Ok t /\ touchArea_save t = Ok b.
Proof.
  intros L (HB & H1 & H2). destruct b as [|b0 [|b1 [|b2 [|b3 [|b4 [|b5 [|]]]]]]]; try (cbn in L; discriminate L);
    try (unfold zlen in L; cbn [length] in L; lia).
  change (slice [b0; b1; b2; b3; b4; b5] 0 2) with [b0; b1] in H1. change (slice [b0; b1; b2; b3; b4; b5] 2 4) with [b2; b3] in H2. cbn [unle] in H1, H2.
  unfold is_bytes in HB. repeat match goal with H : Forall _ (_ :: _) |- _ => apply Forall_cons_iff in H as [? H] end. unfold is_byte in *.
  set (xp := b0 + 256 * b1). set (yp := b2 + 256 * b3).
  assert (E : [b0; b1; b2; b3; b4; b5] = le 2 xp ++ le 2 yp ++ le 1 b4 ++ le 1 b5).
  { unfold xp, yp. cbn [le app]. f_equal; [lia|]. f_equal; [lia|]. f_equal; [lia|]. f_equal; [lia|]. f_equal; [lia|]. f_equal. lia. }
  rewrite E. unfold touchArea_fromData. assert (R1 : 0 <= xp < 0x3000) by (unfold xp; lia). assert (R2 : 0 <= yp < 0x3000) by (unfold yp; lia).
  clearbody xp yp. rdalls. pose proof (pack_unpack_alignment xp yp R1 R2) as PU.
  destruct (unpackAlignmentFromPos xp yp) as [[x y] al]. eexists. split; [reflexivity|].
  unfold touchArea_save. cbn [taX taY taW taH taAlign]. rewrite PU. rewrite pack_us_ok by (repeat constructor; cbn [fst snd]; p256; lia). reflexivity.
Qed.
Lemma bnbl_resave d u n body : d = asc "JNBL" ++ le 2 u ++ le 2 (Z.of_nat n) ++ body -> 0 <= u < 65536 -> Z.of_nat n < 65536 ->
  zlen body = Z.of_nat n * 6 -> (forall i, 0 <= i < Z.of_nat n -> area_bytes_ok (slice body (i * 6) (i * 6 + 6))) ->
  exists b, bnbl_load d = Ok b /\ bnbl_save b = Ok d.
Proof.
  intros -> Hu Hn L HG.
  destruct (records_save touchArea_save touchArea_fromData area_bytes_ok 6 n ltac:(lia) area_resave body (asc "JNBL" ++ le 2 u ++ le 2 (Z.of_nat n)) [] 8 L)
    as (xs & bs & H1 & H2 & H3 & H4); [reflexivity|assumption|].
  rewrite app_nil_r, <- !app_assoc in H1.
  exists {| blUnk04 := u; blAreas := xs |}. split.
  - unfold bnbl_load, slice_to. rewrite slice_hit by reflexivity. rewrite beq_refl. cbn [guard bind].
    rewrite (unpack_u_skip 2 (asc "JNBL") _ 4) by reflexivity. rewrite (unpack_u_skip 2 (asc "JNBL") _ 6) by (change (zlen (asc "JNBL")) with 4; lia).
    change (4 - zlen (asc "JNBL")) with 0. change (6 - zlen (asc "JNBL")) with 2.
    rewrite (unpack_u_hit 2 _ _ 0) by (p256; lia). cbn [bind]. rewrite unpack_u_skip by zg. rewrite unpack_u_hit by (p256; zg). cbn [bind].
    replace (Z.to_nat (Z.of_nat n)) with n by lia. rewrite H1. reflexivity.
  - unfold bnbl_save. cbn [blUnk04 blAreas]. rewrite pack_us_ok by (repeat constructor; cbn [fst snd]; p256; lia). cbn [bind]. rewrite H2. cbn [bind].
    rewrite H3, H4. unfold les. cbn [map concat fst snd]. rewrite app_nil_r, <- app_assoc. reflexivity.
Qed.
Lemma bnbl_magic d : slice_to d 4 <> asc "JNBL" -> bnbl_load d = Err ValueError.
Proof. intros H. unfold bnbl_load. apply beq_neq in H. rewrite H. reflexivity. Qed.
Lemma bncl_magic d : slice_to d 4 <> asc "JNCL" -> bncl_load d = Err ValueError.
Proof. intros H. unfold bncl_load. apply beq_neq in H. rewrite H. reflexivity. Qed.

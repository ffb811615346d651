From Verif Require Import PyBase PyLemmas PyTac NarcLemmas Gfx2DModel.

(** ** Image tiles *)
Definition pix_limit (f : imgfmt) : Z := match f with FI4 => 16 | FI8 => 256 end.
Definition tile_bytes (f : imgfmt) : Z := match f with FI4 => 32 | FI8 => 64 end.
(** 64 pixels that fit the format *)
Definition itile_ok (f : imgfmt) (t : itile) : Prop :=
  tFormat t = f /\ zlen (tPixels t) = 64 /\ Forall (fun p => 0 <= p < pix_limit f) (tPixels t).

Lemma imgfmt_eqb_eq a b : imgfmt_eqb a b = true <-> a = b.
Proof. destruct a, b; cbn; split; congruence. Qed.
Lemma mapfmt_eqb_eq a b : mapfmt_eqb a b = true <-> a = b.
Proof. destruct a, b; cbn; split; congruence. Qed.

Lemma nibble_byte b : is_byte b -> Z.lor (Z.land (Z.land b 0xF) 0xF) (Z.land (Z.shiftl (Z.shiftr b 4) 4) 0xF0) = b /\
  0 <= Z.land b 0xF < 16 /\ 0 <= Z.shiftr b 4 < 16.
Proof.
  intros H. pose proof (sweep 256 (fun b => (Z.lor (Z.land (Z.land b 0xF) 0xF) (Z.land (Z.shiftl (Z.shiftr b 4) 4) 0xF0) =? b) &&
    (0 <=? Z.land b 0xF) && (Z.land b 0xF <? 16) && (0 <=? Z.shiftr b 4) && (Z.shiftr b 4 <? 16)) ltac:(vm_compute; reflexivity) b H) as S.
  cbv beta in S. rewrite !andb_true_iff in S. lia.
Qed.
Lemma nibble_pair l h : 0 <= l < 16 -> 0 <= h < 16 ->
  let v := Z.lor (Z.land l 0xF) (Z.land (Z.shiftl h 4) 0xF0) in is_byte v /\ Z.land v 0xF = l /\ Z.shiftr v 4 = h.
Proof.
  intros Hl Hh v. pose proof (sweep 256 (fun b => let l := b mod 16 in let h := b / 16 in
    let v := Z.lor (Z.land l 0xF) (Z.land (Z.shiftl h 4) 0xF0) in (0 <=? v) && (v <? 256) && (Z.land v 0xF =? l) && (Z.shiftr v 4 =? h))
    ltac:(vm_compute; reflexivity) (l + 16 * h) ltac:(lia)) as S. cbv beta zeta in S.
  replace ((l + 16 * h) mod 16) with l in S by lia. replace ((l + 16 * h) / 16) with h in S by lia.
  fold v in S. clearbody v. rewrite !andb_true_iff in S. unfold is_byte. lia.
Qed.

Lemma nibbles_of_bytes d : is_bytes d ->
  save_nibbles (flat_map (fun b => [Z.land b 0xF; Z.shiftr b 4]) d) None = d /\
  zlen (flat_map (fun b => [Z.land b 0xF; Z.shiftr b 4]) d) = 2 * zlen d /\
  Forall (fun p => 0 <= p < 16) (flat_map (fun b => [Z.land b 0xF; Z.shiftr b 4]) d).
Proof.
  induction 1 as [|b d Hb _ (I1 & I2 & I3)]; cbn [flat_map app save_nibbles]; [auto|].
  destruct (nibble_byte b Hb) as (N1 & N2 & N3). split; [rewrite N1, I1; reflexivity|]. split; [rewrite !zlen_cons; lia|].
  constructor; [assumption|]. constructor; assumption.
Qed.
Lemma bytes_of_nibbles n : forall px, zlen px = 2 * Z.of_nat n -> Forall (fun p => 0 <= p < 16) px ->
  let d := save_nibbles px None in
  zlen d = Z.of_nat n /\ is_bytes d /\ flat_map (fun b => [Z.land b 0xF; Z.shiftr b 4]) d = px.
Proof.
  induction n as [|n IH]; intros px L F.
  - apply zlen_0 in L as ->. cbn. repeat split; constructor.
  - destruct px as [|l [|h px]]; [rewrite zlen_nil in L; lia|rewrite zlen_cons, zlen_nil in L; lia|]. rewrite !zlen_cons in L.
    apply Forall_cons_iff in F as [Hl F]. apply Forall_cons_iff in F as [Hh F].
    destruct (IH px ltac:(lia) F) as (I1 & I2 & I3). cbn [save_nibbles].
    destruct (nibble_pair l h Hl Hh) as (N1 & N2 & N3).
    cbv zeta in *. split; [rewrite zlen_cons; lia|]. split; [constructor; assumption|].
    cbn [flat_map app]. rewrite N2, N3, I3. reflexivity.
Qed.

Lemma itile_save_load f t : itile_ok f t -> exists b, itile_save t = Ok b /\ zlen b = tile_bytes f /\ itile_new (Some b) f = Ok t.
Proof.
  intros (E & L & F). destruct t as [px f']. cbn [tFormat tPixels] in *. subst f'. unfold itile_save. cbn [tFormat tPixels]. destruct f; cbn [pix_limit tile_bytes] in *.
  - exists px. unfold to_bytes. rewrite (proj2 (forallb_byteb px) F). split; [reflexivity|]. split; [assumption|]. unfold itile_new. rewrite L. reflexivity.
  - destruct (bytes_of_nibbles 32 px L F) as (I1 & I2 & I3). cbv zeta in *. eexists. split; [reflexivity|]. split; [assumption|].
    unfold itile_new. rewrite I1, I3. reflexivity.
Qed.
Lemma itile_load_save f b : is_bytes b -> zlen b = tile_bytes f -> exists t, itile_new (Some b) f = Ok t /\ itile_ok f t /\ itile_save t = Ok b.
Proof.
  intros B L. unfold itile_new. destruct f; cbn [tile_bytes] in L; rewrite L; cbn [Z.eqb Pos.eqb negb].
  - eexists. split; [reflexivity|]. split; [repeat split; [assumption|exact B]|]. unfold itile_save, to_bytes. cbn [tFormat tPixels].
    rewrite (proj2 (forallb_byteb b) B). reflexivity.
  - destruct (nibbles_of_bytes b B) as (N1 & N2 & N3). eexists. split; [reflexivity|]. split.
    + repeat split; cbn [tPixels]; [lia|exact N3].
    + unfold itile_save. cbn [tFormat tPixels]. rewrite N1. reflexivity.
Qed.
Lemma itile_new_wrong f b : zlen b <> tile_bytes f -> itile_new (Some b) f = Err ValueError.
Proof. intros N. unfold itile_new. destruct f; cbn [tile_bytes] in N; [replace (zlen b =? 64) with false by lia|replace (zlen b =? 32) with false by lia]; reflexivity. Qed.

Lemma saveImageTiles_ok f tiles : Forall (fun t => tFormat t = f) tiles -> saveImageTiles tiles = (bs <- mapM itile_save tiles ;; Ok (concat bs)).
Proof.
  intros F. destruct tiles as [|t0 l]; [reflexivity|]. cbn [saveImageTiles].
  replace (forallb _ (t0 :: l)) with true; [reflexivity|]. symmetry. apply forallb_forall. intros t Ht. rewrite Forall_forall in F.
  apply imgfmt_eqb_eq. rewrite (F t Ht), (F t0 (or_introl eq_refl)). reflexivity.
Qed.
Lemma image_tiles_roundtrip f tiles : Forall (itile_ok f) tiles ->
  exists d, saveImageTiles tiles = Ok d /\ zlen d = tile_bytes f * zlen tiles /\ loadImageTiles d f = Ok tiles.
Proof.
  intros F. rewrite (saveImageTiles_ok f) by (eapply Forall_impl; [|exact F]; intros t H; apply H).
  assert (E : exists bs, mapM itile_save tiles = Ok bs).
  { clear - F. induction F as [|t l H _ [bs IH]]; [exists []; reflexivity|]. destruct (itile_save_load f t H) as (b & E & _).
    exists (b :: bs). cbn [mapM]. rewrite E, IH. reflexivity. }
  destruct E as (bs & E). rewrite E. cbn [bind]. exists (concat bs). split; [reflexivity|].
  assert (0 < tile_bytes f) by (destruct f; reflexivity).
  destruct (records_load itile_save (fun b => itile_new (Some b) f) (tile_bytes f) tiles bs [] [] 0 E) as [L R]; [|reflexivity|lia|].
  { intros t b Ht Hb. rewrite Forall_forall in F. destruct (itile_save_load f t (F t Ht)) as (b' & E' & Lb & Hl). rewrite Hb in E'. injection E' as <-. auto. }
  split; [lia|]. unfold loadImageTiles. change (match f with FI4 => 32 | FI8 => 64 end) with (tile_bytes f). rewrite L.
  rewrite Z.div_mul by lia. rewrite length_zlen. rewrite <- R. cbn [app]. rewrite app_nil_r.
  apply f_equal2; [|reflexivity]. reflexivity.
Qed.
Lemma slice_slice_le {A} (l : list A) i j n : 0 <= i -> 0 <= j <= n -> n <= zlen l -> slice (slice l 0 n) i j = slice l i j.
Proof.
  intros. rewrite <- (slice_all l) at 2. rewrite <- (slice_app_eq l 0 n (zlen l)) by lia. rewrite slice_app_l; [reflexivity|assumption|].
  rewrite zlen_slice by lia. lia.
Qed.
(** any data: the whole tiles are read, a trailing partial tile is ignored *)
Lemma image_tiles_resave f d : is_bytes d ->
  exists tiles, loadImageTiles d f = Ok tiles /\ zlen tiles = zlen d / tile_bytes f /\ Forall (itile_ok f) tiles /\
    saveImageTiles tiles = Ok (slice d 0 (tile_bytes f * (zlen d / tile_bytes f))).
Proof.
  intros B. assert (K : 0 < tile_bytes f) by (destruct f; reflexivity). pose proof (zlen_nonneg d) as P.
  set (k := tile_bytes f) in *. set (n := Z.to_nat (zlen d / k)). assert (HN : Z.of_nat n = zlen d / k) by (unfold n; rewrite Z2Nat.id; [reflexivity|apply Z.div_pos; lia]).
  assert (HL : k * (zlen d / k) <= zlen d) by (apply Z.mul_div_le; lia). assert (HQ : 0 <= zlen d / k) by (apply Z.div_pos; lia).
  set (body := slice d 0 (k * (zlen d / k))). assert (LB : zlen body = Z.of_nat n * k) by (unfold body; rewrite zlen_slice; nia).
  destruct (records_save itile_save (fun b => itile_new (Some b) f) is_bytes k n K) with (body := body) (pre := @nil Z) (post := @nil Z) (off := 0) as (xs & bs & H1 & H2 & H3 & H4); [|exact LB|reflexivity| |].
  { intros b Lb Hb. destruct (itile_load_save f b Hb Lb) as (t & T1 & _ & T2). eauto. }
  { intros. apply is_bytes_slice, is_bytes_slice, B. }
  assert (EL : loadImageTiles d f = Ok xs).
  { rewrite <- H1. unfold loadImageTiles. change (match f with FI4 => 32 | FI8 => 64 end) with k. fold n.
    cbn [app]. rewrite app_nil_r. assert (G : forall m s, (0 <= s) -> s + Z.of_nat m <= Z.of_nat n ->
      mapM (fun i => itile_new (Some (slice d (i * k) (i * k + k))) f) (range_z s m) =
      mapM (fun i => itile_new (Some (slice body (0 + i * k) (0 + i * k + k))) f) (range_z s m)).
    { induction m as [|m IHm]; intros s Hs Hm; cbn [range_z mapM]; [reflexivity|].
      rewrite IHm by lia. unfold body. rewrite slice_slice_le by nia. reflexivity. }
    apply G; lia. }
  exists xs. split; [exact EL|]. split; [lia|].
  assert (FO : Forall (itile_ok f) xs).
  { assert (FB : forall b, is_bytes b -> forall t, itile_new (Some b) f = Ok t -> itile_ok f t).
    { intros b Hb t Ht. destruct (Z.eq_dec (zlen b) (tile_bytes f)) as [Eb|Nb].
      - destruct (itile_load_save f b Hb Eb) as (t' & T1 & T2 & _). rewrite Ht in T1. injection T1 as <-. exact T2.
      - rewrite itile_new_wrong in Ht by assumption. discriminate. }
    clear - EL FB B. unfold loadImageTiles in EL. apply mapM_Forall2 in EL. induction EL as [|i t is ts H _ IH]; constructor; [|assumption].
    eapply FB; [|exact H]. apply is_bytes_slice, B. }
  split; [exact FO|]. rewrite (saveImageTiles_ok f) by (eapply Forall_impl; [|exact FO]; intros t H; apply H). rewrite H2. cbn [bind]. rewrite H3. reflexivity.
Qed.
Lemma saveImageTiles_mixed t0 l t : In t l -> tFormat t <> tFormat t0 -> saveImageTiles (t0 :: l) = Err ValueError.
Proof.
  intros H N. cbn [saveImageTiles]. replace (forallb _ (t0 :: l)) with false; [reflexivity|]. symmetry. apply not_true_iff_false.
  rewrite forallb_forall. intros G. specialize (G t (or_intror H)). apply imgfmt_eqb_eq in G. contradiction.
Qed.

(** ** Tilemap tiles *)
Definition b2z (b : bool) (k : Z) : Z := if b then k else 0.
Lemma value16 t : mFormat t = M16 ->
  mtile_value t = mTileNum t mod 1024 + b2z (mHFlip t) 1024 + b2z (mVFlip t) 2048 + 4096 * (mPalette t mod 16).
Proof.
  intros E. unfold mtile_value. rewrite E. rewrite Z.lor_0_l. change 0x3FF with (2 ^ 10 - 1). change 0xF with (2 ^ 4 - 1). rewrite !land_mask by lia.
  change (2 ^ 10) with 1024. change (2 ^ 4) with 16. set (a := mTileNum t mod 1024). set (p := mPalette t mod 16).
  assert (Ha : 0 <= a < 1024) by (unfold a; lia). assert (Hp : 0 <= p < 16) by (unfold p; lia). clearbody a p. cbv zeta.
  assert (H1 : (if mHFlip t then Z.lor a 0x400 else a) = a + b2z (mHFlip t) 1024).
  { destruct (mHFlip t); cbn [b2z]; [|lia]. change 0x400 with (Z.shiftl 1 10). rewrite lor_add by lia. reflexivity. }
  rewrite H1. set (x := a + b2z (mHFlip t) 1024). assert (Hx : 0 <= x < 2048) by (unfold x; destruct (mHFlip t); cbn [b2z]; lia).
  assert (H2 : (if mVFlip t then Z.lor x 0x800 else x) = x + b2z (mVFlip t) 2048).
  { destruct (mVFlip t); cbn [b2z]; [|lia]. change 0x800 with (Z.shiftl 1 11). rewrite lor_add by lia. reflexivity. }
  rewrite H2. rewrite lor_add by (destruct (mVFlip t); cbn [b2z]; lia). change (2 ^ 12) with 4096. unfold x. lia.
Qed.
Lemma value8 t : mFormat t = M8 -> mtile_value t = mTileNum t mod 256.
Proof. intros E. unfold mtile_value. rewrite E. change 0xFF with (2 ^ 8 - 1). apply (land_mask _ 8). lia. Qed.
Lemma set_value16 t v : mFormat t = M16 -> mtile_set_value t v =
  {| mFormat := M16; mTileNum := v mod 1024; mHFlip := Z.testbit v 10; mVFlip := Z.testbit v 11; mPalette := (v / 4096) mod 16 |}.
Proof.
  intros E. unfold mtile_set_value. rewrite E. change 0x3FF with (2 ^ 10 - 1). change 0xF with (2 ^ 4 - 1). rewrite !land_mask by lia.
  change 0x400 with (2 ^ 10). change 0x800 with (2 ^ 11). rewrite !land_bit by lia. rewrite Z.shiftr_div_pow2 by lia. reflexivity.
Qed.
Lemma mtile_new_eq v f : mtile_new v f =
  {| mFormat := f; mTileNum := v mod 1024; mHFlip := Z.testbit v 10; mVFlip := Z.testbit v 11; mPalette := (v / 4096) mod 16 |}.
Proof. unfold mtile_new. rewrite set_value16 by reflexivity. reflexivity. Qed.

(** the tiles that a format can represent *)
Definition mtile_ok (f : mapfmt) (t : mtile) : Prop :=
  mFormat t = f /\
  match f with
  | M16 => 0 <= mTileNum t < 1024 /\ 0 <= mPalette t < 16
  | M8 => 0 <= mTileNum t < 256 /\ mHFlip t = false /\ mVFlip t = false /\ mPalette t = 0
  end.
Definition val_limit (f : mapfmt) : Z := match f with M16 => 65536 | M8 => 256 end.

Lemma testbit_div v k : 0 <= k -> Z.testbit v k = Z.odd (v / 2 ^ k).
Proof. intros. rewrite <- Z.bit0_odd, Z.div_pow2_bits by lia. f_equal. Qed.
Lemma value_range t : 0 <= mtile_value t < val_limit (mFormat t).
Proof.
  destruct (mFormat t) eqn:E; cbn [val_limit]; [rewrite value16 by assumption|rewrite value8 by assumption].
  - destruct (mHFlip t), (mVFlip t); cbn [b2z]; lia.
  - lia.
Qed.
Lemma new_value f t : mtile_ok f t -> mtile_new (mtile_value t) f = t.
Proof.
  intros [E H]. rewrite mtile_new_eq. destruct t as [f' n h v p]. cbn [mFormat mTileNum mHFlip mVFlip mPalette] in *. subst f'.
  destruct f.
  - rewrite value16 by reflexivity. cbn [mTileNum mHFlip mVFlip mPalette]. destruct H as [Hn Hp]. rewrite !(Z.mod_small n), !(Z.mod_small p) by lia.
    rewrite !testbit_div by lia. change (2 ^ 10) with 1024. change (2 ^ 11) with 2048.
    set (V := n + b2z h 1024 + b2z v 2048 + 4096 * p).
    assert (Q1 : V / 1024 = b2z h 1 + 2 * (b2z v 1 + 2 * p)) by (unfold V; destruct h, v; cbn [b2z]; lia).
    assert (Q2 : V / 2048 = b2z v 1 + 2 * p) by (unfold V; destruct h, v; cbn [b2z]; lia).
    assert (Q3 : V / 4096 = p) by (unfold V; destruct h, v; cbn [b2z]; lia).
    assert (Q4 : V mod 1024 = n) by (unfold V; destruct h, v; cbn [b2z]; lia).
    rewrite Q1, Q2, Q3, Q4, (Z.mod_small p) by lia. rewrite !Z.odd_add_mul_2. destruct h, v; reflexivity.
  - rewrite value8 by reflexivity. cbn [mTileNum]. destruct H as (Hn & -> & -> & ->). rewrite (Z.mod_small n 256) by lia.
    rewrite !testbit_div by lia. rewrite (Z.mod_small n), (Z.div_small n (2 ^ 10)), (Z.div_small n (2 ^ 11)), (Z.div_small n 4096) by lia. reflexivity.
Qed.
Lemma value_new f v : 0 <= v < val_limit f -> mtile_value (mtile_new v f) = v /\ mtile_ok f (mtile_new v f).
Proof.
  intros H. rewrite mtile_new_eq. destruct f; cbn [val_limit] in H.
  - split; [rewrite value16 by reflexivity|split; [reflexivity|]]; cbn [mTileNum mHFlip mVFlip mPalette]; [|lia].
    rewrite !testbit_div by lia. change (2 ^ 10) with 1024. change (2 ^ 11) with 2048.
    pose proof (Zmod_odd (v / 1024)) as O1. pose proof (Zmod_odd (v / 2048)) as O2.
    destruct (Z.odd (v / 1024)), (Z.odd (v / 2048)); cbn [b2z]; lia.
  - split; [rewrite value8 by reflexivity|split; [reflexivity|]]; cbn [mTileNum mHFlip mVFlip mPalette]; [lia|].
    rewrite !testbit_div by lia. rewrite (Z.mod_small v), (Z.div_small v (2 ^ 10)), (Z.div_small v (2 ^ 11)), (Z.div_small v 4096) by lia.
    split; [lia|]. repeat split.
Qed.

Lemma mtile_save1 t : mFormat t = M16 -> pack_u 2 (mtile_value t) = Ok (le 2 (mtile_value t)).
Proof. intros E. pose proof (value_range t) as R. rewrite E in R. cbn [val_limit] in R. apply pack_u_ok. p256. lia. Qed.
Lemma saveTilemapTiles_ok f tiles : Forall (fun t => mFormat t = f) tiles ->
  saveTilemapTiles tiles = Ok (match f with M16 => concat (map (fun t => le 2 (mtile_value t)) tiles) | M8 => map mtile_value tiles end).
Proof.
  intros F. destruct tiles as [|t0 l]; [destruct f; reflexivity|]. cbn [saveTilemapTiles].
  replace (forallb _ (t0 :: l)) with true.
  2:{ symmetry. apply forallb_forall. intros t Ht. rewrite Forall_forall in F. apply mapfmt_eqb_eq. rewrite (F t Ht), (F t0 (or_introl eq_refl)). reflexivity. }
  cbn [negb]. assert (E0 : mFormat t0 = f) by (inversion F; assumption). rewrite E0. destruct f.
  - rewrite (mapM_map _ (fun t => le 2 (mtile_value t))); [reflexivity|]. intros t Ht. rewrite Forall_forall in F. apply mtile_save1, F, Ht.
  - unfold to_bytes. rewrite (proj2 (forallb_byteb (map mtile_value (t0 :: l)))); [reflexivity|].
    apply Forall_map. eapply Forall_impl; [|exact F]. intros t Ht. pose proof (value_range t) as R. rewrite Ht in R. exact R.
Qed.
Lemma tilemap_roundtrip f tiles : Forall (mtile_ok f) tiles ->
  exists d, saveTilemapTiles tiles = Ok d /\ zlen d = zlen tiles * (match f with M16 => 2 | M8 => 1 end) /\ is_bytes d /\ loadTilemapTiles d f = Ok tiles.
Proof.
  intros F. rewrite (saveTilemapTiles_ok f) by (eapply Forall_impl; [|exact F]; intros t H; apply H). eexists. split; [reflexivity|].
  destruct f.
  - assert (L : zlen (concat (map (fun t => le 2 (mtile_value t)) tiles)) = zlen tiles * 2) by (apply zlen_concat_map; intros; apply zlen_le).
    split; [exact L|]. split.
    { apply Forall_concat, Forall_map, Forall_forall. intros. apply is_bytes_le. }
    unfold loadTilemapTiles. rewrite L. replace (Z.to_nat ((zlen tiles * 2 + 1) / 2)) with (length tiles) by (unfold zlen; lia).
    transitivity (Ok (map (fun t : mtile => t) tiles)); [|rewrite map_id; reflexivity]. apply (mapM_table _ (fun t : mtile => t) tiles 0). intros l1 x l2 E.
    destruct (concat_at (fun t => le 2 (mtile_value t)) 2 l1 x l2) as (C1 & C2 & C3); [intros; apply zlen_le|].
    rewrite E, C1. pose proof (zlen_nonneg l1). rewrite unpack_u_skip by lia.
    assert (Hx : mtile_ok M16 x) by (rewrite Forall_forall in F; apply F; rewrite E; apply in_or_app; right; left; reflexivity).
    rewrite unpack_u_hit; [cbn [bind]; rewrite new_value by assumption; reflexivity|lia|].
    pose proof (value_range x) as R. rewrite (proj1 Hx) in R. exact R.
  - split; [rewrite zlen_map; lia|]. split.
    { apply Forall_map. eapply Forall_impl; [|exact F]. intros t Ht. pose proof (value_range t) as R. rewrite (proj1 Ht) in R. exact R. }
    cbn [loadTilemapTiles]. rewrite map_map. f_equal. rewrite <- (map_id tiles) at 2. apply map_ext_in. intros t Ht. rewrite Forall_forall in F.
    apply new_value, F, Ht.
Qed.
Lemma tilemap_resave f d : is_bytes d -> (f = M16 -> zlen d mod 2 = 0) ->
  exists tiles, loadTilemapTiles d f = Ok tiles /\ Forall (mtile_ok f) tiles /\ saveTilemapTiles tiles = Ok d.
Proof.
  intros B E. destruct f.
  - specialize (E eq_refl). pose proof (zlen_nonneg d) as P. set (n := Z.to_nat ((zlen d + 1) / 2)).
    assert (G : forall m d' pre, is_bytes d' -> zlen d' = 2 * Z.of_nat m -> zlen pre mod 2 = 0 -> exists tiles,
      mapM (fun i => t <- unpack_u 2 (pre ++ d') (2 * i) ;; Ok (mtile_new t M16)) (range_z (zlen pre / 2) m) = Ok tiles /\
      Forall (mtile_ok M16) tiles /\ concat (map (fun t => le 2 (mtile_value t)) tiles) = d').
    { induction m as [|m IH]; intros d' pre Bd Ld Mp.
      - apply zlen_0 in Ld as ->. exists []. repeat split; constructor.
      - destruct d' as [|x [|y d']]; [rewrite zlen_nil in Ld; lia|rewrite zlen_cons, zlen_nil in Ld; lia|]. rewrite !zlen_cons in Ld.
        change (x :: y :: d') with ([x; y] ++ d') in *. apply is_bytes_app in Bd as [B1 B2].
        destruct (IH d' (pre ++ [x; y]) B2 ltac:(lia)) as (ts & T1 & T2 & T3); [rewrite zlen_app; change (zlen [x; y]) with 2; lia|].
        pose proof (unle_range [x; y] B1) as R. change (256 ^ zlen [x; y]) with 65536 in R.
        destruct (value_new M16 (unle [x; y]) R) as [V1 V2].
        exists (mtile_new (unle [x; y]) M16 :: ts). split; [|split].
        + cbn [range_z mapM]. replace (2 * (zlen pre / 2)) with (zlen pre) by lia. rewrite unpack_u_skip by lia. rewrite Z.sub_diag.
          unfold unpack_u at 1, unpack_e. rewrite rd_hit by reflexivity. cbn [bind dec].
          rewrite <- app_assoc in T1. replace (zlen (pre ++ [x; y]) / 2) with (zlen pre / 2 + 1) in T1 by (rewrite zlen_app; change (zlen [x; y]) with 2; lia).
          rewrite T1. reflexivity.
        + constructor; assumption.
        + cbn [map concat]. rewrite V1, T3. f_equal. apply (le_unle [x; y] B1). }
    destruct (G n d [] B) as (ts & T1 & T2 & T3); [unfold n; lia|reflexivity|]. exists ts. split; [exact T1|]. split; [exact T2|].
    rewrite (saveTilemapTiles_ok M16), T3 by (eapply Forall_impl; [|exact T2]; intros t H; apply H). reflexivity.
  - exists (map (fun t => mtile_new t M8) d). split; [reflexivity|].
    assert (FO : Forall (mtile_ok M8) (map (fun t => mtile_new t M8) d)).
    { apply Forall_map. eapply Forall_impl; [|exact B]. intros v Hv. apply (value_new M8 v Hv). }
    split; [exact FO|]. rewrite (saveTilemapTiles_ok M8) by (eapply Forall_impl; [|exact FO]; intros t H; apply H).
    f_equal. rewrite map_map. rewrite <- (map_id d) at 2. apply map_ext_in. intros v Hv. unfold is_bytes in B. rewrite Forall_forall in B. apply (value_new M8 v (B v Hv)).
Qed.
Lemma tilemap_odd d : zlen d mod 2 = 1 -> loadTilemapTiles d M16 = Err StructError.
Proof.
  intros E. unfold loadTilemapTiles. pose proof (zlen_nonneg d). replace (Z.to_nat ((zlen d + 1) / 2)) with (S (Z.to_nat (zlen d / 2))) by lia.
  rewrite range_z_snoc, mapM_app. cbn [mapM]. replace (0 + Z.of_nat (Z.to_nat (zlen d / 2))) with (zlen d / 2) by lia.
  assert (U : unpack_u 2 d (2 * (zlen d / 2)) = Err StructError).
  { unfold unpack_u, unpack_e, rd, struct_off. replace (2 * (zlen d / 2) <? 0) with false by lia. replace (zlen d <? 2 * (zlen d / 2) + Z.of_nat 2) with true by lia. reflexivity. }
  rewrite U. cbn [bind].
  assert (G : forall l, (forall i, In i l -> 0 <= i) -> match mapM (fun i => t <- unpack_u 2 d (2 * i) ;; Ok (mtile_new t M16)) l with Ok _ => True | Err e => e = StructError end).
  { induction l as [|i l IH]; intros Hl; cbn [mapM]; [exact I|]. assert (0 <= i) by (apply Hl; left; reflexivity).
    destruct (unpack_u 2 d (2 * i)) as [v|e] eqn:Ev; cbn [bind].
    - specialize (IH ltac:(intros; apply Hl; right; assumption)). destruct (mapM _ l); cbn [bind]; [exact I|exact IH].
    - unfold unpack_u, unpack_e, rd, struct_off in Ev. replace (2 * i <? 0) with false in Ev by lia. destruct (zlen d <? _); cbn [bind] in Ev; congruence. }
  specialize (G (range_z 0 (Z.to_nat (zlen d / 2))) ltac:(intros i Hi; apply in_range_z in Hi; lia)). destruct (mapM _ _); cbn [bind]; congruence.
Qed.

Lemma saveTilemapTiles_mixed t0 t tiles : In t (t0 :: tiles) -> mFormat t <> mFormat t0 -> saveTilemapTiles (t0 :: tiles) = Err ValueError.
Proof.
  intros H N. cbn [saveTilemapTiles]. destruct (forallb _ (t0 :: tiles)) eqn:E; [|reflexivity].
  rewrite forallb_forall in E. specialize (E t H). apply mapfmt_eqb_eq in E. contradiction.
Qed.

(** ** Flips *)
Lemma mapM_range {B} (f : Z -> res B) n out :
  mapM f (range_z 0 n) = Ok out <-> zlen out = Z.of_nat n /\ forall i, 0 <= i < Z.of_nat n -> f i = get out i.
Proof.
  split.
  - intros H. pose proof (mapM_ok_length _ _ _ H) as L. pose proof (zlen_range_z 0 n) as L2. split; [unfold zlen in *; lia|].
    intros i Hi. destruct (mapM_ok_nth f (range_z 0 n) out (Z.to_nat i) i H) as (y & Y1 & Y2).
    { rewrite nth_error_range_z by lia. f_equal. lia. }
    rewrite Y2. symmetry. apply get_nth; [lia|assumption].
  - intros [L H]. transitivity (Ok (map (fun x : B => x) out)); [|rewrite map_id; reflexivity].
    replace n with (length out) by (unfold zlen in L; lia). apply mapM_table. intros l1 x l2 E.
    pose proof (zlen_nonneg l1). pose proof (zlen_nonneg l2). rewrite Z.add_0_l, H; [|rewrite <- L, E, zlen_app, zlen_cons; lia].
    rewrite E. apply get_mid. reflexivity.
Qed.
Lemma mapM_err {A B} (f : A -> res B) e0 l : (forall x e, In x l -> f x = Err e -> e = e0) -> forall e, mapM f l = Err e -> e = e0.
Proof.
  induction l as [|x l IH]; intros H e; cbn [mapM]; [discriminate|].
  destruct (f x) as [y|e1] eqn:E; cbn [bind].
  - destruct (mapM f l) as [ys|e2] eqn:E2; cbn [bind]; [discriminate|]. intros Q. injection Q as <-. apply IH; [|reflexivity]. intros x' e' Hx. apply H. right. assumption.
  - intros Q. injection Q as <-. apply (H x); [left; reflexivity|assumption].
Qed.
Lemma get_err {A} (l : list A) i e : get l i = Err e -> e = IndexError.
Proof. unfold get. destruct (_ <? 0); [congruence|]. destruct (nth_error _ _); congruence. Qed.
Lemma get_ext {A} (a b : list A) : zlen a = zlen b -> (forall i, 0 <= i < zlen a -> get a i = get b i) -> a = b.
Proof.
  intros L H. enough (Ok a = Ok b) by congruence. transitivity (mapM (get b) (range_z 0 (length a))); [symmetry|]; apply mapM_range.
  - split; [reflexivity|]. intros i Hi. symmetry. apply H. exact Hi.
  - split; [unfold zlen in *; lia|]. reflexivity.
Qed.

Definition fidx (h v : bool) (i : Z) : Z :=
  8 * (if v then 7 - i / 8 else i / 8) + (if h then 7 - i mod 8 else i mod 8).
Lemma fidx_range h v i : 0 <= i < 64 -> 0 <= fidx h v i < 64.
Proof. intros. unfold fidx. destruct h, v; lia. Qed.
Lemma fidx_fidx h v h' v' i : 0 <= i < 64 -> fidx h v (fidx h' v' i) = fidx (xorb h h') (xorb v v') i.
Proof.
  intros H. assert (Q : forall a b, 0 <= b < 8 -> (8 * a + b) / 8 = a /\ (8 * a + b) mod 8 = b) by (intros; lia).
  unfold fidx at 2. destruct (Q (if v' then 7 - i / 8 else i / 8) (if h' then 7 - i mod 8 else i mod 8)) as [Q1 Q2]; [destruct h'; lia|].
  unfold fidx. rewrite Q1, Q2. destruct h, v, h', v'; cbn [xorb]; lia.
Qed.

Definition pal_of (t : mtile) : Z := match mFormat t with M8 => 0 | M16 => mPalette t end.
Lemma itile_render_len t colors p out : itile_render t colors p = Ok out -> zlen out = 64.
Proof. intros H. apply mapM_range in H. exact (proj1 H). Qed.
Lemma itile_render_err t colors p e : itile_render t colors p = Err e -> e = IndexError.
Proof.
  apply mapM_err. intros i e' _. destruct (get (tPixels t) i) as [px|e1] eqn:E; cbn [bind].
  - destruct (px =? 0); [discriminate|]. apply get_err.
  - intros Q. injection Q as <-. eapply get_err. exact E.
Qed.
Lemma renderSingle16 t img colors : mFormat t = M16 -> mtile_renderSingle t img colors =
  (base <- itile_render img colors (mPalette t) ;; mapM (fun i => get base (fidx (mHFlip t) (mVFlip t) i)) (range_z 0 64)).
Proof.
  intros E. unfold mtile_renderSingle. rewrite E. destruct (itile_render _ _ _) as [base|e] eqn:B; cbn [bind]; [|reflexivity].
  assert (X : forall f g : Z -> Z, (forall i, 0 <= i < 64 -> f i = g i) -> mapM (fun i => get base (f i)) (range_z 0 64) = mapM (fun i => get base (g i)) (range_z 0 64)).
  { intros f g H. assert (G : forall l, (forall i, In i l -> 0 <= i < 64) -> mapM (fun i => get base (f i)) l = mapM (fun i => get base (g i)) l).
    { induction l as [|i l IH]; intros Hl; cbn [mapM]; [reflexivity|]. rewrite H by (apply Hl; left; reflexivity). rewrite IH by (intros; apply Hl; right; assumption). reflexivity. }
    apply G. intros i Hi. apply in_range_z in Hi. lia. }
  destruct (mHFlip t), (mVFlip t); cbn [andb]; [apply X|apply X|apply X|]; [unfold fidx; lia..|].
  symmetry. apply mapM_range. apply itile_render_len in B. split; [exact B|]. intros i Hi. f_equal. unfold fidx. lia.
Qed.
Lemma renderSingle8 t img colors : mFormat t = M8 -> mtile_renderSingle t img colors = itile_render img colors 0.
Proof. intros E. unfold mtile_renderSingle. rewrite E. destruct (itile_render _ _ _); reflexivity. Qed.

Definition with_flips (t : mtile) (h v : bool) : mtile :=
  {| mFormat := mFormat t; mTileNum := mTileNum t; mHFlip := h; mVFlip := v; mPalette := mPalette t |}.

Lemma flip_pixels t img colors h v : mFormat t = M16 ->
  match mtile_renderSingle (with_flips t false false) img colors with
  | Err e => mtile_renderSingle (with_flips t h v) img colors = Err e
  | Ok base => exists out, mtile_renderSingle (with_flips t h v) img colors = Ok out /\ zlen base = 64 /\ zlen out = 64 /\
      forall x y, 0 <= x < 8 -> 0 <= y < 8 -> get out (8 * y + x) = get base (8 * (if v then 7 - y else y) + (if h then 7 - x else x))
  end.
Proof.
  intros E. rewrite !renderSingle16 by exact E. cbn [with_flips mPalette mHFlip mVFlip].
  destruct (itile_render _ _ _) as [base|e] eqn:B; cbn [bind]; [|reflexivity]. apply itile_render_len in B.
  replace (mapM (fun i => get base (fidx false false i)) (range_z 0 64)) with (Ok base).
  2:{ symmetry. apply mapM_range. split; [exact B|]. intros i Hi. f_equal. unfold fidx. lia. }
  destruct (mapM (fun i => get base (fidx h v i)) (range_z 0 64)) as [out|e] eqn:O.
  - exists out. apply mapM_range in O as [O1 O2]. split; [reflexivity|]. split; [exact B|]. split; [exact O1|].
    intros x y Hx Hy. rewrite <- O2 by lia. f_equal. unfold fidx. replace ((8 * y + x) / 8) with y by lia. replace ((8 * y + x) mod 8) with x by lia. reflexivity.
  - exfalso. assert (F : forall l, (forall i, In i l -> 0 <= i < 64) -> exists o, mapM (fun i => get base (fidx h v i)) l = Ok o).
    { induction l as [|i l IH]; intros Hl; [exists []; reflexivity|]. cbn [mapM].
      destruct (get_some base (fidx h v i)) as (x & X & _); [rewrite B; apply fidx_range, Hl; left; reflexivity|]. rewrite X. cbn [bind].
      destruct IH as [o ->]; [intros; apply Hl; right; assumption|]. cbn [bind]. eexists. reflexivity. }
    destruct (F (range_z 0 64)) as [o Ho]; [intros i Hi; apply in_range_z in Hi; lia|]. congruence.
Qed.

(** a flipped picture: pixel (x, y) is pixel (7-x or x, 7-y or y) of [img] *)
Definition flipped_image (h v : bool) (img img' : itile) : Prop :=
  tFormat img' = tFormat img /\ zlen (tPixels img) = 64 /\ zlen (tPixels img') = 64 /\
  forall x y, 0 <= x < 8 -> 0 <= y < 8 ->
    get (tPixels img') (8 * y + x) = get (tPixels img) (8 * (if v then 7 - y else y) + (if h then 7 - x else x)).
Lemma flip_compose t img img' colors h1 v1 h2 v2 : mFormat t = M16 -> flipped_image h2 v2 img img' ->
  mtile_renderSingle (with_flips t h1 v1) img' colors = mtile_renderSingle (with_flips t (xorb h1 h2) (xorb v1 v2)) img colors.
Proof.
  intros E (F & L & L' & P). rewrite !renderSingle16 by exact E. cbn [with_flips mPalette mHFlip mVFlip].
  assert (P' : forall i, 0 <= i < 64 -> get (tPixels img') i = get (tPixels img) (fidx h2 v2 i)).
  { intros i Hi. specialize (P (i mod 8) (i / 8) ltac:(lia) ltac:(lia)). replace (8 * (i / 8) + i mod 8) with i in P by lia. exact P. }
  unfold itile_render. rewrite F.
  set (look := fun px => if px =? 0 then Ok transparent else get (map (fun c : color => let '(r, g, b, _) := c in (r, g, b, 1)) colors) (mPalette t * (match tFormat img with FI4 => 16 | FI8 => 256 end) + px)).
  change (mapM _ (range_z 0 64)) with (mapM (fun i => px <- get (tPixels img') i ;; look px) (range_z 0 64)) at 1.
  change (mapM (fun i : Z => ' px <- get (tPixels img) i;; _) (range_z 0 64)) with (mapM (fun i => px <- get (tPixels img) i ;; look px) (range_z 0 64)).
  set (R' := mapM (fun i => px <- get (tPixels img') i ;; look px) (range_z 0 64)).
  set (R := mapM (fun i => px <- get (tPixels img) i ;; look px) (range_z 0 64)).
  assert (EQ : forall i, 0 <= i < 64 -> (px <- get (tPixels img') i ;; look px) = (px <- get (tPixels img) (fidx h2 v2 i) ;; look px)) by (intros; rewrite P' by assumption; reflexivity).
  assert (ER : forall im e, mapM (fun i => px <- get (tPixels im) i ;; look px) (range_z 0 64) = Err e -> e = IndexError).
  { intros im e. apply mapM_err. intros i e' _. destruct (get (tPixels im) i) as [px|e1] eqn:E1; cbn [bind].
    - unfold look. destruct (px =? 0); [discriminate|]. apply get_err.
    - intros Q. injection Q as <-. eapply get_err. exact E1. }
  destruct R as [base|e] eqn:ER1; cbn [bind].
  - apply mapM_range in ER1 as [B1 B2].
    assert (exists base', R' = Ok base' /\ zlen base' = 64 /\ forall i, 0 <= i < 64 -> get base' i = get base (fidx h2 v2 i)) as (base' & -> & B1' & B2').
    { destruct R' as [base'|e'] eqn:ER2.
      - exists base'. apply mapM_range in ER2 as [B1' B2']. split; [reflexivity|]. split; [exact B1'|]. intros i Hi. rewrite <- B2', EQ by lia. apply B2. apply fidx_range. lia.
      - exfalso. assert (G : forall l, (forall i, In i l -> 0 <= i < 64) -> exists o, mapM (fun i => px <- get (tPixels img') i ;; look px) l = Ok o).
        { induction l as [|i l IH]; intros Hl; [exists []; reflexivity|]. cbn [mapM]. assert (Hi : 0 <= i < 64) by (apply Hl; left; reflexivity).
          rewrite EQ by exact Hi. pose proof (fidx_range h2 v2 i Hi) as Hf. rewrite B2 by exact Hf. destruct (get_some base (fidx h2 v2 i)) as (x & X & _); [change (Z.of_nat 64) with 64 in B1; lia|].
          rewrite X. cbn [bind]. destruct IH as [o ->]; [intros; apply Hl; right; assumption|]. cbn [bind]. eexists. reflexivity. }
        destruct (G (range_z 0 64)) as [o Ho]; [intros i Hi; apply in_range_z in Hi; lia|]. unfold R' in ER2. congruence. }
    cbn [bind]. assert (G : forall l, (forall i, In i l -> 0 <= i < 64) -> mapM (fun i => get base' (fidx h1 v1 i)) l = mapM (fun i => get base (fidx (xorb h1 h2) (xorb v1 v2) i)) l).
    { induction l as [|i l IH]; intros Hl; [reflexivity|]. cbn [mapM]. assert (Hi : 0 <= i < 64) by (apply Hl; left; reflexivity).
      rewrite B2' by (apply fidx_range; exact Hi). rewrite fidx_fidx by exact Hi. rewrite (xorb_comm h2), (xorb_comm v2). rewrite IH by (intros; apply Hl; right; assumption). reflexivity. }
    apply G. intros i Hi. apply in_range_z in Hi. lia.
  - unfold R in ER1. rewrite (ER _ _ ER1). destruct R' as [base'|e'] eqn:ER2; cbn [bind]; [exfalso|rewrite (ER _ _ ER2); reflexivity].
    apply mapM_range in ER2 as [B1' B2'].
    assert (G : forall l, (forall i, In i l -> 0 <= i < 64) -> exists o, mapM (fun i => px <- get (tPixels img) i ;; look px) l = Ok o).
    { induction l as [|i l IH]; intros Hl; [exists []; reflexivity|]. cbn [mapM]. assert (Hi : 0 <= i < 64) by (apply Hl; left; reflexivity).
      pose proof (fidx_range h2 v2 i Hi) as Hf. specialize (EQ (fidx h2 v2 i) Hf). rewrite fidx_fidx in EQ by exact Hi.
      rewrite !xorb_nilpotent in EQ. replace (fidx false false i) with i in EQ by (unfold fidx; lia). rewrite <- EQ, B2' by exact Hf.
      destruct (get_some base' (fidx h2 v2 i)) as (x & X & _); [change (Z.of_nat 64) with 64 in B1'; lia|]. rewrite X. cbn [bind].
      destruct IH as [o ->]; [intros; apply Hl; right; assumption|]. cbn [bind]. eexists. reflexivity. }
    destruct (G (range_z 0 64)) as [o Ho]; [intros i Hi; apply in_range_z in Hi; lia|]. congruence.
Qed.

(** ** Grid access *)
Lemma grid_unique W a b x y : 0 <= x < W -> 0 <= y < W -> a * W + x = b * W + y -> a = b /\ x = y.
Proof. intros Hx Hy E. apply (Z.div_mod_unique W); lia. Qed.

Lemma put_tile {T} (tiles : list T) x y t W :
  match tileAt tiles x y W with
  | None => putTile tiles x y t W = (tiles, false)
  | Some _ => exists tiles', putTile tiles x y t W = (tiles', true) /\ zlen tiles' = zlen tiles /\
      forall x' y', tileAt tiles' x' y' W = if (x' =? x) && (y' =? y) then Some t else tileAt tiles x' y' W
  end.
Proof.
  unfold tileAt, putTile. destruct ((W <=? x) || (W <=? y)) eqn:E1; [reflexivity|]. destruct ((x <? 0) || (y <? 0)) eqn:E2; [reflexivity|].
  assert (Hx : 0 <= x < W) by lia. assert (Hy : 0 <= y < W) by lia. clear E1 E2.
  assert (P : 0 <= y * W + x) by nia.
  destruct (get tiles (y * W + x)) as [u|e] eqn:G.
  - pose proof (get_ok_range _ _ _ P G) as R.
    assert (S : setl tiles (y * W + x) t = Ok (upd tiles (Z.to_nat (y * W + x)) t)).
    { unfold setl. replace (y * W + x <? 0) with false by lia. replace (y * W + x <? 0) with false by lia.
      replace (zlen tiles <=? y * W + x) with false by lia. reflexivity. }
    rewrite S. eexists. split; [reflexivity|]. split; [unfold zlen; rewrite length_upd; reflexivity|].
    intros x' y'. destruct ((W <=? x') || (W <=? y')) eqn:E3.
    { replace ((x' =? x) && (y' =? y)) with false by lia. reflexivity. }
    destruct ((x' <? 0) || (y' <? 0)) eqn:E4.
    { replace ((x' =? x) && (y' =? y)) with false by lia. reflexivity. }
    destruct ((x' =? x) && (y' =? y)) eqn:E5.
    + assert (x' = x) as -> by lia. assert (y' = y) as -> by lia. rewrite get_upd_same by lia. reflexivity.
    + rewrite get_upd_other; [reflexivity|lia|nia|]. intros Q. apply grid_unique in Q as [Q1 Q2]; lia.
  - assert (zlen tiles <= y * W + x).
    { destruct (Z.lt_ge_cases (y * W + x) (zlen tiles)) as [C|]; [|lia]. destruct (get_some tiles (y * W + x)) as (u & U & _); [lia|]. congruence. }
    unfold setl. replace (y * W + x <? 0) with false by lia. replace (y * W + x <? 0) with false by lia.
    replace (zlen tiles <=? y * W + x) with true by lia. reflexivity.
Qed.
Lemma tile_readable {T} (tiles : list T) x y W : 0 <= x < W -> 0 <= y < W -> y * W + x < zlen tiles ->
  exists t, tileAt tiles x y W = Some t /\ nth_error tiles (Z.to_nat (y * W + x)) = Some t.
Proof.
  intros Hx Hy H. unfold tileAt. replace ((W <=? x) || (W <=? y)) with false by lia. replace ((x <? 0) || (y <? 0)) with false by lia.
  destruct (get_some tiles (y * W + x)) as (t & G & N); [nia|]. rewrite G. exists t. auto.
Qed.

(** ** Sheets *)
Lemma nth_error_firstn_lt {A} n i (l : list A) : (i < n)%nat -> nth_error (firstn n l) i = nth_error l i.
Proof. revert i l; induction n as [|n IH]; intros i l H; [lia|]. destruct l as [|x l]; [destruct i; reflexivity|]. destruct i as [|i]; cbn; [reflexivity|]. apply IH. lia. Qed.
Lemma nth_error_skipn {A} n i (l : list A) : nth_error (skipn n l) i = nth_error l (n + i).
Proof. revert l; induction n as [|n IH]; intros l; [reflexivity|]. destruct l as [|x l]; [destruct i; reflexivity|]. cbn. apply IH. Qed.
Lemma slice_set8 {A} (im v : list A) b : 0 <= b -> b + 8 <= zlen im -> zlen v = 8 ->
  zlen (slice_set im b (b + 8) v) = zlen im /\
  forall j, 0 <= j -> get (slice_set im b (b + 8) v) j = if (b <=? j) && (j <? b + 8) then get v (j - b) else get im j.
Proof.
  intros Hb Hl Hv. unfold slice_set. rewrite !clamp_id by lia. rewrite Z.max_r by lia.
  assert (L1 : zlen (firstn (Z.to_nat b) im) = b) by (unfold zlen in *; rewrite firstn_length; lia).
  assert (L2 : zlen (skipn (Z.to_nat (b + 8)) im) = zlen im - b - 8) by (unfold zlen in *; rewrite skipn_length; lia).
  split; [rewrite !zlen_app; lia|].
  intros j Hj. destruct (Z.lt_ge_cases j b).
  - replace ((b <=? j) && (j <? b + 8)) with false by lia. rewrite get_app_l by lia.
    unfold get. replace (j <? 0) with false by lia. replace (j <? 0) with false by lia.
    rewrite nth_error_firstn_lt by lia. reflexivity.
  - rewrite get_skip by lia. rewrite L1. destruct (Z.lt_ge_cases j (b + 8)).
    + replace ((b <=? j) && (j <? b + 8)) with true by lia. rewrite get_app_l by lia. reflexivity.
    + replace ((b <=? j) && (j <? b + 8)) with false by lia. rewrite get_skip by lia. unfold get.
      replace (j - b - zlen v <? 0) with false by lia. replace (j - b - zlen v <? 0) with false by lia. replace (j <? 0) with false by lia. replace (j <? 0) with false by lia.
      rewrite nth_error_skipn. replace (Z.to_nat (b + 8) + Z.to_nat (j - b - zlen v))%nat with (Z.to_nat j) by lia. reflexivity.
Qed.
Lemma blit_spec W H y x (px im : list color) : 0 <= x < W -> 0 <= y < H -> zlen px = 64 -> zlen im = W * H * 64 ->
  zlen (blit W y x px im) = zlen im /\
  forall Y X p, 0 <= Y -> 0 <= X < W -> 0 <= p < 8 ->
    get (blit W y x px im) ((Y * W + X) * 8 + p) =
    if (Y / 8 =? y) && (X =? x) then get px ((Y mod 8) * 8 + p) else get im ((Y * W + X) * 8 + p).
Proof.
  intros Hx Hy Lp Li. unfold blit.
  assert (G : forall n, (n <= 8)%nat -> let r := fold_left (fun im y2 => let base := ((y * 8 + y2) * W + x) * 8 in
      slice_set im base (base + 8) (slice px (y2 * 8) (y2 * 8 + 8))) (range_z 0 n) im in
    zlen r = zlen im /\ forall Y X p, 0 <= Y -> 0 <= X < W -> 0 <= p < 8 ->
      get r ((Y * W + X) * 8 + p) = if ((y * 8 <=? Y) && (Y <? y * 8 + Z.of_nat n)) && (X =? x) then get px ((Y - y * 8) * 8 + p) else get im ((Y * W + X) * 8 + p)).
  { induction n as [|n IH]; intros Hn.
    - cbn [range_z fold_left]. split; [reflexivity|]. intros Y X p HY HX Hp. replace ((y * 8 <=? Y) && (Y <? y * 8 + Z.of_nat 0)) with false by lia. reflexivity.
    - rewrite range_z_snoc, fold_left_app. destruct (IH ltac:(lia)) as [I1 I2]. cbv zeta in *. cbn [fold_left].
      set (im' := fold_left _ (range_z 0 n) im) in *. clearbody im'. rewrite Z.add_0_l. set (k := Z.of_nat n) in *.
      assert (B1 : 0 <= ((y * 8 + k) * W + x) * 8) by nia.
      assert (B2 : ((y * 8 + k) * W + x) * 8 + 8 <= zlen im') by (rewrite I1, Li; nia).
      assert (SL : zlen (slice px (k * 8) (k * 8 + 8)) = 8) by (rewrite zlen_slice; lia).
      destruct (slice_set8 im' (slice px (k * 8) (k * 8 + 8)) (((y * 8 + k) * W + x) * 8) B1 B2 SL) as [S1 S2].
      split; [lia|]. intros Y X p HY HX Hp. rewrite S2 by nia. rewrite I2 by assumption.
      destruct (Z.eq_dec (Y * W + X) ((y * 8 + k) * W + x)) as [Q|Q].
      + pose proof Q as Q'. apply grid_unique in Q' as [Q1 Q2]; [|assumption|assumption].
        replace ((((y * 8 + k) * W + x) * 8 <=? (Y * W + X) * 8 + p) && ((Y * W + X) * 8 + p <? ((y * 8 + k) * W + x) * 8 + 8)) with true by lia.
        replace (((y * 8 <=? Y) && (Y <? y * 8 + Z.of_nat (S n))) && (X =? x)) with true by lia.
        rewrite Q. replace (((y * 8 + k) * W + x) * 8 + p - ((y * 8 + k) * W + x) * 8) with p by lia.
        replace (Y - y * 8) with k by lia. destruct (get_some (slice px (k * 8) (k * 8 + 8)) p) as (u & U & _); [lia|].
        destruct (get_some px (k * 8 + p)) as (w & W1 & W2); [lia|]. rewrite U, W1. f_equal.
        unfold slice in U. rewrite !clamp_id in U by lia. apply get_inv in U; [|lia].
        rewrite nth_error_firstn_lt in U by lia. rewrite nth_error_skipn in U. replace (Z.to_nat (k * 8) + Z.to_nat p)%nat with (Z.to_nat (k * 8 + p)) in U by lia. congruence.
      + replace ((((y * 8 + k) * W + x) * 8 <=? (Y * W + X) * 8 + p) && ((Y * W + X) * 8 + p <? ((y * 8 + k) * W + x) * 8 + 8)) with false by lia.
        replace (((y * 8 <=? Y) && (Y <? y * 8 + Z.of_nat (S n))) && (X =? x)) with (((y * 8 <=? Y) && (Y <? y * 8 + k)) && (X =? x)); [reflexivity|].
        destruct (X =? x) eqn:EX; [|rewrite !andb_false_r; reflexivity]. rewrite !andb_true_r.
        assert (Y <> y * 8 + k) by (intros ->; apply Q; f_equal; lia). lia. }
  destruct (G 8%nat ltac:(lia)) as [G1 G2]. cbv zeta in *. split; [exact G1|]. intros Y X p HY HX Hp. rewrite G2 by assumption.
  replace ((y * 8 <=? Y) && (Y <? y * 8 + Z.of_nat 8)) with (Y / 8 =? y) by lia.
  destruct ((Y / 8 =? y) && (X =? x)) eqn:E; [|reflexivity]. f_equal. lia.
Qed.

Lemma grid_coords W h : (0 < W)%nat ->
  flat_map (fun y => map (fun x => (y, x)) (range_z 0 W)) (range_z 0 h) =
  map (fun i => (i / Z.of_nat W, i mod Z.of_nat W)) (range_z 0 (h * W)).
Proof.
  intros HW. induction h as [|h IH]; [reflexivity|].
  rewrite range_z_snoc, flat_map_app, IH. cbn [flat_map]. rewrite app_nil_r. replace (S h * W)%nat with (h * W + W)%nat by lia.
  rewrite range_z_app, map_app. f_equal. rewrite !Z.add_0_l.
  assert (G : forall m s, (Z.to_nat s + m <= W)%nat -> 0 <= s -> map (fun x => (Z.of_nat h, x)) (range_z s m) =
    map (fun i => (i / Z.of_nat W, i mod Z.of_nat W)) (range_z (Z.of_nat (h * W) + s) m)).
  { induction m as [|m IHm]; intros s Hs H0; [reflexivity|]. cbn [range_z map]. f_equal.
    - assert (Z.of_nat (h * W) + s = Z.of_nat W * Z.of_nat h + s) as -> by nia. f_equal.
      + apply Z.div_unique with s; lia.
      + apply Z.mod_unique with (Z.of_nat h); lia.
    - rewrite IHm by lia. f_equal. f_equal. lia. }
  rewrite (G W 0) by lia. rewrite Z.add_0_r. reflexivity.
Qed.

Definition sheet_pos (W i px py : Z) : Z := ((i / W * 8 + py) * W + i mod W) * 8 + px.
Section Sheet.
  Context {T : Type} (r : T -> res (list color)) (W H : Z).
  Hypothesis HW : 1 <= W.
  Hypothesis HH : 0 <= H.
  Hypothesis Hlen : forall t px, r t = Ok px -> zlen px = 64.
  Let coords n := map (fun i => (i / W, i mod W)) (range_z 0 n).

  Lemma sheet_steps tiles img : zlen img = W * H * 64 -> forall n pxs, mapM r (firstn n tiles) = Ok pxs -> (n <= length tiles)%nat -> Z.of_nat n <= W * H ->
    exists img', foldM (render_step r W) (img, tiles) (coords n) = Ok (img', skipn n tiles) /\ zlen img' = W * H * 64 /\
      forall i px t, nth_error pxs (Z.to_nat i) = Some t -> 0 <= i < Z.of_nat n -> forall x y, 0 <= x < 8 -> 0 <= y < 8 -> px = 8 * y + x ->
        get img' (sheet_pos W i x y) = get t px.
  Proof.
    intros Li. induction n as [|n IH]; intros pxs M Ln LH.
    - exists img. split; [reflexivity|]. split; [exact Li|]. intros; lia.
    - assert (exists t0 rest, skipn n tiles = t0 :: rest /\ rest = skipn (S n) tiles /\ firstn (S n) tiles = firstn n tiles ++ [t0]) as (t0 & rest & S1 & S2 & S3).
      { clear - Ln. revert tiles Ln. induction n as [|n IH]; intros tiles Ln; (destruct tiles as [|t tiles]; [cbn in Ln; lia|]).
        - exists t, tiles. repeat split.
        - destruct (IH tiles) as (t0 & rest & A & B & C); [cbn in Ln; lia|]. exists t0, rest. split; [exact A|]. split; [exact B|]. change (firstn (S (S n)) (t :: tiles)) with (t :: firstn (S n) tiles). rewrite C. reflexivity. }
      rewrite S3, mapM_app in M. apply bind_ok in M as (p1 & M1 & M). apply bind_ok in M as (p2 & M2 & M). injection M as <-.
      cbn [mapM] in M2. apply bind_ok in M2 as (q & M2 & M3). cbn [bind] in M3. injection M3 as <-.
      destruct (IH p1 M1 ltac:(lia) ltac:(lia)) as (img' & I1 & I2 & I3). pose proof (mapM_ok_length _ _ _ M1) as L1. rewrite firstn_length in L1.
      unfold coords in *. rewrite range_z_snoc, map_app, foldM_app, I1. cbn [bind map foldM]. unfold render_step at 1. cbn [snd fst]. rewrite S1, M2. cbn [bind].
      rewrite Z.add_0_l. eexists. split; [rewrite S2; reflexivity|].
      assert (Hy : 0 <= Z.of_nat n / W < H) by (split; [apply Z.div_pos; lia|apply Z.div_lt_upper_bound; lia]).
      assert (Hx : 0 <= Z.of_nat n mod W < W) by (apply Z.mod_pos_bound; lia).
      destruct (blit_spec W H (Z.of_nat n / W) (Z.of_nat n mod W) q img' Hx Hy (Hlen _ _ M2) I2) as [B1 B2].
      split; [lia|]. intros i px t Ni Hi x y X Y ->. unfold sheet_pos. pose proof (Z.mod_pos_bound i W ltac:(lia)) as Mi.
      pose proof (Z.div_pos i W ltac:(lia) ltac:(lia)) as Di.
      rewrite B2 by lia. replace ((i / W * 8 + y) / 8) with (i / W) by lia. replace ((i / W * 8 + y) mod 8) with y by lia.
      destruct (Z.eq_dec i (Z.of_nat n)) as [->|Ne].
      + rewrite !Z.eqb_refl. cbn [andb]. rewrite nth_error_app2 in Ni by lia. replace (Z.to_nat (Z.of_nat n) - length p1)%nat with 0%nat in Ni by lia.
        cbn in Ni. injection Ni as <-. f_equal. lia.
      + replace ((i / W =? Z.of_nat n / W) && (i mod W =? Z.of_nat n mod W)) with false.
        * apply (I3 i (8 * y + x) t); [rewrite nth_error_app1 in Ni by lia; exact Ni|lia|assumption|assumption|reflexivity].
        * symmetry. apply andb_false_iff. destruct (Z.eq_dec (i / W) (Z.of_nat n / W)) as [E1|E1]; [right|left; apply Z.eqb_neq; exact E1].
          apply Z.eqb_neq. intros E2. apply Ne. rewrite (Z.div_mod i W), (Z.div_mod (Z.of_nat n) W) by lia. rewrite E1, E2. reflexivity.
  Qed.
End Sheet.

Lemma sheet_complete {T} (r : T -> res (list color)) tiles W pxs :
  1 <= W -> zlen tiles mod W = 0 -> (forall t px, r t = Ok px -> zlen px = 64) -> mapM r tiles = Ok pxs ->
  exists img, render_grid r tiles W = Ok img /\ zlen img = 64 * zlen tiles /\
    forall i t x y, 0 <= i -> nth_error pxs (Z.to_nat i) = Some t -> 0 <= x < 8 -> 0 <= y < 8 -> get img (sheet_pos W i x y) = get t (8 * y + x).
Proof.
  intros HW HM Hl M. unfold render_grid. replace (W =? 0) with false by lia. rewrite HM. cbn [Z.eqb]. rewrite Z.add_0_r.
  pose proof (zlen_nonneg tiles) as P. pose proof (Z.div_mod (zlen tiles) W ltac:(lia)) as D. rewrite HM, Z.add_0_r in D.
  set (H := zlen tiles / W) in *. assert (0 <= H) by (apply Z.div_pos; lia).
  rewrite grid_coords by lia. replace (Z.to_nat H * Z.to_nat W)%nat with (length tiles) by (unfold zlen in *; nia). rewrite Z2Nat.id by lia.
  destruct (sheet_steps r W H HW Hl tiles (rep transparent (W * H * 64))) with (n := length tiles) (pxs := pxs) as (img & I1 & I2 & I3).
  - apply zlen_rep. nia.
  - rewrite firstn_all. exact M.
  - lia.
  - unfold zlen in *. lia.
  - rewrite I1. cbn [bind fst]. exists img. split; [reflexivity|]. split; [lia|]. intros i t x y Hi N X Y. eapply I3; [exact N| |exact X|exact Y|reflexivity].
    apply mapM_ok_length in M. split; [lia|]. assert (Z.to_nat i < length pxs)%nat by (apply nth_error_Some; congruence). lia.
Qed.
Lemma sheet_incomplete {T} (r : T -> res (list color)) tiles W :
  1 <= W -> zlen tiles mod W <> 0 -> (forall t px, r t = Ok px -> zlen px = 64) ->
  match mapM r tiles with Ok _ => render_grid r tiles W = Err StopIteration | Err _ => exists e, render_grid r tiles W = Err e end.
Proof.
  intros HW HM Hl. unfold render_grid. replace (W =? 0) with false by lia. replace (zlen tiles mod W =? 0) with false by lia.
  pose proof (zlen_nonneg tiles) as P. pose proof (Z.div_mod (zlen tiles) W ltac:(lia)) as D. pose proof (Z.mod_pos_bound (zlen tiles) W ltac:(lia)) as MB.
  set (H := zlen tiles / W + 1) in *. assert (1 <= H) by (unfold H; pose proof (Z.div_pos (zlen tiles) W); lia).
  rewrite grid_coords by lia. rewrite Z2Nat.id by lia.
  assert (LT : (length tiles < Z.to_nat H * Z.to_nat W)%nat) by (unfold zlen in *; nia).
  set (N := (Z.to_nat H * Z.to_nat W)%nat) in *. replace N with (length tiles + (N - length tiles))%nat by lia.
  rewrite range_z_app, map_app, foldM_app.
  assert (LW : Z.of_nat (length tiles) <= W * H) by (unfold zlen in *; nia).
  destruct (mapM r tiles) as [pxs|e] eqn:M.
  - destruct (sheet_steps r W H HW Hl tiles (rep transparent (W * H * 64))) with (n := length tiles) (pxs := pxs) as (img & I1 & I2 & I3).
    + apply zlen_rep. nia.
    + rewrite firstn_all. exact M.
    + lia.
    + exact LW.
    + rewrite I1. cbn [bind]. destruct (N - length tiles)%nat as [|m] eqn:EN; [lia|]. cbn [range_z map foldM]. unfold render_step at 1. cbn [snd]. rewrite skipn_all. reflexivity.
  - assert (G : forall l s tl e, mapM r tl = Err e -> (length tl <= length l)%nat -> exists e', foldM (render_step r W) (s, tl) l = Err e').
    { induction l as [|c l IH]; intros s tl e0 Me Lt; destruct tl as [|t tl]; [discriminate|cbn in Lt; lia|discriminate|].
      cbn [foldM]. unfold render_step at 1. cbn [snd fst]. cbn [mapM] in Me. destruct (r t) as [q|e1]; cbn [bind]; [|eexists; reflexivity].
      cbn [bind] in Me. destruct (mapM r tl) as [qs|e1] eqn:E1; [discriminate|]. apply (IH _ _ _ E1). cbn in Lt. lia. }
    destruct (G (map (fun i => (i / W, i mod W)) (range_z 0 (length tiles))) (rep transparent (W * H * 64)) tiles e M) as (e' & E').
    { rewrite map_length. pose proof (zlen_range_z 0 (length tiles)). unfold zlen in *. lia. }
    rewrite E'. cbn [bind]. eexists. reflexivity.
Qed.
Lemma mtile_render_len t imgs colors off out : mtile_render t imgs colors off = Ok out -> zlen out = 64.
Proof.
  unfold mtile_render. destruct (_ <? _); [discriminate|]. intros H. apply bind_ok in H as (img & _ & H). destruct (mFormat t) eqn:E.
  - rewrite renderSingle16 in H by exact E. apply bind_ok in H as (b & _ & H). apply mapM_range in H. exact (proj1 H).
  - rewrite renderSingle8 in H by exact E. apply itile_render_len in H. exact H.
Qed.
Lemma itile_render_pixel t colors p out : 0 <= p -> Forall (fun v => 0 <= v) (tPixels t) -> itile_render t colors p = Ok out ->
  forall i, 0 <= i < 64 -> exists v, nth_error (tPixels t) (Z.to_nat i) = Some v /\
    (v = 0 -> nth_error out (Z.to_nat i) = Some (0, 0, 0, 0)) /\
    (v <> 0 -> exists r g b a, nth_error colors (Z.to_nat (p * pix_limit (tFormat t) + v)) = Some (r, g, b, a) /\
       nth_error out (Z.to_nat i) = Some (r, g, b, 1)).
Proof.
  intros Hp F H i Hi. unfold itile_render in H. apply mapM_range in H as [L H]. specialize (H i Hi). change (Z.of_nat 64) with 64 in L.
  destruct (get_some out i) as (o & O1 & O2); [lia|]. rewrite O1 in H. apply bind_ok in H as (v & V1 & V2). apply get_inv in V1; [|lia].
  exists v. split; [exact V1|]. rewrite O2. revert V2. destruct (Z.eqb_spec v 0) as [Z0|N]; intros V2.
  { split; [intros _|contradiction]. injection V2 as <-. reflexivity. }
  split; [contradiction|intros _].
  assert (0 <= v) by (rewrite Forall_forall in F; apply F; eapply nth_error_In; exact V1).
  change (match tFormat t with FI4 => 16 | FI8 => 256 end) with (pix_limit (tFormat t)) in V2.
  assert (0 < pix_limit (tFormat t)) by (destruct (tFormat t); reflexivity).
  apply get_inv in V2; [|nia]. rewrite nth_error_map in V2. destruct (nth_error colors _) as [[[[r g] b] a]|]; [|discriminate].
  cbn in V2. injection V2 as <-. exists r, g, b, a. split; reflexivity.
Qed.

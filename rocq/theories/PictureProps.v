(** * C117: pictures of palette, tile and tile map files *)
From Coq Require Import String.
From Verif Require TexModel TexSpec ViewTexSpec ViewTex TexProps ImageTexture.
From Verif Require Import PyBase PyLemmas PyTac ViewTexProps ColorModel Gfx2DModel Gfx2DLemmas ImageModel ImageSpec ImageRender RomSpec ViewSpec ViewLemmas ViewEv ViewGfxSpec ViewGfx PictureSpec Picture.

Lemma nth_tiles f td i : nth_error (tiles_in f td) i = if Z.of_nat i <? tile_count f td then Some (tile f td i) else None.
Proof.
  unfold tiles_in. rewrite nth_error_map. fold (tile_count f td). assert (0 <= tile_count f td) by (apply Z.div_pos; [apply zlen_nonneg|destruct f; reflexivity]).
  destruct (Z.ltb_spec (Z.of_nat i) (tile_count f td)); [rewrite nth_error_seq_lt by lia; reflexivity|]. replace (nth_error (seq 0 _) i) with (@None nat); [reflexivity|]. symmetry. apply nth_error_None. rewrite seq_length. lia.
Qed.
Lemma tiles_len f td : zlen (tiles_in f td) = tile_count f td.
Proof. unfold tiles_in. fold (tile_count f td). unfold zlen. rewrite map_length, seq_length. apply Z2Nat.id, Z.div_pos; [apply zlen_nonneg|destruct f; reflexivity]. Qed.

Section Maps.
  Variable (f : imgfmt) (pal td : bytes) (off : Z).
  Hypothesis (BT : is_bytes td).
  Definition pal_of (m : mtile) : Z := match mFormat m with M8 => 0 | M16 => mPalette m end.
  Definition hflip (m : mtile) : bool := match mFormat m with M8 => false | M16 => mHFlip m end.
  Definition vflip (m : mtile) : bool := match mFormat m with M8 => false | M16 => mVFlip m end.
  Lemma entry_render m : 0 <= pal_of m -> (exists px, mtile_render m (tiles_in f td) (pals pal) off = Ok px) <-> drawable f pal td off (mTileNum m) (pal_of m).
  Proof.
    intros P. unfold mtile_render, drawable. destruct (Z.ltb_spec (mTileNum m) off) as [?|?]; [split; [intros (px & [=])|lia]|].
    destruct (Z.ltb_spec (mTileNum m) (off + tile_count f td)) as [L|L]; [|rewrite get_ge by (rewrite tiles_len; lia); split; [intros (px & [=])|lia]].
    rewrite (get_nth _ _ (tile f td (Z.to_nat (mTileNum m - off)))); [|lia|rewrite nth_tiles; replace (_ <? _) with true by lia; reflexivity]. cbn [bind].
    rewrite <- (tile_render f pal td BT _ _ P). split.
    - intros (px & R). split; [lia|]. unfold mtile_renderSingle in R. apply bind_ok in R as (q & Q & _). exists q. exact Q.
    - intros (_ & q & Q). unfold pal_of in Q. destruct (mFormat m) eqn:E; [|exists q; rewrite renderSingle8 by exact E; exact Q].
      pose proof (flip_pixels m (tile f td (Z.to_nat (mTileNum m - off))) (pals pal) (mHFlip m) (mVFlip m) E) as F. assert (W0 : mtile_renderSingle (with_flips m false false) (tile f td (Z.to_nat (mTileNum m - off))) (pals pal) = Ok q) by (unfold mtile_renderSingle, with_flips; cbn [mFormat mPalette mHFlip mVFlip andb]; rewrite ?E, Q; reflexivity). rewrite W0 in F. destruct F as (out & O & _). exists out. replace (with_flips m (mHFlip m) (mVFlip m)) with m in O by (destruct m; reflexivity). exact O.
  Qed.
  Lemma entry_pixels m px : 0 <= pal_of m -> mtile_render m (tiles_in f td) (pals pal) off = Ok px -> forall x y, 0 <= x < 8 -> 0 <= y < 8 ->
    exists c, get px (8 * y + x) = Ok c /\ shown 1 c = shade f pal (pal_of m) (pixel f td (Z.to_nat (mTileNum m - off)) (Z.to_nat (8 * (if vflip m then 7 - y else y) + (if hflip m then 7 - x else x)))).
  Proof.
    intros P H x y X Y. destruct (proj1 (entry_render m P) (ex_intro _ px H)) as (L & _). unfold mtile_render in H. replace (mTileNum m <? off) with false in H by lia.
    rewrite (get_nth _ _ (tile f td (Z.to_nat (mTileNum m - off)))) in H; [|lia|rewrite nth_tiles; replace (_ <? _) with true by lia; reflexivity]. cbn [bind] in H. unfold pal_of, hflip, vflip in *. destruct (mFormat m) eqn:E.
    - unfold mtile_renderSingle in H. rewrite E in H. pose proof H as H0. apply bind_ok in H0 as (q & Q & _).
      pose proof (flip_pixels m (tile f td (Z.to_nat (mTileNum m - off))) (pals pal) (mHFlip m) (mVFlip m) E) as F. assert (W0 : mtile_renderSingle (with_flips m false false) (tile f td (Z.to_nat (mTileNum m - off))) (pals pal) = Ok q) by (unfold mtile_renderSingle, with_flips; cbn [mFormat mPalette mHFlip mVFlip andb]; rewrite ?E, Q; reflexivity). rewrite W0 in F. destruct F as (out & O & _ & _ & G). replace (with_flips m (mHFlip m) (mVFlip m)) with m in O by (destruct m; reflexivity).
      unfold mtile_renderSingle in O. rewrite E in O. assert (out = px) by congruence. subst out. rewrite (G x y X Y). apply (tile_pixels f pal td BT _ _ q P Q). destruct (mVFlip m), (mHFlip m); lia.
    - rewrite renderSingle8 in H by exact E. apply (tile_pixels f pal td BT _ _ px P H). lia.
  Qed.
End Maps.

(** a sheet can be drawn exactly if its rows are full and the palette has the colours
    the tiles use; every pixel then has the colour the files say *)
Theorem C117_sheet f pal td p W cs ts : is_bytes pal -> is_bytes td -> 0 <= p -> 1 <= W -> loadPalette pal = Ok cs -> loadImageTiles td f = Ok ts ->
  ((exists img, renderImageTilesAsImage ts (map quad cs) p W = Ok img) <->
     tile_count f td mod W = 0 /\ forall k, Z.of_nat k < tile_count f td -> coloured f pal td k p) /\
  forall img, renderImageTilesAsImage ts (map quad cs) p W = Ok img ->
    sized img (8 * W) (8 * (tile_count f td / W)) /\
    forall X Y, 0 <= X < 8 * W -> 0 <= Y < 8 * (tile_count f td / W) -> pixel_at img X Y = sheet_pixel f pal td p W X Y.
Proof.
  intros BP BT P HW C T. rewrite palette_view in C by exact BP. apply SeqRead.ok_inj in C. subst cs. rewrite tiles_view in T by exact BT. apply SeqRead.ok_inj in T. subst ts. fold (pals pal).
  set (r := fun t => itile_render t (pals pal) p). assert (E : renderImageTilesAsImage (tiles_in f td) (pals pal) p W = grid_image r (tiles_in f td) W) by (unfold renderImageTilesAsImage; replace (W =? 0) with false by lia; reflexivity). rewrite E.
  assert (HL : forall t px, r t = Ok px -> zlen px = 64) by (intros t px; apply itile_render_len). assert (HC : forall t px, r t = Ok px -> Forall quad_ok px) by (intros t px; apply render_channels, pals_ok, BP).
  split.
  - rewrite (grid_iff r _ W HW HL HC), tiles_len, Forall_forall. split; intros (M & A); (split; [exact M|]).
    + intros k K. apply (tile_render f pal td BT k p P). apply A. apply nth_error_In with k. rewrite nth_tiles. replace (_ <? _) with true by lia. reflexivity.
    + intros t I. apply In_nth_error in I as (k & K). rewrite nth_tiles in K. destruct (Z.ltb_spec (Z.of_nat k) (tile_count f td)); [|discriminate]. injection K as <-. apply (tile_render f pal td BT k p P). apply A. assumption.
  - intros img H. destruct (grid_pixels r (tiles_in f td) W HW HL HC (fun i x y => shade f pal p (pixel f td (Z.to_nat i) (Z.to_nat (8 * y + x)))) ltac:(
      intros i t px N I R x y X Y; rewrite nth_tiles in N; destruct (_ <? _); [|discriminate]; injection N as <-; apply (tile_pixels f pal td BT _ _ px P R); lia) img H) as (S & G). rewrite (tiles_len f td) in *. split; [exact S|exact G].
Qed.
Print Assumptions C117_sheet.

(** likewise for a tile map: every entry must name a tile that is there *)
Theorem C117_map f pal td md W off cs ts ms : is_bytes pal -> is_bytes td -> is_bytes md -> 1 <= W ->
  loadPalette pal = Ok cs -> loadImageTiles td f = Ok ts -> loadTilemapTiles md M16 = Ok ms ->
  ((exists img, renderTilemapTilesAsImage ms ts (map quad cs) W off = Ok img) <->
     (zlen md / 2) mod W = 0 /\ forall i, 0 <= i < zlen md / 2 -> drawable f pal td off (half md (2 * i) mod 1024) (half md (2 * i) / 4096)) /\
  forall img, renderTilemapTilesAsImage ms ts (map quad cs) W off = Ok img ->
    sized img (8 * W) (8 * (zlen md / 2 / W)) /\
    forall X Y, 0 <= X < 8 * W -> 0 <= Y < 8 * (zlen md / 2 / W) -> pixel_at img X Y = map_pixel f pal td md W off X Y.
Proof.
  intros BP BT BM HW C T M. rewrite palette_view in C by exact BP. apply SeqRead.ok_inj in C. subst cs. rewrite tiles_view in T by exact BT. apply SeqRead.ok_inj in T. subst ts. fold (pals pal).
  rewrite tilemap16_view in M by exact BM. destruct (zlen md mod 2 =? 0); [|discriminate]. apply SeqRead.ok_inj in M. subst ms.
  set (r := fun t => mtile_render t (tiles_in f td) (pals pal) off). assert (E : renderTilemapTilesAsImage (entries_in md) (tiles_in f td) (pals pal) W off = grid_image r (entries_in md) W) by (unfold renderTilemapTilesAsImage; replace (W =? 0) with false by lia; reflexivity). rewrite E.
  assert (HL : forall t px, r t = Ok px -> zlen px = 64) by (intros t px; apply mtile_render_len). assert (HC : forall t px, r t = Ok px -> Forall quad_ok px) by (intros t px; apply mtile_channels, pals_ok, BP).
  assert (Q : 0 <= zlen md / 2) by (apply Z.div_pos; [apply zlen_nonneg|lia]).
  assert (LE : zlen (entries_in md) = zlen md / 2) by (unfold entries_in, zlen; rewrite map_length, seq_length; fold (zlen md); lia).
  assert (NE : forall i, nth_error (entries_in md) i = if Z.of_nat i <? zlen md / 2 then Some (entry (half md (2 * Z.of_nat i))) else None).
  { intros i. unfold entries_in. rewrite nth_error_map. destruct (Z.ltb_spec (Z.of_nat i) (zlen md / 2)); [rewrite nth_error_seq_lt by lia; reflexivity|]. replace (nth_error (seq 0 _) i) with (@None nat); [reflexivity|]. symmetry. apply nth_error_None. rewrite seq_length. lia. }
  assert (PE : forall i, Z.of_nat i < zlen md / 2 -> 0 <= pal_of (entry (half md (2 * Z.of_nat i)))).
  { intros i I. unfold pal_of, entry. cbn [mFormat mPalette]. apply Z.div_pos; [|lia]. apply (half_range md _ BM); lia. }
  split.
  - rewrite (grid_iff r _ W HW HL HC), LE, Forall_forall. split; intros (Z0 & A); (split; [exact Z0|]).
    + intros i I. specialize (A (entry (half md (2 * i)))). assert (N : nth_error (entries_in md) (Z.to_nat i) = Some (entry (half md (2 * i)))) by (rewrite NE, Z2Nat.id by lia; replace (_ <? _) with true by lia; reflexivity).
      specialize (A (nth_error_In _ _ N)). apply (entry_render f pal td off BT) in A; [exact A|]. specialize (PE (Z.to_nat i)). rewrite Z2Nat.id in PE by lia. apply PE. lia.
    + intros t I. apply In_nth_error in I as (k & K). rewrite NE in K. destruct (Z.ltb_spec (Z.of_nat k) (zlen md / 2)); [|discriminate]. injection K as <-. apply (entry_render f pal td off BT); [apply PE; assumption|]. apply A. lia.
  - intros img H. destruct (grid_pixels r (entries_in md) W HW HL HC (fun i x y => let h := half md (2 * i) in shade f pal (h / 4096) (pixel f td (Z.to_nat (h mod 1024 - off)) (Z.to_nat (8 * (if h / 2048 mod 2 =? 1 then 7 - y else y) + (if h / 1024 mod 2 =? 1 then 7 - x else x))))) ltac:(
      intros i t px N I R x y X Y; rewrite NE, Z2Nat.id in N by lia; destruct (Z.ltb_spec i (zlen md / 2)); [|discriminate]; injection N as <-; specialize (PE (Z.to_nat i)); rewrite Z2Nat.id in PE by lia;
      exact (entry_pixels f pal td off BT _ px (PE ltac:(lia)) R x y X Y)) img H) as (S & G). rewrite LE in *. split; [exact S|exact G].
Qed.
Print Assumptions C117_map.
Theorem C117_map8 f pal td md W off cs ts ms : is_bytes pal -> is_bytes td -> is_bytes md -> 1 <= W ->
  loadPalette pal = Ok cs -> loadImageTiles td f = Ok ts -> loadTilemapTiles md M8 = Ok ms ->
  ((exists img, renderTilemapTilesAsImage ms ts (map quad cs) W off = Ok img) <->
     zlen md mod W = 0 /\ forall i, 0 <= i < zlen md -> drawable f pal td off (byte md i) 0) /\
  forall img, renderTilemapTilesAsImage ms ts (map quad cs) W off = Ok img ->
    sized img (8 * W) (8 * (zlen md / W)) /\
    forall X Y, 0 <= X < 8 * W -> 0 <= Y < 8 * (zlen md / W) -> pixel_at img X Y = map8_pixel f pal td md W off X Y.
Proof.
  intros BP BT BM HW C T M. rewrite palette_view in C by exact BP. apply SeqRead.ok_inj in C. subst cs. rewrite tiles_view in T by exact BT. apply SeqRead.ok_inj in T. subst ts. fold (pals pal).
  rewrite tilemap8_view in M by exact BM. apply SeqRead.ok_inj in M. subst ms.
  set (r := fun t => mtile_render t (tiles_in f td) (pals pal) off). assert (E : renderTilemapTilesAsImage (map entry8 md) (tiles_in f td) (pals pal) W off = grid_image r (map entry8 md) W) by (unfold renderTilemapTilesAsImage; replace (W =? 0) with false by lia; reflexivity). rewrite E.
  assert (HL : forall t px, r t = Ok px -> zlen px = 64) by (intros t px; apply mtile_render_len). assert (HC : forall t px, r t = Ok px -> Forall quad_ok px) by (intros t px; apply mtile_channels, pals_ok, BP).
  assert (LE : zlen (map entry8 md) = zlen md) by apply zlen_map.
  assert (NE : forall i, nth_error (map entry8 md) i = if Z.of_nat i <? zlen md then Some (entry8 (byte md (Z.of_nat i))) else None).
  { intros i. rewrite nth_error_map. unfold byte, zlen. rewrite Nat2Z.id. destruct (Z.ltb_spec (Z.of_nat i) (Z.of_nat (length md))); [rewrite (nth_error_nth' md 0) by lia; reflexivity|]. replace (nth_error md i) with (@None Z); [reflexivity|]. symmetry. apply nth_error_None. lia. }
  assert (PE : forall b, 0 <= pal_of (entry8 b)) by (intros b; unfold pal_of, entry8; cbn [mFormat]; lia).
  split.
  - rewrite (grid_iff r _ W HW HL HC), LE, Forall_forall. split; intros (Z0 & A); (split; [exact Z0|]).
    + intros i I. specialize (A (entry8 (byte md i))). assert (N : nth_error (map entry8 md) (Z.to_nat i) = Some (entry8 (byte md i))) by (rewrite NE, Z2Nat.id by lia; replace (_ <? _) with true by lia; reflexivity).
      specialize (A (nth_error_In _ _ N)). apply (entry_render f pal td off BT) in A; [exact A|apply PE].
    + intros t I. apply In_nth_error in I as (k & K). rewrite NE in K. destruct (Z.ltb_spec (Z.of_nat k) (zlen md)); [|discriminate]. injection K as <-. apply (entry_render f pal td off BT); [apply PE|]. apply A. lia.
  - intros img H. destruct (grid_pixels r (map entry8 md) W HW HL HC (fun i x y => shade f pal 0 (pixel f td (Z.to_nat (byte md i - off)) (Z.to_nat (8 * y + x)))) ltac:(
      intros i t px N I R x y X Y; rewrite NE, Z2Nat.id in N by lia; destruct (Z.ltb_spec i (zlen md)); [|discriminate]; injection N as <-;
      exact (entry_pixels f pal td off BT _ px (PE _) R x y X Y)) img H) as (S & G). rewrite LE in *. split; [exact S|exact G].
Qed.
Print Assumptions C117_map8.

(** two 4-bit tiles, a palette of 32 colours, and a map of two entries: tile 1 mirrored
    left to right in palette 1, and tile 0 upside down in palette 0; the first pixel of
    tile 1 is 2 and shows at the right *)
Definition ex_pal : bytes := flat_map (fun i => le 2 (i * 33)) (map Z.of_nat (seq 0 32)).
Definition ex_tiles : bytes := (0x31 :: repeat 0 31) ++ (0x52 :: repeat 0 31).
Definition ex_map : bytes := le 2 (1 + 0x400 + 0x1000) ++ le 2 0x800.
Example C117_map_ex : is_bytes ex_pal /\ is_bytes ex_tiles /\ is_bytes ex_map /\
  (exists cs ts ms img, loadPalette ex_pal = Ok cs /\ loadImageTiles ex_tiles FI4 = Ok ts /\ loadTilemapTiles ex_map M16 = Ok ms /\
     renderTilemapTilesAsImage ms ts (map quad cs) 2 0 = Ok img) /\
  map (fun p => map_pixel FI4 ex_pal ex_tiles ex_map 2 0 (fst p) (snd p)) [(7, 0); (6, 0); (5, 0); (8, 7); (9, 7)] =
    [[148; 148; 0; 255]; [173; 173; 0; 255]; [0; 0; 0; 0]; [8; 8; 0; 255]; [24; 24; 0; 255]].
Proof.
  split; [all_bytes|]. split; [all_bytes|]. split; [all_bytes|]. split; [|vm_compute; reflexivity].
  eexists. eexists. eexists. eexists. split; [vm_compute; reflexivity|]. split; [vm_compute; reflexivity|]. split; [vm_compute; reflexivity|]. vm_compute. reflexivity.
Qed.
Example C117_sheet_ex : exists cs ts img, loadPalette ex_pal = Ok cs /\ loadImageTiles ex_tiles FI4 = Ok ts /\ renderImageTilesAsImage ts (map quad cs) 1 1 = Ok img /\
  map (fun p => sheet_pixel FI4 ex_pal ex_tiles 1 1 (fst p) (snd p)) [(0, 8); (1, 8); (2, 8)] = [[148; 148; 0; 255]; [173; 173; 0; 255]; [0; 0; 0; 0]].
Proof. eexists. eexists. eexists. split; [vm_compute; reflexivity|]. split; [vm_compute; reflexivity|]. split; vm_compute; reflexivity. Qed.
Example C117_map8_ex : exists cs ts ms img, loadPalette ex_pal = Ok cs /\ loadImageTiles ex_tiles FI4 = Ok ts /\ loadTilemapTiles [4; 3] M8 = Ok ms /\
  renderTilemapTilesAsImage ms ts (map quad cs) 1 3 = Ok img /\ map8_pixel FI4 ex_pal ex_tiles [4; 3] 1 3 1 0 = [41; 41; 0; 255] /\ map8_pixel FI4 ex_pal ex_tiles [4; 3] 1 3 1 8 = [24; 24; 0; 255].
Proof. eexists. eexists. eexists. eexists. split; [vm_compute; reflexivity|]. split; [vm_compute; reflexivity|]. split; [vm_compute; reflexivity|]. split; [vm_compute; reflexivity|]. split; vm_compute; reflexivity. Qed.

(** a texture of 16-bit colours whose bytes are all there can always be rendered, and
    every pixel is the number at its place in the file *)
Theorem C117_texture file x i n t p : is_bytes file -> TexModel.nsbtx_load file = Ok x -> nth_error (TexModel.xTextures x) i = Some (n, t) -> TexModel.txFmt t = 7 ->
  let d := ViewTexSpec.nsbtx_block file in
  let place := word d 0x14 + 8 * half d (ViewTexSpec.info_data d (half d 0x0E) 8 i) in
  let w := TexModel.txW t in let h := TexModel.txH t in
  place + 2 * (w * h) <= zlen d ->
  exists img, tex_renderAsImage t p = Ok img /\ sized img w h /\
    forall X Y, 0 <= X < w -> 0 <= Y < h -> let v := half d (place + 2 * (Y * w + X)) in
      pixel_at img X Y = [wide (v mod 32); wide (v / 32 mod 32); wide (v / 1024 mod 32); if v / 32768 =? 1 then 255 else 0].
Proof.
  intros B H I F d place w h L. apply (proj1 (C111_read file x B)) in H as (SH & V). fold d in SH, V. destruct V as [_ VT _]. rewrite VT in I. rewrite nth_error_map in I.
  assert (BD : is_bytes d) by (apply is_bytes_part; exact B).
  destruct (Nat.lt_ge_cases i (Z.to_nat (ViewTexSpec.info_count d (half d 0x0E)))) as [Li|Li]; [|replace (nth_error (seq 0 _) i) with (@None nat) in I by (symmetry; apply nth_error_None; rewrite seq_length; exact Li); discriminate].
  rewrite nth_error_seq_lt in I by exact Li. cbn [option_map plus] in I. injection I as _ I. symmetry in I.
  destruct SH as (_ & _ & _ & SZ & _ & (IS & _ & _ & _ & IL & _) & _). fold d in SZ, IS, IL. pose proof (half_range d 0x0E BD ltac:(lia) ltac:(lia)) as R0. pose proof (word_range d 0x14 BD ltac:(lia) ltac:(lia)) as R1.
  set (o := half d 0x0E) in *. pose proof (byte_range d (o + 1) BD ltac:(lia)) as R2. fold (ViewTexSpec.info_count d o) in R2.
  set (e := ViewTexSpec.info_data d o 8 i) in *. assert (HE : 0 <= e /\ e + 8 <= zlen d) by (unfold e, ViewTexSpec.info_data; lia). pose proof (half_range d e BD ltac:(lia) ltac:(lia)) as R3. pose proof (half_range d (e + 2) BD ltac:(lia) ltac:(lia)) as R4.
  assert (PL : 0 <= place) by (unfold place; lia).
  assert (HW : 0 < w) by (unfold w; rewrite I; cbn [TexModel.txW ViewTexSpec.texture_at]; apply Z.mul_pos_pos; [lia|apply Z.pow_pos_nonneg; lia]).
  assert (HH : 0 < h) by (unfold h; rewrite I; cbn [TexModel.txH ViewTexSpec.texture_at]; apply Z.mul_pos_pos; [lia|apply Z.pow_pos_nonneg; lia]).
  assert (D1 : TexModel.txD1 t = part d place (2 * (w * h))).
  { pose proof F as F'. rewrite I in F'. cbn [TexModel.txFmt ViewTexSpec.texture_at] in F'. unfold w, h. rewrite I. cbn [TexModel.txD1 TexModel.txW TexModel.txH ViewTexSpec.texture_at]. fold o. fold e. fold o in F'. fold e in F'. rewrite F'. cbn [Z.eqb Pos.eqb]. f_equal. change (ViewTexSpec.texel_bits 7) with 16. rewrite <- (Z.div_mul (2 * _) 8) by lia. f_equal. lia. }
  assert (LD : zlen (TexModel.txD1 t) = 2 * (w * h)) by (rewrite D1; apply zlen_part; nia).
  assert (D2 : TexModel.txD2 t = []).
  { pose proof F as F'. rewrite I in F'. cbn [TexModel.txFmt ViewTexSpec.texture_at] in F'. rewrite I. cbn [TexModel.txD2 ViewTexSpec.texture_at]. rewrite F'. reflexivity. }
  assert (B1 : is_bytes (TexModel.txD1 t)) by (rewrite D1; apply is_bytes_part; exact BD). assert (B2 : is_bytes (TexModel.txD2 t)) by (rewrite D2; constructor).
  assert (FIT : TexSpec.size_fits 7 w h) by (unfold TexSpec.size_fits; repeat split; lia).
  destruct (TexProps.C56_enough_data 7 (TexModel.txD1 t) (TexModel.txD2 t) w h [] (TexModel.txC0 t)) as (dest & R); [lia|exact FIT|exact B1|exact B2|exact (Forall_nil _)|change (nth (Z.to_nat 7) [0; 8; 2; 4; 8; 2; 8; 16] 0) with 16; lia|change (nth (Z.to_nat 7) [0; 0; 0; 0; 0; 1; 0; 0] 0) with 0; rewrite Z.mul_0_r; pose proof (zlen_nonneg (TexModel.txD2 t)); lia|change (nth (Z.to_nat 7) [0; 32; 4; 16; 256; 32770; 8; 0] 0) with 0; apply zlen_nonneg|].
  destruct (ImageTexture.texture_image 7 (TexModel.txD1 t) (TexModel.txD2 t) w h [] (TexModel.txC0 t) dest) as (img & IM & SI & PX); [lia|exact FIT|exact B1|exact B2|exact (Forall_nil _)|exact R|].
  exists img. split; [|split; [exact SI|]].
  - unfold tex_renderAsImage. rewrite F. fold w h. exact IM.
  - intros X Y HX HY v. destruct (PX X Y HX HY) as (c & C & ->). unfold TexSpec.pixel in C. cbv zeta in C. set (q := Y * w + X) in *. assert (Q : 0 <= q < w * h) by (unfold q; nia).
    rewrite D1 in C. destruct (get_some (part d place (2 * (w * h))) (2 * q)) as (lo & G0); [rewrite zlen_part by nia; lia|]. destruct (get_some (part d place (2 * (w * h))) (2 * q + 1)) as (hi & G1); [rewrite zlen_part by nia; lia|].
    rewrite G0, G1 in C. cbn [bind] in C. apply SeqRead.ok_inj in C. subst c.
    assert (E : v = lo + 256 * hi /\ 0 <= lo < 256 /\ 0 <= hi < 256).
    { assert (LP : zlen (part d place (2 * (w * h))) = 2 * (w * h)) by (apply zlen_part; nia). pose proof (is_bytes_part d place (2 * (w * h)) BD) as BPd. unfold v. rewrite half_part by nia. rewrite <- (part_part d place (2 * (w * h)) (2 * q) 2) by nia.
      set (P := part d place (2 * (w * h))) in *. rewrite get_byte in G0 by lia. rewrite get_byte in G1 by lia. apply SeqRead.ok_inj in G0. apply SeqRead.ok_inj in G1. subst lo hi.
      rewrite part_cons by lia. rewrite part_cons by lia. change (2 - 1 - 1) with 0. unfold part. change (Z.to_nat 0) with 0%nat. cbn [firstn unle]. pose proof (byte_range P (2 * q) BPd ltac:(lia)). pose proof (byte_range P (2 * q + 1) BPd ltac:(lia)). lia. }
    destruct E as (E & E0 & E1). unfold TexSpec.rgb. cbn [cr cg cb ca]. rewrite <- E. replace (v / 32768 =? 1) with (128 <=? hi) by lia. destruct (128 <=? hi); reflexivity.
Qed.
Print Assumptions C117_texture.
(** a texture of 8 by 8 pixels of 16 bits: an opaque one and many transparent ones *)
Definition ex_texture : bytes := asc "BTX0" ++ [0xFF; 0xFE] ++ le 2 1 ++ le 4 268 ++ le 2 16 ++ le 2 1 ++ le 4 20 ++
  asc "TEX0" ++ le 4 248 ++ le 4 0 ++ le 2 16 ++ le 2 0x3C ++ le 4 0 ++ le 4 0x78 ++ le 4 0 ++ le 2 0 ++ le 2 0x3C ++ le 4 0 ++ le 4 0xF8 ++ le 4 0xF8 ++ le 4 0 ++ le 2 0 ++ le 2 0 ++ le 4 0x68 ++ le 4 0xF8 ++
  [0; 1] ++ le 2 44 ++ le 2 8 ++ le 2 16 ++ le 4 0x17F ++ le 2 11 ++ le 2 12 ++ le 2 8 ++ le 2 12 ++ le 2 0 ++ le 2 0x1C00 ++ le 4 0 ++ asc "tex" ++ repeat 0 13 ++
  [0; 0] ++ le 2 16 ++ le 2 8 ++ le 2 12 ++ le 4 0x17F ++ le 2 4 ++ le 2 4 ++
  le 2 0x801F ++ flat_map (fun i => le 2 (33 * Z.of_nat i)) (seq 1 63).
Example C117_texture_ex : is_bytes ex_texture /\ exists x n t, TexModel.nsbtx_load ex_texture = Ok x /\ nth_error (TexModel.xTextures x) 0 = Some (n, t) /\ TexModel.txFmt t = 7 /\ TexModel.txW t = 8 /\ TexModel.txH t = 8 /\
  zlen (ViewTexSpec.nsbtx_block ex_texture) = 0x78 + 2 * (8 * 8) /\
  exists img, tex_renderAsImage t None = Ok img /\ pixel_at img 0 0 = [255; 0; 0; 255] /\ pixel_at img 2 1 = [82; 82; 0; 0].
Proof.
  split; [all_bytes|]. eexists. eexists. eexists. split; [vm_compute; reflexivity|]. split; [vm_compute; reflexivity|]. split; [reflexivity|]. split; [reflexivity|]. split; [reflexivity|]. split; [vm_compute; reflexivity|].
  eexists. split; [vm_compute; reflexivity|]. split; vm_compute; reflexivity.
Qed.

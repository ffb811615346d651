(** * Properties of rendered images (C76, C77) *)
From Verif Require Import PyBase PyLemmas ColorModel Gfx2DModel Gfx2DLemmas TexModel TexSpec ImageModel ImageSpec ImageLemmas ImageRender ImageTexture.

(** ** C76: colours as an image *)

(** the pixel in column x of row y is colour number y * w + x, with every channel
    widened to eight bits; further colours are ignored *)
Theorem C76_pixels : forall aBits cs rest w h, 0 <= w -> 0 <= h -> aBits = 1 \/ aBits = 5 -> zlen cs = w * h -> Forall (channels_ok aBits) cs ->
  exists img, colorsToImage (map Some cs ++ rest) w h aBits = Ok img /\ sized img w h /\
    forall x y c, 0 <= x < w -> 0 <= y < h -> nth_error cs (Z.to_nat (y * w + x)) = Some c -> pixel_at img x y = shown aBits c.
Proof. exact image_ok. Qed.
Print Assumptions C76_pixels.
Example C76_pixels_ex : exists img, colorsToImage (map Some [(31, 0, 1, 0); (16, 3, 4, 7)] ++ [None]) 1 2 1 = Ok img /\
  pixel_at img 0 0 = [255; 0; 8; 0] /\ pixel_at img 0 1 = [132; 24; 33; 255].
Proof. eexists. split; [vm_compute; reflexivity|]. split; vm_compute; reflexivity. Qed.
(** different colours look different (with one alpha bit, as far as it is set or not) *)
Theorem C76_distinct : forall c d, channels_ok 5 c -> channels_ok 5 d -> shown 5 c = shown 5 d -> c = d.
Proof.
  intros [[[r g] b] a] [[[r' g'] b'] a'] (R & G & B & A) (R' & G' & B' & A') E. specialize (A eq_refl). specialize (A' eq_refl).
  unfold shown, wide in E. cbn [Z.eqb Pos.eqb] in E. injection E as E1 E2 E3 E4. f_equal; [f_equal; [f_equal|]|]; lia.
Qed.
Print Assumptions C76_distinct.
Example C76_distinct_ex : shown 5 (3, 4, 5, 6) = [24; 33; 41; 49] /\ shown 5 (4, 4, 5, 6) = [33; 33; 41; 49].
Proof. split; reflexivity. Qed.
(** the extremes are kept and the order of intensities too *)
Theorem C76_wide : wide 0 = 0 /\ wide 31 = 255 /\ forall v w, 0 <= v < w -> w < 32 -> wide v < wide w.
Proof. repeat split. intros v w V W. unfold wide. lia. Qed.
Print Assumptions C76_wide.
Theorem C76_errors : forall aBits cs rest w h, 0 <= w -> 0 <= h ->
  (aBits <> 1 -> aBits <> 5 -> colorsToImage (map Some cs ++ rest) w h aBits = Err ValueError) /\
  (aBits = 1 \/ aBits = 5 -> zlen cs < w * h -> colorsToImage (map Some cs) w h aBits = Err StopIteration /\
    colorsToImage (map Some cs ++ None :: rest) w h aBits = Err TypeError).
Proof.
  intros a cs rest w h W H. split.
  - intros N1 N5. unfold colorsToImage. replace (a =? 1) with false by lia. replace (a =? 5) with false by lia. reflexivity.
  - intros A L. assert (N : (length cs < Z.to_nat (w * h))%nat) by (unfold zlen in L; lia). rewrite !colorsToImage_draw, draw_short, draw_none by assumption. split; reflexivity.
Qed.
Print Assumptions C76_errors.
Example C76_errors_ex : colorsToImage [Some (1, 2, 3, 4)] 1 1 3 = Err ValueError /\ colorsToImage [Some (1, 2, 3, 4)] 2 1 5 = Err StopIteration /\
  colorsToImage [Some (1, 2, 3, 4); None] 2 1 5 = Err TypeError.
Proof. repeat split; vm_compute; reflexivity. Qed.

(** ** C77: tiles, tile maps and textures as images *)

Definition ex_pal : list Gfx2DModel.color := map (fun i => (i mod 32, (2 * i) mod 32, (3 * i) mod 32, 0)) (range_z 0 64).
Definition ex_tile (k : Z) : itile := {| tPixels := map (fun i => (i * k) mod 16) (range_z 0 64); tFormat := FI4 |}.

(** pixel value 0 is transparent, any other value shows a colour of the palette, opaque *)
Theorem C77_tile : forall t colors p px, 0 <= p -> Forall (fun v => 0 <= v) (tPixels t) -> Forall (channels_ok 1) colors ->
  itile_render t colors p = Ok px ->
  exists img, itile_renderAsImage t colors p = Ok img /\ sized img 8 8 /\
    forall x y, 0 <= x < 8 -> 0 <= y < 8 -> exists v, nth_error (tPixels t) (Z.to_nat (8 * y + x)) = Some v /\
      (v = 0 -> pixel_at img x y = [0; 0; 0; 0]) /\
      (v <> 0 -> exists r g b a, nth_error colors (Z.to_nat (p * pix_limit (tFormat t) + v)) = Some (r, g, b, a) /\ pixel_at img x y = [wide r; wide g; wide b; 255]).
Proof.
  intros t colors p px P NN F E. pose proof (itile_render_len _ _ _ _ E) as L. destruct (plain_image px 8 8) as (img & EI & S & G); [lia|lia|lia|exact (render_channels _ _ _ _ F E)|].
  exists img. split; [unfold itile_renderAsImage; rewrite E; exact EI|]. split; [exact S|]. intros x y X Y.
  destruct (itile_render_pixel t colors p px P NN E (8 * y + x)) as (v & V & V0 & V1); [lia|]. exists v. split; [exact V|].
  assert (GT : forall c, nth_error px (Z.to_nat (8 * y + x)) = Some c -> pixel_at img x y = shown 1 c) by (intros c N; apply G; [exact X|exact Y|]; apply get_nth; [lia|]; rewrite (Z.mul_comm y 8); exact N).
  split; [intros ->; rewrite (GT _ (V0 eq_refl)); reflexivity|]. intros NZ. destruct (V1 NZ) as (r & g & b & a & C & N). exists r, g, b, a. split; [exact C|]. rewrite (GT _ N). reflexivity.
Qed.
Print Assumptions C77_tile.
Example C77_tile_ex : exists img, itile_renderAsImage (ex_tile 3) ex_pal 2 = Ok img /\ pixel_at img 0 0 = [0; 0; 0; 0] /\ pixel_at img 1 2 = [24; 49; 74; 255] /\
  nth_error (tPixels (ex_tile 3)) 17 = Some 3 /\ nth_error ex_pal 35 = Some (3, 6, 9, 0).
Proof. eexists. split; [vm_compute; reflexivity|]. repeat split; vm_compute; reflexivity. Qed.

(** a sheet shows tile number i in column i mod W and row i / W, as the tile's own image *)
Theorem C77_sheet : forall tiles colors p W pxs, 1 <= W -> zlen tiles mod W = 0 -> Forall (channels_ok 1) colors ->
  mapM (fun t => itile_render t colors p) tiles = Ok pxs ->
  exists img, renderImageTilesAsImage tiles colors p W = Ok img /\ sized img (8 * W) (8 * (zlen tiles / W)) /\
    forall i t, 0 <= i -> nth_error tiles (Z.to_nat i) = Some t -> exists s, itile_renderAsImage t colors p = Ok s /\ sized s 8 8 /\
      forall x y, 0 <= x < 8 -> 0 <= y < 8 -> pixel_at img (8 * (i mod W) + x) (8 * (i / W) + y) = pixel_at s x y.
Proof.
  intros tiles colors p W pxs W1 M F X. set (r := fun t => itile_render t colors p) in *.
  destruct (sheet_complete r tiles W pxs W1 M (fun t q => itile_render_len t colors p q) X) as (px & E & _).
  destruct (sheet_image r (fun t => itile_renderAsImage t colors p) tiles W px pxs W1 M (fun t q => itile_render_len t colors p q) (fun t q => render_channels t colors p q F) (fun t => eq_refl) E X) as (img & EI & R).
  exists img. split; [|exact R]. unfold renderImageTilesAsImage. replace (W =? 0) with false by lia. unfold renderImageTiles. fold r. rewrite E. exact EI.
Qed.
Print Assumptions C77_sheet.
Example C77_sheet_ex : exists img, renderImageTilesAsImage [ex_tile 1; ex_tile 2; ex_tile 3; ex_tile 5] ex_pal 1 2 = Ok img /\
  iWidth img = 16 /\ iHeight img = 16 /\ pixel_at img 9 13 = [239; 214; 189; 255] /\ exists s, itile_renderAsImage (ex_tile 5) ex_pal 1 = Ok s /\ pixel_at s 1 5 = [239; 214; 189; 255].
Proof. eexists. split; [vm_compute; reflexivity|]. do 3 (split; [vm_compute; reflexivity|]). eexists. split; vm_compute; reflexivity. Qed.

(** likewise for tile maps *)
Theorem C77_tilemap_sheet : forall mtiles imgs colors W off pxs, 1 <= W -> zlen mtiles mod W = 0 -> Forall (channels_ok 1) colors ->
  mapM (fun t => mtile_render t imgs colors off) mtiles = Ok pxs ->
  exists img, renderTilemapTilesAsImage mtiles imgs colors W off = Ok img /\ sized img (8 * W) (8 * (zlen mtiles / W)) /\
    forall i t, 0 <= i -> nth_error mtiles (Z.to_nat i) = Some t -> exists s, mtile_renderAsImage t imgs colors off = Ok s /\ sized s 8 8 /\
      forall x y, 0 <= x < 8 -> 0 <= y < 8 -> pixel_at img (8 * (i mod W) + x) (8 * (i / W) + y) = pixel_at s x y.
Proof.
  intros mtiles imgs colors W off pxs W1 M F X. set (r := fun t => mtile_render t imgs colors off) in *.
  destruct (sheet_complete r mtiles W pxs W1 M (fun t q => mtile_render_len t imgs colors off q) X) as (px & E & _).
  destruct (sheet_image r (fun t => mtile_renderAsImage t imgs colors off) mtiles W px pxs W1 M (fun t q => mtile_render_len t imgs colors off q) (fun t q => mtile_channels t imgs colors off q F)) with (2 := E) (3 := X) as (img & EI & R).
  { intros t. unfold r, mtile_renderAsImage, mtile_render, mtile_renderSingleAsImage. destruct (_ <? _); [reflexivity|]. destruct (get imgs _); reflexivity. }
  exists img. split; [|exact R]. unfold renderTilemapTilesAsImage. replace (W =? 0) with false by lia. unfold renderTilemapTiles. fold r. rewrite E. exact EI.
Qed.
Print Assumptions C77_tilemap_sheet.

(** the image of a tile-map tile is that of the image tile, mirrored as its flags say,
    in the tile's palette (palette 0 and never mirrored in the 8-bit format) *)
Theorem C77_tilemap_tile : forall t imgs colors off i px, off <= mTileNum t -> nth_error imgs (Z.to_nat (mTileNum t - off)) = Some i ->
  Forall (channels_ok 1) colors -> itile_render i colors (match mFormat t with M8 => 0 | M16 => mPalette t end) = Ok px ->
  exists base img, itile_renderAsImage i colors (match mFormat t with M8 => 0 | M16 => mPalette t end) = Ok base /\ sized base 8 8 /\
    mtile_renderAsImage t imgs colors off = Ok img /\ sized img 8 8 /\
    forall x y, 0 <= x < 8 -> 0 <= y < 8 -> pixel_at img x y =
      match mFormat t with
      | M8 => pixel_at base x y
      | M16 => pixel_at base (if mHFlip t then 7 - x else x) (if mVFlip t then 7 - y else y)
      end.
Proof.
  intros t imgs colors off i px O N F E. pose proof (itile_render_len _ _ _ _ E) as L.
  destruct (plain_image px 8 8) as (base & EB & SB & GB); [lia|lia|lia|exact (render_channels _ _ _ _ F E)|]. exists base.
  assert (Q : exists out, mtile_renderSingle t i colors = Ok out /\ zlen out = 64 /\ forall x y, 0 <= x < 8 -> 0 <= y < 8 ->
    get out (8 * y + x) = match mFormat t with M8 => get px (8 * y + x) | M16 => get px (8 * (if mVFlip t then 7 - y else y) + (if mHFlip t then 7 - x else x)) end).
  { destruct (mFormat t) eqn:FT.
    - pose proof (flip_pixels t i colors (mHFlip t) (mVFlip t) FT) as FP. assert (W0 : mtile_renderSingle (with_flips t false false) i colors = Ok px).
      { unfold mtile_renderSingle, with_flips. cbn [mFormat mPalette mHFlip mVFlip andb]. rewrite ?FT, E. reflexivity. }
      rewrite W0 in FP. destruct FP as (out & EO & _ & LO & GO). exists out. replace (with_flips t (mHFlip t) (mVFlip t)) with t in EO by (destruct t; reflexivity). split; [exact EO|]. split; [exact LO|exact GO].
    - exists px. rewrite renderSingle8 by exact FT. split; [exact E|]. split; [exact L|reflexivity]. }
  destruct Q as (out & EO & LO & GO). destruct (plain_image out 8 8) as (img & EI & SI & GI); [lia|lia|lia|exact (renderSingle_channels _ _ _ _ F EO)|]. exists img.
  split; [unfold itile_renderAsImage; rewrite E; exact EB|]. split; [exact SB|].
  split; [unfold mtile_renderAsImage; replace (mTileNum t <? off) with false by lia; rewrite (get_nth imgs _ i) by (try lia; exact N); cbn [bind]; unfold mtile_renderSingleAsImage; rewrite EO; exact EI|].
  split; [exact SI|]. intros x y X Y. specialize (GO x y X Y).
  destruct (mFormat t).
  - set (x' := if mHFlip t then 7 - x else x) in *. set (y' := if mVFlip t then 7 - y else y) in *. assert (X' : 0 <= x' < 8) by (unfold x'; destruct (mHFlip t); lia). assert (Y' : 0 <= y' < 8) by (unfold y'; destruct (mVFlip t); lia).
    destruct (get_some px (8 * y' + x')) as (c & C); [lia|]. rewrite C in GO. rewrite (GI x y c X Y), (GB x' y' c X' Y'); [reflexivity| |]; rewrite (Z.mul_comm _ 8); assumption.
  - destruct (get_some px (8 * y + x)) as (c & C); [lia|]. rewrite C in GO. rewrite (GI x y c X Y), (GB x y c X Y); [reflexivity| |]; rewrite (Z.mul_comm _ 8); assumption.
Qed.
Print Assumptions C77_tilemap_tile.
Definition ex_mt : mtile := mtile_fromParameters 3 M16 true false 1.
Example C77_tilemap_ex : exists img base, mtile_renderAsImage ex_mt [ex_tile 1; ex_tile 3] ex_pal 2 = Ok img /\ itile_renderAsImage (ex_tile 3) ex_pal 1 = Ok base /\
  pixel_at img 1 2 = pixel_at base 6 2 /\ pixel_at base 6 2 = [148; 33; 181; 255] /\ mtile_renderAsImage ex_mt [ex_tile 1; ex_tile 3] ex_pal 4 = Err ValueError /\
  exists sheet, renderTilemapTilesAsImage [ex_mt; mtile_fromParameters 2 M16 false true 0] [ex_tile 1; ex_tile 3] ex_pal 1 2 = Ok sheet /\ iHeight sheet = 16.
Proof. eexists. eexists. do 5 (split; [vm_compute; reflexivity|]). eexists. split; vm_compute; reflexivity. Qed.

(** a texture's image shows the pixels of its format *)
Theorem C77_texture : forall fmt d1 d2 w h pal c0 dest,
  1 <= fmt <= 7 -> size_fits fmt w h -> is_bytes d1 -> is_bytes d2 -> Forall (fun v => 0 <= v < 2 ^ 16) pal ->
  renderTextureData d1 d2 fmt w h (Some (map PInt pal)) c0 = Ok dest ->
  exists img, renderTextureDataAsImage d1 d2 fmt w h (Some (map PInt pal)) c0 = Ok img /\ sized img w h /\
    forall X Y, 0 <= X < w -> 0 <= Y < h -> exists c, pixel fmt d1 d2 w pal c0 X Y = Ok c /\ pixel_at img X Y = [wide (cr c); wide (cg c); wide (cb c); wide (ca c)].
Proof. exact texture_image. Qed.
Print Assumptions C77_texture.
Example C77_texture_ex : exists img, renderTextureDataAsImage [0xE1; 0x20; 0x5F; 0] [] 1 2 2 (Some (map PInt (0x7FFF :: 0x001F :: rep 0x03E0 30))) true = Ok img /\
  pixel_at img 0 0 = [255; 0; 0; 255] /\ pixel_at img 1 0 = [255; 255; 255; 33] /\ pixel_at img 0 1 = [0; 255; 0; 74] /\ pixel_at img 1 1 = [255; 255; 255; 0].
Proof. eexists. split; [vm_compute; reflexivity|]. repeat split; vm_compute; reflexivity. Qed.

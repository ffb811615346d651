(** * Tiles, tilemaps and tile sheets (ndspy/graphics2D.py) *)
From Verif Require Import PyBase PyLemmas Gfx2DModel Gfx2DLemmas.

(** C29: image tiles.  [itile_ok f t]: 64 pixels, each within the format's range
    (16 or 256 values); [tile_bytes f] is 32 or 64. *)
Theorem C29_image_tiles_roundtrip : forall f tiles, Forall (itile_ok f) tiles ->
  exists d, saveImageTiles tiles = Ok d /\ zlen d = tile_bytes f * zlen tiles /\ loadImageTiles d f = Ok tiles.
Proof. exact image_tiles_roundtrip. Qed.
Print Assumptions C29_image_tiles_roundtrip.

(** a trailing incomplete tile is dropped, everything else is kept bit for bit *)
Theorem C29_image_tiles_resave : forall f d, is_bytes d ->
  exists tiles, loadImageTiles d f = Ok tiles /\ zlen tiles = zlen d / tile_bytes f /\ Forall (itile_ok f) tiles /\
    saveImageTiles tiles = Ok (slice d 0 (tile_bytes f * (zlen d / tile_bytes f))).
Proof. exact image_tiles_resave. Qed.
Print Assumptions C29_image_tiles_resave.

Theorem C29_image_tile_wrong_length : forall f b, zlen b <> tile_bytes f -> itile_new (Some b) f = Err ValueError.
Proof. exact itile_new_wrong. Qed.
Print Assumptions C29_image_tile_wrong_length.

Theorem C29_image_tiles_mixed : forall t0 l t, In t l -> tFormat t <> tFormat t0 -> saveImageTiles (t0 :: l) = Err ValueError.
Proof. exact saveImageTiles_mixed. Qed.
Print Assumptions C29_image_tiles_mixed.

Definition ex_tile4 : itile := {| tPixels := map (fun i => (i * 3) mod 16) (range_z 0 64); tFormat := FI4 |}.
Definition ex_tile8 : itile := {| tPixels := map (fun i => (i * 11) mod 256) (range_z 0 64); tFormat := FI8 |}.
Example C29_ex : itile_ok FI4 ex_tile4 /\ itile_ok FI8 ex_tile8 /\ tFormat ex_tile8 <> tFormat ex_tile4 /\
  saveImageTiles [ex_tile4; ex_tile8] = Err ValueError /\
  (exists d, saveImageTiles [ex_tile4; ex_tile4] = Ok d /\ slice d 0 4 = [0x30; 0x96; 0xFC; 0x52]).
Proof.
  split. { split; [reflexivity|]. split; [reflexivity|]. apply Forall_forall. intros p Hp. apply in_map_iff in Hp as (i & <- & _). cbn [pix_limit]. lia. }
  split. { split; [reflexivity|]. split; [reflexivity|]. apply Forall_forall. intros p Hp. apply in_map_iff in Hp as (i & <- & _). cbn [pix_limit]. lia. }
  split; [discriminate|]. split; [reflexivity|]. eexists. split; [vm_compute; reflexivity|vm_compute; reflexivity].
Qed.

(** C30: the meaning of the tilemap word, for all field values *)
Theorem C30_value16 : forall t, mFormat t = M16 ->
  mtile_value t = mTileNum t mod 1024 + (if mHFlip t then 1024 else 0) + (if mVFlip t then 2048 else 0) + 4096 * (mPalette t mod 16).
Proof. exact value16. Qed.
Print Assumptions C30_value16.

Theorem C30_value8 : forall t, mFormat t = M8 -> mtile_value t = mTileNum t mod 256.
Proof. exact value8. Qed.
Print Assumptions C30_value8.

(** bijection: 16-bit words with (10-bit tile number, two flips, 4-bit palette),
    bytes with 8-bit tile numbers *)
Theorem C30_value_then_new : forall f t, mtile_ok f t -> mtile_new (mtile_value t) f = t.
Proof. exact new_value. Qed.
Print Assumptions C30_value_then_new.

Theorem C30_new_then_value : forall f v, 0 <= v < val_limit f -> mtile_value (mtile_new v f) = v /\ mtile_ok f (mtile_new v f).
Proof. exact value_new. Qed.
Print Assumptions C30_new_then_value.

Theorem C30_tilemap_roundtrip : forall f tiles, Forall (mtile_ok f) tiles ->
  exists d, saveTilemapTiles tiles = Ok d /\ zlen d = zlen tiles * (match f with M16 => 2 | M8 => 1 end) /\ is_bytes d /\
    loadTilemapTiles d f = Ok tiles.
Proof. exact tilemap_roundtrip. Qed.
Print Assumptions C30_tilemap_roundtrip.

Theorem C30_tilemap_resave : forall f d, is_bytes d -> (f = M16 -> zlen d mod 2 = 0) ->
  exists tiles, loadTilemapTiles d f = Ok tiles /\ Forall (mtile_ok f) tiles /\ saveTilemapTiles tiles = Ok d.
Proof. exact tilemap_resave. Qed.
Print Assumptions C30_tilemap_resave.

Theorem C30_tilemap_odd_length : forall d, zlen d mod 2 = 1 -> loadTilemapTiles d M16 = Err StructError.
Proof. exact tilemap_odd. Qed.
Print Assumptions C30_tilemap_odd_length.

Theorem C30_tilemap_mixed : forall t0 t tiles, In t (t0 :: tiles) -> mFormat t <> mFormat t0 ->
  saveTilemapTiles (t0 :: tiles) = Err ValueError.
Proof. exact saveTilemapTiles_mixed. Qed.
Print Assumptions C30_tilemap_mixed.

Definition ex_mtile : mtile := mtile_fromParameters 0x2A5 M16 true false 0xC.
Definition ex_mtile8 : mtile := mtile_fromParameters 0xA5 M8 false false 0.
Example C30_ex : mtile_ok M16 ex_mtile /\ mtile_value ex_mtile = 0xC6A5 /\ mtile_ok M8 ex_mtile8 /\ mtile_value ex_mtile8 = 0xA5 /\
  saveTilemapTiles [ex_mtile; mtile_new 0xFFFF M16] = Ok [0xA5; 0xC6; 0xFF; 0xFF] /\
  loadTilemapTiles [0xA5; 0xC6; 0xFF; 0xFF] M16 = Ok [ex_mtile; mtile_fromParameters 0x3FF M16 true true 15] /\
  saveTilemapTiles [ex_mtile; ex_mtile8] = Err ValueError.
Proof. repeat split; vm_compute; congruence. Qed.

(** C31: rendering with flips permutes the 64 pixels; it fails exactly when the
    unflipped rendering fails *)
Theorem C31_flip_pixels : forall t img colors h v, mFormat t = M16 ->
  match mtile_renderSingle (with_flips t false false) img colors with
  | Err e => mtile_renderSingle (with_flips t h v) img colors = Err e
  | Ok base => exists out, mtile_renderSingle (with_flips t h v) img colors = Ok out /\ zlen base = 64 /\ zlen out = 64 /\
      forall x y, 0 <= x < 8 -> 0 <= y < 8 ->
        get out (8 * y + x) = get base (8 * (if v then 7 - y else y) + (if h then 7 - x else x))
  end.
Proof. exact flip_pixels. Qed.
Print Assumptions C31_flip_pixels.

(** rendering a picture that is itself a flip of [img] combines the flips: the same
    flip twice is the identity and the order does not matter *)
Theorem C31_flip_compose : forall t img img' colors h1 v1 h2 v2, mFormat t = M16 -> flipped_image h2 v2 img img' ->
  mtile_renderSingle (with_flips t h1 v1) img' colors =
  mtile_renderSingle (with_flips t (xorb h1 h2) (xorb v1 v2)) img colors.
Proof. exact flip_compose. Qed.
Print Assumptions C31_flip_compose.

(** an 8-bit tilemap ignores flips and palette *)
Theorem C31_flip_8bit : forall t img colors, mFormat t = M8 -> mtile_renderSingle t img colors = itile_render img colors 0.
Proof. exact renderSingle8. Qed.
Print Assumptions C31_flip_8bit.

(** the unflipped pixels: value 0 is transparent, any other value selects an opaque colour *)
Theorem C31_render_pixel : forall t colors p out, 0 <= p -> Forall (fun v => 0 <= v) (tPixels t) -> itile_render t colors p = Ok out ->
  forall i, 0 <= i < 64 -> exists v, nth_error (tPixels t) (Z.to_nat i) = Some v /\
    (v = 0 -> nth_error out (Z.to_nat i) = Some (0, 0, 0, 0)) /\
    (v <> 0 -> exists r g b a, nth_error colors (Z.to_nat (p * pix_limit (tFormat t) + v)) = Some (r, g, b, a) /\
       nth_error out (Z.to_nat i) = Some (r, g, b, 1)).
Proof. exact itile_render_pixel. Qed.
Print Assumptions C31_render_pixel.

Definition ex_colors : list color := map (fun i => (i mod 32, i mod 7, 3, 0)) (range_z 0 256).
Definition ex_tile4h : itile := {| tPixels := map (fun i => (((i - i mod 8) + (7 - i mod 8)) * 3) mod 16) (range_z 0 64); tFormat := FI4 |}.
Example C31_ex : flipped_image true false ex_tile4 ex_tile4h /\
  mtile_renderSingle (with_flips ex_mtile true false) ex_tile4h ex_colors = mtile_renderSingle (with_flips ex_mtile false false) ex_tile4 ex_colors /\
  (exists out, mtile_renderSingle ex_mtile ex_tile4 ex_colors = Ok out /\ get out 0 = Ok (5, 1, 3, 1) /\ get out 7 = Ok (0, 0, 0, 0)).
Proof.
  split; [|split; [vm_compute; reflexivity|]].
  - split; [reflexivity|]. split; [reflexivity|]. split; [reflexivity|]. intros x y Hx Hy.
    pose proof (sweep 64 (fun i => let x := i mod 8 in let y := i / 8 in match get (tPixels ex_tile4h) (8 * y + x), get (tPixels ex_tile4) (8 * y + (7 - x)) with Ok a, Ok b => a =? b | _, _ => false end)
       ltac:(vm_compute; reflexivity) (8 * y + x) ltac:(lia)) as S. cbv beta zeta in S.
    replace ((8 * y + x) mod 8) with x in S by lia. replace ((8 * y + x) / 8) with y in S by lia.
    destruct (get (tPixels ex_tile4h) _); [|discriminate]. destruct (get (tPixels ex_tile4) _); [|discriminate]. apply Z.eqb_eq in S. congruence.
  - eexists. split; [vm_compute; reflexivity|]. split; vm_compute; reflexivity.
Qed.

(** C32: writing one cell.  It succeeds exactly where [tileAt] finds a tile and then
    changes that cell only. *)
Theorem C32_put_tile : forall (T : Type) (tiles : list T) x y t W,
  match tileAt tiles x y W with
  | None => putTile tiles x y t W = (tiles, false)
  | Some _ => exists tiles', putTile tiles x y t W = (tiles', true) /\ zlen tiles' = zlen tiles /\
      forall x' y', tileAt tiles' x' y' W = if (x' =? x) && (y' =? y) then Some t else tileAt tiles x' y' W
  end.
Proof. exact @put_tile. Qed.
Print Assumptions C32_put_tile.

(** The full claim is that every (x, y) with 0 <= x < W and 0 <= y*W + x < len is
    readable; it holds for the first W rows only. *)
Theorem C32_readable_partial : forall (T : Type) (tiles : list T) x y W, 0 <= x < W -> 0 <= y < W -> y * W + x < zlen tiles ->
  exists t, tileAt tiles x y W = Some t /\ nth_error tiles (Z.to_nat (y * W + x)) = Some t.
Proof. exact @tile_readable. Qed.
Print Assumptions C32_readable_partial.

(** a sheet taller than it is wide has unreadable rows: [y] is compared with the width *)
Theorem C32_readable_refuted : exists (tiles : list Z) x y W, 0 <= x < W /\ 0 <= y /\ y * W + x < zlen tiles /\
  tileAt tiles x y W = None /\ putTile tiles x y 99 W = (tiles, false).
Proof. exists [10; 11; 12; 13; 14; 15], 1, 2, 2. repeat split; vm_compute; congruence. Qed.
Print Assumptions C32_readable_refuted.

Example C32_ex : tileAt [10; 11; 12; 13] 1 1 2 = Some 13 /\ putTile [10; 11; 12; 13] 0 1 99 2 = ([10; 11; 99; 13], true) /\
  tileAt [10; 11; 12] 1 1 2 = None.
Proof. repeat split; vm_compute; congruence. Qed.

(** C48: sheets.  Full claim: every list of tiles renders.  It holds when the last row
    is complete ... *)
Theorem C48_sheet_complete_partial : forall tiles colors p W pxs,
  1 <= W -> zlen tiles mod W = 0 -> mapM (fun t => itile_render t colors p) tiles = Ok pxs ->
  exists img, renderImageTiles tiles colors p W = Ok img /\ zlen img = 64 * zlen tiles /\
    forall i t x y, 0 <= i -> nth_error pxs (Z.to_nat i) = Some t -> 0 <= x < 8 -> 0 <= y < 8 ->
      get img (((i / W * 8 + y) * W + i mod W) * 8 + x) = get t (8 * y + x).
Proof. intros tiles colors p W pxs H1 H2. exact (sheet_complete _ tiles W pxs H1 H2 (fun t px => itile_render_len t colors p px)). Qed.
Print Assumptions C48_sheet_complete_partial.

Theorem C48_tilemap_sheet_complete_partial : forall mtiles imgs colors W off pxs,
  1 <= W -> zlen mtiles mod W = 0 -> mapM (fun t => mtile_render t imgs colors off) mtiles = Ok pxs ->
  exists img, renderTilemapTiles mtiles imgs colors W off = Ok img /\ zlen img = 64 * zlen mtiles /\
    forall i t x y, 0 <= i -> nth_error pxs (Z.to_nat i) = Some t -> 0 <= x < 8 -> 0 <= y < 8 ->
      get img (((i / W * 8 + y) * W + i mod W) * 8 + x) = get t (8 * y + x).
Proof. intros mtiles imgs colors W off pxs H1 H2. exact (sheet_complete _ mtiles W pxs H1 H2 (fun t px => mtile_render_len t imgs colors off px)). Qed.
Print Assumptions C48_tilemap_sheet_complete_partial.

(** ... and fails with StopIteration whenever it is not *)
Theorem C48_sheet_incomplete : forall tiles colors p W pxs,
  1 <= W -> zlen tiles mod W <> 0 -> mapM (fun t => itile_render t colors p) tiles = Ok pxs ->
  renderImageTiles tiles colors p W = Err StopIteration.
Proof.
  intros tiles colors p W pxs H1 H2 M. pose proof (sheet_incomplete _ tiles W H1 H2 (fun t px => itile_render_len t colors p px)) as S.
  rewrite M in S. exact S.
Qed.
Print Assumptions C48_sheet_incomplete.

Theorem C48_tilemap_sheet_incomplete : forall mtiles imgs colors W off pxs,
  1 <= W -> zlen mtiles mod W <> 0 -> mapM (fun t => mtile_render t imgs colors off) mtiles = Ok pxs ->
  renderTilemapTiles mtiles imgs colors W off = Err StopIteration.
Proof.
  intros mtiles imgs colors W off pxs H1 H2 M. pose proof (sheet_incomplete _ mtiles W H1 H2 (fun t px => mtile_render_len t imgs colors off px)) as S.
  rewrite M in S. exact S.
Qed.
Print Assumptions C48_tilemap_sheet_incomplete.

Theorem C48_sheet_refuted : exists tiles colors p W pxs, 1 <= W /\ mapM (fun t => itile_render t colors p) tiles = Ok pxs /\
  forall img, renderImageTiles tiles colors p W <> Ok img.
Proof.
  exists [ex_tile4], ex_colors, 2, 2. eexists. split; [lia|]. split; [vm_compute; reflexivity|]. intros img. vm_compute. discriminate.
Qed.
Print Assumptions C48_sheet_refuted.

Example C48_ex : (exists pxs, mapM (fun t => itile_render t ex_colors 2) [ex_tile4; ex_tile4h; ex_tile4; ex_tile4] = Ok pxs) /\
  (exists img, renderImageTiles [ex_tile4; ex_tile4h; ex_tile4; ex_tile4] ex_colors 2 2 = Ok img /\ zlen img = 256 /\ get img (1 * 16 + 8 + 3) = Ok (4, 1, 3, 1)) /\
  renderImageTiles [ex_tile4; ex_tile4h; ex_tile4] ex_colors 2 2 = Err StopIteration.
Proof.
  split; [eexists; vm_compute; reflexivity|]. split; [|vm_compute; reflexivity].
  eexists. split; [vm_compute; reflexivity|]. split; vm_compute; reflexivity.
Qed.

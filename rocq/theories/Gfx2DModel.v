(** * Model of ndspy/graphics2D.py: image tiles, tilemap tiles and tile sheets.
    PIL images ([...AsImage]) are in ImageModel, file access ([...FromFile], [...ToFile])
    in FilesModel;
    the format arguments are always members of the enumerations, so the
    [_check...Format] calls never raise and are left out. *)
From Verif Require Import PyBase.

(** [ImageFormat] (graphics2D.py:26-34) *)
Inductive imgfmt : Set := FI8 | FI4.
(** [TilemapFormat] (graphics2D.py:37-42) *)
Inductive mapfmt : Set := M16 | M8.
Definition imgfmt_eqb (a b : imgfmt) : bool := match a, b with FI8, FI8 | FI4, FI4 => true | _, _ => false end.
Definition mapfmt_eqb (a b : mapfmt) : bool := match a, b with M16, M16 | M8, M8 => true | _, _ => false end.

(** an (r5, g5, b5, a1) quadruple *)
Definition color : Type := (Z * Z * Z * Z)%type.
Definition transparent : color := (0, 0, 0, 0).

(** ** ImageTile *)
Record itile := { tPixels : list Z; tFormat : imgfmt }.

(** [ImageTile.__init__] (graphics2D.py:70-99) *)
Definition itile_new (data : option bytes) (f : imgfmt) : res itile :=
  match data with
  | None => Ok {| tPixels := rep 0 64; tFormat := f |}
  | Some d =>
    match f with
    | FI4 => if negb (zlen d =? 32) then Err ValueError
             else Ok {| tPixels := flat_map (fun b => [Z.land b 0xF; Z.shiftr b 4]) d; tFormat := f |}
    | FI8 => if negb (zlen d =? 64) then Err ValueError
             else Ok {| tPixels := d; tFormat := f |}
    end
  end.

(** [ImageTile.fromPixels] (graphics2D.py:102-106) *)
Definition itile_fromPixels (px : list Z) (f : imgfmt) : itile := {| tPixels := px; tFormat := f |}.

(** the loop of [ImageTile.save] for 4-bit tiles (graphics2D.py:150-162); [left] is
    the pending low nibble *)
Fixpoint save_nibbles (px : list Z) (left : option Z) : bytes :=
  match px with
  | [] => []
  | p :: r => match left with
              | None => save_nibbles r (Some (Z.land p 0xF))
              | Some l => Z.lor l (Z.land (Z.shiftl p 4) 0xF0) :: save_nibbles r None
              end
  end.
(** [ImageTile.save] (graphics2D.py:147-166) *)
Definition itile_save (t : itile) : res bytes :=
  match tFormat t with
  | FI4 => Ok (save_nibbles (tPixels t) None)
  | FI8 => to_bytes (tPixels t)
  end.

(** [ImageTile.render] (graphics2D.py:109-135) *)
Definition itile_render (t : itile) (colors : list color) (paletteNum : Z) : res (list color) :=
  let colors2 := map (fun c : color => let '(r, g, b, a) := c in (r, g, b, 1)) colors in
  let paletteSize := match tFormat t with FI4 => 16 | FI8 => 256 end in
  let cs := paletteNum * paletteSize in
  mapM (fun i => px <- get (tPixels t) i ;;
                 if px =? 0 then Ok transparent else get colors2 (cs + px)) (range_z 0 64).

(** [loadImageTiles] (graphics2D.py:169-184) *)
Definition loadImageTiles (data : bytes) (f : imgfmt) : res (list itile) :=
  let bpt := match f with FI4 => 32 | FI8 => 64 end in
  mapM (fun i => itile_new (Some (slice data (i * bpt) (i * bpt + bpt))) f)
       (range_z 0 (Z.to_nat (zlen data / bpt))).

(** [saveImageTiles] (graphics2D.py:196-210) *)
Definition saveImageTiles (tiles : list itile) : res bytes :=
  match tiles with
  | [] => Ok []
  | t0 :: _ =>
    if negb (forallb (fun t => imgfmt_eqb (tFormat t) (tFormat t0)) tiles) then Err ValueError
    else bs <- mapM itile_save tiles ;; Ok (concat bs)
  end.

(** ** TilemapTile *)
Record mtile := { mFormat : mapfmt; mTileNum : Z; mHFlip : bool; mVFlip : bool; mPalette : Z }.

(** the [value] getter (graphics2D.py:258-270) *)
Definition mtile_value (t : mtile) : Z :=
  match mFormat t with
  | M8 => Z.land (mTileNum t) 0xFF
  | M16 =>
    let v := Z.lor 0 (Z.land (mTileNum t) 0x3FF) in
    let v := if mHFlip t then Z.lor v 0x400 else v in
    let v := if mVFlip t then Z.lor v 0x800 else v in
    Z.lor v (Z.shiftl (Z.land (mPalette t) 0xF) 12)
  end.
(** the [value] setter (graphics2D.py:272-280) *)
Definition mtile_set_value (t : mtile) (v : Z) : mtile :=
  match mFormat t with
  | M8 => {| mFormat := M8; mTileNum := Z.land v 0xFF; mHFlip := mHFlip t; mVFlip := mVFlip t; mPalette := mPalette t |}
  | M16 => {| mFormat := M16; mTileNum := Z.land v 0x3FF;
              mHFlip := negb (Z.land v 0x400 =? 0); mVFlip := negb (Z.land v 0x800 =? 0);
              mPalette := Z.land (Z.shiftr v 12) 0xF |}
  end.
Definition mtile_set_format (t : mtile) (f : mapfmt) : mtile :=
  {| mFormat := f; mTileNum := mTileNum t; mHFlip := mHFlip t; mVFlip := mVFlip t; mPalette := mPalette t |}.
(** class attributes (graphics2D.py:228-232) *)
Definition mtile_default : mtile := {| mFormat := M16; mTileNum := 0; mHFlip := false; mVFlip := false; mPalette := 0 |}.
(** [TilemapTile.__init__] (graphics2D.py:234-240): the value is set while the
    format is still the class default *)
Definition mtile_new (v : Z) (f : mapfmt) : mtile := mtile_set_format (mtile_set_value mtile_default v) f.
(** [TilemapTile.fromParameters] (graphics2D.py:243-254) *)
Definition mtile_fromParameters (n : Z) (f : mapfmt) (h v : bool) (p : Z) : mtile :=
  {| mFormat := f; mTileNum := n; mHFlip := h; mVFlip := v; mPalette := p |}.

(** [TilemapTile.renderSingle] (graphics2D.py:283-303) *)
Definition mtile_renderSingle (t : mtile) (img : itile) (colors : list color) : res (list color) :=
  pixels <- itile_render img colors (match mFormat t with M8 => 0 | M16 => mPalette t end) ;;
  match mFormat t with
  | M8 => Ok pixels
  | M16 =>
    if mHFlip t && mVFlip t then
      mapM (fun i => get pixels ((56 - (i - i mod 8)) + (7 - i mod 8))) (range_z 0 64)
    else if mHFlip t then
      mapM (fun i => get pixels ((i - i mod 8) + (7 - i mod 8))) (range_z 0 64)
    else if mVFlip t then
      mapM (fun i => get pixels ((56 - (i - i mod 8)) + i mod 8)) (range_z 0 64)
    else Ok pixels
  end.

(** [TilemapTile.render] (graphics2D.py:316-325) *)
Definition mtile_render (t : mtile) (imageTiles : list itile) (colors : list color) (off : Z) : res (list color) :=
  if mTileNum t <? off then Err ValueError
  else img <- get imageTiles (mTileNum t - off) ;; mtile_renderSingle t img colors.

(** [loadTilemapTiles] (graphics2D.py:340-355) *)
Definition loadTilemapTiles (data : bytes) (f : mapfmt) : res (list mtile) :=
  match f with
  | M16 => mapM (fun i => t <- unpack_u 2 data (2 * i) ;; Ok (mtile_new t M16))
                (range_z 0 (Z.to_nat ((zlen data + 1) / 2)))
  | M8 => Ok (map (fun t => mtile_new t M8) data)
  end.

(** [saveTilemapTiles] (graphics2D.py:367-384) *)
Definition saveTilemapTiles (tiles : list mtile) : res bytes :=
  match tiles with
  | [] => Ok []
  | t0 :: _ =>
    if negb (forallb (fun t => mapfmt_eqb (mFormat t) (mFormat t0)) tiles) then Err ValueError
    else match mFormat t0 with
         | M16 => bs <- mapM (fun t => pack_u 2 (mtile_value t)) tiles ;; Ok (concat bs)
         | M8 => to_bytes (map mtile_value tiles)
         end
  end.

(** ** Tile sheets.  [renderImageTiles] (graphics2D.py:398-418) and
    [renderTilemapTiles] (graphics2D.py:434-453) have the same body apart from
    the call that renders one tile, [r] here. *)

(** the copy loop over [y2] *)
Definition blit (width y x : Z) (px : list color) (img : list color) : list color :=
  fold_left (fun im y2 => let base := ((y * 8 + y2) * width + x) * 8 in
                          slice_set im base (base + 8) (slice px (y2 * 8) (y2 * 8 + 8)))
            (range_z 0 8) img.
(** one iteration of the (y, x) loops: [next(tileIter)] raises StopIteration at the end *)
Definition render_step {T} (r : T -> res (list color)) (width : Z)
           (s : list color * list T) (yx : Z * Z) : res (list color * list T) :=
  match snd s with
  | [] => Err StopIteration
  | t :: rest => px <- r t ;; Ok (blit width (fst yx) (snd yx) px (fst s), rest)
  end.
Definition render_grid {T} (r : T -> res (list color)) (tiles : list T) (width : Z) : res (list color) :=
  if width =? 0 then Err ZeroDivisionError else
  let height := zlen tiles / width + (if zlen tiles mod width =? 0 then 0 else 1) in
  let img := rep transparent (width * height * 64) in
  s <- foldM (render_step r width) (img, tiles)
         (flat_map (fun y => map (fun x => (y, x)) (range_z 0 (Z.to_nat width)))
                   (range_z 0 (Z.to_nat height))) ;;
  Ok (fst s).
Definition renderImageTiles (tiles : list itile) (colors : list color) (paletteNum width : Z) : res (list color) :=
  render_grid (fun t => itile_render t colors paletteNum) tiles width.
Definition renderTilemapTiles (mtiles : list mtile) (imageTiles : list itile) (colors : list color)
           (width off : Z) : res (list color) :=
  render_grid (fun t => mtile_render t imageTiles colors off) mtiles width.

(** ** [tileAt] (graphics2D.py:469-481) and [putTile] (graphics2D.py:484-501) *)
Definition tileAt {T} (tiles : list T) (x y width : Z) : option T :=
  if (width <=? x) || (width <=? y) then None
  else if (x <? 0) || (y <? 0) then None
  else match get tiles (y * width + x) with Ok t => Some t | Err _ => None end.
(** the list after the call and the value returned *)
Definition putTile {T} (tiles : list T) (x y : Z) (t : T) (width : Z) : list T * bool :=
  if (width <=? x) || (width <=? y) then (tiles, false)
  else if (x <? 0) || (y <? 0) then (tiles, false)
  else match setl tiles (y * width + x) t with Ok l => (l, true) | Err _ => (tiles, false) end.

(** * Model of the rendering of colours as images: _common.colorsToImage and the
    [...AsImage] functions of graphics2D.py and texture.py.

    A PIL image of mode 'RGBA' is its size and its raw bytes, the argument of
    [PIL.Image.frombytes], which only checks that there are four bytes per pixel.
    PIL is taken to be installed ([ensurePIL], _common.py:336-341, raises otherwise). *)
From Verif Require Import PyBase.
From Verif Require ColorModel Gfx2DModel TexModel.

Definition rgba : Type := (Z * Z * Z * Z)%type.
Record image := { iWidth : Z; iHeight : Z; iData : bytes }.

(** the number stored for one colour (_common.py:363-371) *)
Definition color_word (aBits : Z) (c : rgba) : Z :=
  let '(r31, g31, b31, a) := c in
  let r255 := Z.lor (Z.shiftl r31 3) (Z.shiftr r31 2) in
  let g255 := Z.lor (Z.shiftl g31 3) (Z.shiftr g31 2) in
  let b255 := Z.lor (Z.shiftl b31 3) (Z.shiftr b31 2) in
  let a255 := if aBits =? 1 then (if a =? 0 then 0 else 255) else Z.lor (Z.shiftl a 3) (Z.shiftr a 2) in
  Z.lor (Z.lor (Z.lor (Z.shiftl a255 24) (Z.shiftl b255 16)) (Z.shiftl g255 8)) r255.

(** one turn of the inner loop (_common.py:361-371).  A colour is [None] when it
    is the number 0 that [renderTextureData] leaves in pixels it does not draw:
    unpacking it raises TypeError. *)
Definition pixel_step (aBits width y : Z) (st : list Z * list (option rgba)) (x : Z) : res (list Z * list (option rgba)) :=
  let '(dest, it) := st in
  match it with
  | [] => Err StopIteration
  | None :: _ => Err TypeError
  | Some c :: it' => dest' <- setl dest (y * width + x) (color_word aBits c) ;; Ok (dest', it')
  end.

(** [colorsToImage] (_common.py:344-375), for sizes that are not negative *)
Definition colorsToImage (colors : list (option rgba)) (width height aBits : Z) : res image :=
  if negb ((aBits =? 1) || (aBits =? 5)) then Err ValueError
  else
    st <- foldM (fun st y => foldM (pixel_step aBits width y) st (range_z 0 (Z.to_nat width)))
                (rep 0 (width * height), colors) (range_z 0 (Z.to_nat height)) ;;
    bs <- mapM (pack_u 4) (fst st) ;;
    Ok {| iWidth := width; iHeight := height; iData := concat bs |}.

Definition plain (cs : list Gfx2DModel.color) : list (option rgba) := map Some cs.

(** [ImageTile.renderAsImage] (graphics2D.py:138-144) *)
Definition itile_renderAsImage (t : Gfx2DModel.itile) (colors : list Gfx2DModel.color) (paletteNum : Z) : res image :=
  px <- Gfx2DModel.itile_render t colors paletteNum ;; colorsToImage (plain px) 8 8 1.

(** [TilemapTile.renderSingleAsImage] (graphics2D.py:306-313) *)
Definition mtile_renderSingleAsImage (t : Gfx2DModel.mtile) (img : Gfx2DModel.itile) (colors : list Gfx2DModel.color) : res image :=
  px <- Gfx2DModel.mtile_renderSingle t img colors ;; colorsToImage (plain px) 8 8 1.

(** [TilemapTile.renderAsImage] (graphics2D.py:328-337) *)
Definition mtile_renderAsImage (t : Gfx2DModel.mtile) (imgs : list Gfx2DModel.itile) (colors : list Gfx2DModel.color) (off : Z) : res image :=
  if Gfx2DModel.mTileNum t <? off then Err ValueError
  else img <- get imgs (Gfx2DModel.mTileNum t - off) ;; mtile_renderSingleAsImage t img colors.

(** the height in tiles (graphics2D.py:427-428, 462-463); [divmod] by zero raises *)
Definition sheet_height (n width : Z) : Z := n / width + (if n mod width =? 0 then 0 else 1).

(** [renderImageTilesAsImage] (graphics2D.py:421-431) *)
Definition renderImageTilesAsImage (tiles : list Gfx2DModel.itile) (colors : list Gfx2DModel.color) (paletteNum width : Z) : res image :=
  if width =? 0 then Err ZeroDivisionError
  else px <- Gfx2DModel.renderImageTiles tiles colors paletteNum width ;;
       colorsToImage (plain px) (width * 8) (sheet_height (zlen tiles) width * 8) 1.

(** [renderTilemapTilesAsImage] (graphics2D.py:456-466) *)
Definition renderTilemapTilesAsImage (mtiles : list Gfx2DModel.mtile) (imgs : list Gfx2DModel.itile) (colors : list Gfx2DModel.color)
  (width off : Z) : res image :=
  if width =? 0 then Err ZeroDivisionError
  else px <- Gfx2DModel.renderTilemapTiles mtiles imgs colors width off ;;
       colorsToImage (plain px) (width * 8) (sheet_height (zlen mtiles) width * 8) 1.

(** the quadruple behind a colour of TexModel *)
Definition quad (c : ColorModel.color) : rgba := (ColorModel.cr c, ColorModel.cg c, ColorModel.cb c, ColorModel.ca c).

(** [renderTextureDataAsImage] (texture.py:530-539) *)
Definition renderTextureDataAsImage (d1 d2 : bytes) (format w h : Z) (colors : option (list TexModel.pcolor)) (c0 : bool) : res image :=
  px <- TexModel.renderTextureData d1 d2 format w h colors c0 ;; colorsToImage (map (option_map quad) px) w h 5.

(** [Texture.renderAsImage] (texture.py:190-204) *)
Definition tex_renderAsImage (t : TexModel.texture) (p : option TexModel.palette) : res image :=
  renderTextureDataAsImage (TexModel.txD1 t) (TexModel.txD2 t) (TexModel.txFmt t) (TexModel.txW t) (TexModel.txH t)
    (option_map (fun p => map TexModel.PTup (TexModel.plColors p)) p) (TexModel.txC0 t).

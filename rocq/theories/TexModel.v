(** * Model of ndspy/texture.py

    renderAsImage and renderTextureDataAsImage are in ImageModel, __str__ and __repr__
    in ReprModel.  A TextureFormat or TextureCoordinatesTransformationMode is the
    integer it stands for (both are IntEnums). *)
From Coq Require Import String.
From Verif Require Import PyBase CommonModel WaveModel ColorModel SbnkModel.

(** bitsPerPixel1, bitsPerPixel2 (texture.py:40-72) of a member of TextureFormat *)
Definition bpp1 (f : Z) : Z :=
  if f =? 1 then 8 else if f =? 2 then 2 else if f =? 3 then 4 else if f =? 4 then 8
  else if f =? 5 then 2 else if f =? 6 then 8 else if f =? 7 then 16 else 0.
Definition bpp2 (f : Z) : Z := if f =? 5 then 1 else 0.

(** ** Texture (texture.py:87-169) *)
Record texture := { tx00 : Z; tx02 : Z; txRepS : bool; txRepT : bool; txMirS : bool; txMirT : bool; txW : Z; txH : Z;
                    txFmt : Z; txC0 : bool; txMode : Z; tx04 : Z; txD1 : bytes; txD2 : bytes }.
Definition bit (v mask : Z) : bool := negb (Z.land v mask =? 0).
(** the constructor (texture.py:91-109) *)
Definition tex_new (unk00 unk02 params unk04 : Z) (d1 d2 : bytes) : texture :=
  {| tx00 := unk00; tx02 := unk02; txRepS := bit params 1; txRepT := bit params 2; txMirS := bit params 4; txMirT := bit params 8;
     txW := Z.shiftl 8 (Z.land (Z.shiftr params 4) 7); txH := Z.shiftl 8 (Z.land (Z.shiftr params 7) 7);
     txFmt := Z.land (Z.shiftr params 10) 7; txC0 := bit params 0x2000; txMode := Z.land (Z.shiftr params 14) 3;
     tx04 := unk04; txD1 := d1; txD2 := d2 |}.
(** fromFlags (texture.py:112-126) *)
Definition tex_fromFlags (unk00 unk02 : Z) (rs rt ms mt : bool) (w h f : Z) (c0 : bool) (mode unk04 : Z) (d1 d2 : bytes) : texture :=
  {| tx00 := unk00; tx02 := unk02; txRepS := rs; txRepT := rt; txMirS := ms; txMirT := mt; txW := w; txH := h;
     txFmt := f; txC0 := c0; txMode := mode; tx04 := unk04; txD1 := d1; txD2 := d2 |}.
(** SIZES_ENCODED (texture.py:144-153) *)
Definition size_code (v : Z) : option Z :=
  if v =? 8 then Some 0 else if v =? 16 then Some 1 else if v =? 32 then Some 2 else if v =? 64 then Some 3
  else if v =? 128 then Some 4 else if v =? 256 then Some 5 else if v =? 512 then Some 6 else if v =? 1024 then Some 7 else None.
Definition orif (b : bool) (mask v : Z) : Z := if b then Z.lor v mask else v.
(** save (texture.py:136-169) *)
Definition tex_params (t : texture) : res Z :=
  let p := orif (txMirT t) 8 (orif (txMirS t) 4 (orif (txRepT t) 2 (orif (txRepS t) 1 0))) in
  match size_code (txW t) with
  | None => Err ValueError
  | Some w =>
      match size_code (txH t) with
      | None => Err ValueError
      | Some h =>
          let p := Z.lor p (Z.shiftl w 4) in
          let p := Z.lor p (Z.shiftl h 7) in
          let p := Z.lor p (Z.shiftl (Z.land (txFmt t) 7) 10) in
          let p := orif (txC0 t) 0x2000 p in
          Ok (Z.lor p (Z.shiftl (Z.land (txMode t) 3) 14))
      end
  end.
Definition tex_save (t : texture) : res (Z * Z * Z * Z * bytes * bytes) :=
  p <- tex_params t ;; Ok (tx00 t, tx02 t, p, tx04 t, txD1 t, txD2 t).

(** ** Palette (texture.py:240-260) *)
Record palette := { pl00 : Z; pl02 : Z; plH02 : Z; plColors : list color }.
Definition pal_new (unk00 unk02 unkH : Z) (data : bytes) : res palette :=
  c <- loadPalette data ;; Ok {| pl00 := unk00; pl02 := unk02; plH02 := unkH; plColors := c |}.
Definition pal_save (p : palette) : res (Z * Z * Z * bytes) :=
  d <- savePalette (plColors p) ;; Ok (pl00 p, pl02 p, plH02 p, d).

(** ** TEX0 blocks (texture.py:366-527) *)
Record tex0 := { x08 : Z; x10 : Z; x18 : Z; x20 : Z; x2C : Z; x32 : Z;
                 xTextures : list (option bytes * texture); xPalettes : list (option bytes * palette) }.
(** one texture (texture.py:395-417); the divisions by 8 are exact *)
Definition read_texture (data : bytes) (texDataOff c1Off c2Off : Z) (e : infoEntry) : res (option bytes * texture) :=
  _ <- guard (zlen (ieData e) =? 8) StructError ;;
  off <- unpack_u 2 (ieData e) 0 ;;
  params <- unpack_u 2 (ieData e) 2 ;;
  unk04 <- unpack_u 4 (ieData e) 4 ;;
  let off := off * 8 in
  let t := tex_new (ieUnk00 e) (ieUnk02 e) params unk04 [] [] in
  let len1 := txW t * txH t * bpp1 (txFmt t) / 8 in
  let len2 := txW t * txH t * bpp2 (txFmt t) / 8 in
  let '(d1, d2) :=
    if txFmt t =? 5
    then (slice data (c1Off + off) (c1Off + off + len1), slice data (c2Off + off / 2) (c2Off + off / 2 + len2))
    else (slice data (off + texDataOff) (off + texDataOff + len1), []) in
  Ok (ieName e, tex_new (ieUnk00 e) (ieUnk02 e) params unk04 d1 d2).

(** the palettes (texture.py:419-453): [ptuple] is pt, with its start offset *)
Definition ptuple : Type := (option bytes * Z * Z * Z)%type.
Definition obeq (a b : option bytes) : bool := match a, b with Some x, Some y => beq x y | None, None => true | _, _ => false end.
Definition pt_eqb (a b : ptuple) : bool :=
  let '(n, x, y, z) := a in let '(n', x', y', z') := b in obeq n n' && (x =? x') && (y =? y') && (z =? z').
Definition read_pt (palDataOff : Z) (e : infoEntry) : res (ptuple * Z) :=
  _ <- guard (zlen (ieData e) =? 4) StructError ;;
  off <- unpack_u 2 (ieData e) 0 ;;
  unkH <- unpack_u 2 (ieData e) 2 ;;
  Ok ((ieName e, ieUnk00 e, ieUnk02 e, unkH), off * 8 + palDataOff).
(** palette2StartOffset[pt]: the last assignment counts *)
Definition pt_offset (pts : list (ptuple * Z)) (pt : ptuple) : res Z :=
  match find (fun p => pt_eqb (fst p) pt) (rev pts) with Some p => Ok (snd p) | None => Err KeyError end.
Fixpoint list_index (x : Z) (l : list Z) (i : Z) : res Z :=
  match l with [] => Err ValueError | y :: r => if y =? x then Ok i else list_index x r (i + 1) end.
Definition read_palette (data : bytes) (pts : list (ptuple * Z)) (starts : list Z) (p : ptuple * Z) : res (option bytes * palette) :=
  start <- pt_offset pts (fst p) ;;
  i <- list_index start starts 0 ;;
  stop <- get starts (i + 1) ;;
  let '(name, unk00, unk02, unkH) := fst p in
  pal <- pal_new unk00 unk02 unkH (slice data start stop) ;;
  Ok (name, pal).
Definition readTEX0 (data : bytes) : res tex0 :=
  _ <- guard (prefixb (asc "TEX0") data) AssertionError ;;
  unk08 <- unpack_u 4 data 0x08 ;;
  texDataLen <- unpack_u 2 data 0x0C ;;
  texOff <- unpack_u 2 data 0x0E ;;
  unk10 <- unpack_u 4 data 0x10 ;;
  texDataOff <- unpack_u 4 data 0x14 ;;
  unk18 <- unpack_u 4 data 0x18 ;;
  c1Len <- unpack_u 2 data 0x1C ;;
  cInfoOff <- unpack_u 2 data 0x1E ;;
  unk20 <- unpack_u 4 data 0x20 ;;
  c1Off <- unpack_u 4 data 0x24 ;;
  c2Off <- unpack_u 4 data 0x28 ;;
  unk2C <- unpack_u 4 data 0x2C ;;
  palDataLen <- unpack_u 2 data 0x30 ;;
  unk32 <- unpack_u 2 data 0x32 ;;
  palOff <- unpack_u 4 data 0x34 ;;
  palDataOff <- unpack_u 4 data 0x38 ;;
  es <- loadInfoBlock data texOff (Some 8) ;;
  texs <- mapM (read_texture data texDataOff c1Off c2Off) es ;;
  ps <- loadInfoBlock data palOff (Some 4) ;;
  pts <- mapM (read_pt palDataOff) ps ;;
  let starts := sort_by (fun x => x) (map snd pts ++ [palDataOff + palDataLen * 8]) in
  pals <- mapM (read_palette data pts starts) pts ;;
  Ok {| x08 := unk08; x10 := unk10; x18 := unk18; x20 := unk20; x2C := unk2C; x32 := unk32; xTextures := texs; xPalettes := pals |}.

(** _saveTEX0 (texture.py:456-527); the state of the texture loop: the entries so
    far, texturesData, compressedData1, compressedData2 *)
Definition save_texture (st : list infoEntry * bytes * bytes * bytes) (p : option bytes * texture)
  : res (list infoEntry * bytes * bytes * bytes) :=
  let '(es, td, c1, c2) := st in
  ' (unk00, unk02, params, unk04, d1, d2) <- tex_save (snd p) ;;
  ' (off, td, c1, c2) <- (if txFmt (snd p) =? 5
                          then if zlen d1 =? zlen d2 * 2 then Ok (zlen c1, td, c1 ++ d1, c2 ++ d2) else Err ValueError
                          else Ok (zlen td, td ++ d1, c1, c2)) ;;
  e <- pack_us [(2%nat, Z.shiftr off 3); (2%nat, params); (4%nat, unk04)] ;;
  Ok (es ++ [{| ieName := fst p; ieUnk00 := unk00; ieUnk02 := unk02; ieData := e |}], td, c1, c2).
Definition save_palette (st : list infoEntry * bytes) (p : option bytes * palette) : res (list infoEntry * bytes) :=
  ' (unk00, unk02, unkH, d) <- pal_save (snd p) ;;
  _ <- guard (zlen d mod 8 =? 0) ValueError ;;
  e <- pack_us [(2%nat, Z.shiftr (zlen (snd st)) 3); (2%nat, unkH)] ;;
  Ok (fst st ++ [{| ieName := fst p; ieUnk00 := unk00; ieUnk02 := unk02; ieData := e |}], snd st ++ d).
Definition saveTEX0 (x : tex0) : res bytes :=
  ' (es, td, c1, c2) <- foldM save_texture ([], [], [], []) (xTextures x) ;;
  tb <- saveInfoBlock es 8 ;;
  ' (ps, pd) <- foldM save_palette ([], []) (xPalettes x) ;;
  pb <- saveInfoBlock ps 4 ;;
  let palOff := 0x3C + zlen tb in
  let texDataOff := palOff + zlen pb in
  let c1Off := texDataOff + zlen td in
  let c2Off := c1Off + zlen c1 in
  let palDataOff := c2Off + zlen c2 in
  h <- pack_us [(4%nat, palDataOff + zlen pd); (4%nat, x08 x); (2%nat, Z.shiftr (zlen td) 3); (2%nat, 0x3C); (4%nat, x10 x);
                (4%nat, texDataOff); (4%nat, x18 x); (2%nat, Z.shiftr (zlen c1) 3); (2%nat, 0x3C); (4%nat, x20 x);
                (4%nat, c1Off); (4%nat, c2Off); (4%nat, x2C x); (2%nat, Z.shiftr (zlen pd) 3); (2%nat, x32 x);
                (4%nat, palOff); (4%nat, palDataOff)] ;;
  Ok (asc "TEX0" ++ h ++ tb ++ pb ++ td ++ c1 ++ c2 ++ pd).

(** ** NSBTX (texture.py:275-365); its attributes are those of the TEX0 block *)
Definition nsbtx_load (file : bytes) : res tex0 :=
  _ <- guard (prefixb (asc "BTX0") file) ValueError ;;
  h <- std_unpack file ;;
  _ <- guard (hVersion h =? 1) ValueError ;;
  _ <- guard (hBlocks h =? 1) AssertionError ;;
  let t := slice_from file 0x14 in
  _ <- guard (prefixb (asc "TEX0") t) AssertionError ;;
  readTEX0 t.
Definition nsbtx_save (x : tex0) : res bytes :=
  t <- saveTEX0 x ;;
  h <- std_pack (asc "BTX0") 1 (0x14 + zlen t) 1 ;;
  Ok (h ++ [0x14; 0; 0; 0] ++ t).

(** ** Rendering (texture.py:542-827) *)

(** an entry of the colours list: the functions expect 16-bit integers, a Palette
    holds tuples *)
Inductive pcolor : Type := PInt (v : Z) | PTup (c : color).
(** [colors[i]]; indexing None raises TypeError *)
Definition pal_get (colors : option (list pcolor)) (i : Z) : res pcolor :=
  match colors with None => Err TypeError | Some l => get l i end.
(** [COLOR_LUT[color]]: a list of 0x10000 entries *)
Definition lut_get (c : pcolor) : res color :=
  match c with
  | PTup _ => Err TypeError
  | PInt v => if (v <? -0x10000) || (v >=? 0x10000) then Err IndexError else Ok (lut_unpacked (if v <? 0 then v + 0x10000 else v))
  end.
(** [color & mask] and so on: a tuple raises TypeError *)
Definition as_int (c : pcolor) : res Z := match c with PInt v => Ok v | PTup _ => Err TypeError end.

(** pixels still 0 are [None] *)
Definition pixels : Type := list (option color).
(** [next(iter)] *)
Definition next_ (it : bytes) : res (Z * bytes) := match it with [] => Err StopIteration | x :: r => Ok (x, r) end.
(** [dest[pos] = (r, g, b, a)] with r, g, b of [c] *)
Definition plot (dest : pixels) (pos : Z) (c : color) (a : Z) : res pixels := setl dest pos (Some (C4 (cr c) (cg c) (cb c) a)).
(** [for y in range(0, h, ys): for x in range(0, w, xs)], the pairs (y, x) in order *)
Definition steps (n step : Z) : list Z := map (fun i => i * step) (range_z 0 (Z.to_nat ((n + step - 1) / step))).
Definition grid (h ys w xs : Z) : list (Z * Z) := flat_map (fun y => map (fun x => (y, x)) (steps w xs)) (steps h ys).

(** _renderA3I5 (texture.py:568-587) and _renderA5I3 (texture.py:793-809) *)
Definition step_alpha (mask : Z) (alpha : Z -> Z) (w : Z) (colors : option (list pcolor)) (st : pixels * bytes) (yx : Z * Z) : res (pixels * bytes) :=
  ' (value, it) <- next_ (snd st) ;;
  color <- pal_get colors (Z.land value mask) ;;
  c <- lut_get color ;;
  dest <- plot (fst st) (fst yx * w + snd yx) c (alpha value) ;;
  Ok (dest, it).
Definition alpha3 (value : Z) : Z := let a := Z.shiftr value 5 in Z.lor (Z.shiftl a 2) (Z.shiftr a 1).
Definition alpha5 (value : Z) : Z := Z.shiftr value 3.
(** one pixel of the formats I2, I4 and I8 *)
Definition put_index (colors : option (list pcolor)) (alpha0 : Z) (dest : pixels) (pos value : Z) : res pixels :=
  color <- pal_get colors value ;;
  c <- lut_get color ;;
  plot dest pos c (if value =? 0 then alpha0 else 31).
(** _renderI2 (texture.py:590-627) *)
Definition step_i2 (alpha0 w : Z) (colors : option (list pcolor)) (st : pixels * bytes) (yx : Z * Z) : res (pixels * bytes) :=
  ' (value, it) <- next_ (snd st) ;;
  let pos := fst yx * w + snd yx in
  d <- put_index colors alpha0 (fst st) pos (Z.land value 3) ;;
  d <- put_index colors alpha0 d (pos + 1) (Z.land (Z.shiftr value 2) 3) ;;
  d <- put_index colors alpha0 d (pos + 2) (Z.land (Z.shiftr value 4) 3) ;;
  d <- put_index colors alpha0 d (pos + 3) (Z.shiftr value 6) ;;
  Ok (d, it).
(** _renderI4 (texture.py:630-655) *)
Definition step_i4 (alpha0 w : Z) (colors : option (list pcolor)) (st : pixels * bytes) (yx : Z * Z) : res (pixels * bytes) :=
  ' (value, it) <- next_ (snd st) ;;
  let pos := fst yx * w + snd yx in
  d <- put_index colors alpha0 (fst st) pos (Z.land value 0xF) ;;
  d <- put_index colors alpha0 d (pos + 1) (Z.shiftr value 4) ;;
  Ok (d, it).
(** _renderI8 (texture.py:658-675) *)
Definition step_i8 (alpha0 w : Z) (colors : option (list pcolor)) (data : bytes) (dest : pixels) (yx : Z * Z) : res pixels :=
  let pos := fst yx * w + snd yx in
  value <- get data pos ;;
  put_index colors alpha0 dest pos value.
(** _renderA1BGR5 (texture.py:812-827) *)
Definition step_direct (w : Z) (st : pixels * bytes) (yx : Z * Z) : res (pixels * bytes) :=
  ' (lo, it) <- next_ (snd st) ;;
  ' (hi, it) <- next_ it ;;
  c <- lut_get (PInt (Z.lor lo (Z.shiftl hi 8))) ;;
  dest <- plot (fst st) (fst yx * w + snd yx) c (if truthy (ca c) then 31 else 0) ;;
  Ok (dest, it).

(** _renderTexeled (texture.py:678-790).  [blend a b shift]: the weighted mean of
    two colours; for the plain mean the red part is not masked, nor here *)
Definition blend (a b sh c0 c1 : Z) : Z :=
  let r := Z.shiftr (Z.land c0 0x1F * a + Z.land c1 0x1F * b) sh in
  let g := Z.land (Z.shiftr (Z.land c0 0x3E0 * a + Z.land c1 0x3E0 * b) sh) 0x3E0 in
  let bl := Z.land (Z.shiftr (Z.land c0 0x7C00 * a + Z.land c1 0x7C00 * b) sh) 0x7C00 in
  Z.lor (Z.lor r g) bl.
Definition blend_of (colors : option (list pcolor)) (po a b sh : Z) : res pcolor :=
  c0 <- pal_get colors po ;;
  c1 <- pal_get colors (po + 1) ;;
  i0 <- as_int c0 ;;
  i1 <- as_int c1 ;;
  Ok (PInt (blend a b sh i0 i1)).
(** the colour of a texel, [None] for the transparent one *)
Definition texel (colors : option (list pcolor)) (po interp sub : Z) : res (option pcolor) :=
  if sub <? 2 then c <- pal_get colors (po + sub) ;; Ok (Some c)
  else if sub =? 2 then
    if interp =? 1 then c <- blend_of colors po 1 1 1 ;; Ok (Some c)
    else if interp =? 3 then c <- blend_of colors po 5 3 3 ;; Ok (Some c)
    else c <- pal_get colors (po + 2) ;; Ok (Some c)
  else if interp <? 2 then Ok None
  else if interp =? 2 then c <- pal_get colors (po + 3) ;; Ok (Some c)
  else c <- blend_of colors po 3 5 3 ;; Ok (Some c).
Definition put_texel (colors : option (list pcolor)) (po interp : Z) (dest : pixels) (pos sub : Z) : res pixels :=
  o <- texel colors po interp sub ;;
  match o with
  | None => plot dest pos (C4 0 0 0 0) 0
  | Some color => c <- lut_get color ;; plot dest pos c 31
  end.
(** one row of four texels (suby) *)
Definition step_texrow (w : Z) (colors : option (list pcolor)) (po interp : Z) (yx : Z * Z) (st : pixels * bytes) (suby : Z) : res (pixels * bytes) :=
  ' (value1, it) <- next_ (snd st) ;;
  d <- foldM (fun d subx => put_texel colors po interp d ((fst yx + suby) * w + snd yx + subx) (Z.land (Z.shiftr value1 (2 * subx)) 3))
         (fst st) (range_z 0 4) ;;
  Ok (d, it).
Definition step_texblock (w : Z) (colors : option (list pcolor)) (st : pixels * bytes * bytes) (yx : Z * Z) : res (pixels * bytes * bytes) :=
  let '(dest, it1, it2) := st in
  ' (lo, it2) <- next_ it2 ;;
  ' (hi, it2) <- next_ it2 ;;
  let value2 := Z.lor lo (Z.shiftl hi 8) in
  ' (dest, it1) <- foldM (step_texrow w colors (Z.land value2 0x3FFF * 2) (Z.shiftr value2 14) yx) (dest, it1) (range_z 0 4) ;;
  Ok (dest, it1, it2).

(** renderTextureData (texture.py:542-565) *)
Definition renderTextureData (d1 d2 : bytes) (format w h : Z) (colors : option (list pcolor)) (c0 : bool) : res pixels :=
  let blank := rep None (w * h) in
  let alpha0 := if c0 then 0 else 31 in
  if format =? 1 then s <- foldM (step_alpha 0x1F alpha3 w colors) (blank, d1) (grid h 1 w 1) ;; Ok (fst s)
  else if format =? 2 then s <- foldM (step_i2 alpha0 w colors) (blank, d1) (grid h 1 w 4) ;; Ok (fst s)
  else if format =? 3 then s <- foldM (step_i4 alpha0 w colors) (blank, d1) (grid h 1 w 2) ;; Ok (fst s)
  else if format =? 4 then foldM (step_i8 alpha0 w colors d1) blank (grid h 1 w 1)
  else if format =? 5 then s <- foldM (step_texblock w colors) (blank, d1, d2) (grid h 4 w 4) ;; Ok (fst (fst s))
  else if format =? 6 then s <- foldM (step_alpha 0x07 alpha5 w colors) (blank, d1) (grid h 1 w 1) ;; Ok (fst s)
  else if format =? 7 then s <- foldM (step_direct w) (blank, d1) (grid h 1 w 1) ;; Ok (fst s)
  else Err ValueError.
(** Texture.render (texture.py:172-187): the colours of a Palette are tuples *)
Definition tex_render (t : texture) (p : option palette) : res pixels :=
  renderTextureData (txD1 t) (txD2 t) (txFmt t) (txW t) (txH t) (option_map (fun p => map PTup (plColors p)) p) (txC0 t).

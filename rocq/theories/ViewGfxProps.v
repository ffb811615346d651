(** * C116: what arbitrary palettes, tiles and tile maps are read as *)
From Verif Require Import PyBase PyLemmas ColorModel Gfx2DModel RomSpec ViewSpec ViewGfxSpec ViewGfx ViewTexProps.

(** every two bytes are a colour; an odd byte at the end is ignored *)
Theorem C116_palette d : is_bytes d -> loadPalette d = Ok (colours d).
Proof. apply palette_view. Qed.
Print Assumptions C116_palette.
Example C116_palette_ex : is_bytes [0x41; 0x8C; 0x1F; 0x00; 0x77] /\ colours [0x41; 0x8C; 0x1F; 0x00; 0x77] = [C4 1 2 3 1; C4 31 0 0 0].
Proof. split; [all_bytes|reflexivity]. Qed.

(** every 32 or 64 bytes are a tile; bytes left over are ignored *)
Theorem C116_tiles d f : is_bytes d -> loadImageTiles d f = Ok (tiles_in f d).
Proof. apply tiles_view. Qed.
Print Assumptions C116_tiles.
Example C116_tiles_ex : let d := map Z.of_nat (seq 100 70) in is_bytes d /\
  map (pixel FI4 d 1) [0%nat; 1%nat; 63%nat] = [4; 8; 10] /\ map (pixel FI8 d 0) [0%nat; 1%nat; 63%nat] = [100; 101; 163] /\ zlen (tiles_in FI4 d) = 2 /\ zlen (tiles_in FI8 d) = 1.
Proof. split; [all_bytes|]. repeat split; reflexivity. Qed.

(** every two bytes are an entry, and there must be no odd byte *)
Theorem C116_map d : is_bytes d -> loadTilemapTiles d M16 = if zlen d mod 2 =? 0 then Ok (entries_in d) else Err StructError.
Proof. apply tilemap16_view. Qed.
Print Assumptions C116_map.
Theorem C116_map8 d : is_bytes d -> loadTilemapTiles d M8 = Ok (map entry8 d).
Proof. apply tilemap8_view. Qed.
Print Assumptions C116_map8.
Example C116_map_ex : is_bytes [0x05; 0x37; 0xFF; 0x08] /\
  entries_in [0x05; 0x37; 0xFF; 0x08] = [{| mFormat := M16; mTileNum := 0x305; mHFlip := true; mVFlip := false; mPalette := 3 |}; {| mFormat := M16; mTileNum := 0xFF; mHFlip := false; mVFlip := true; mPalette := 0 |}].
Proof. split; [all_bytes|reflexivity]. Qed.

(** * What arbitrary texture blocks mean (for C111)

    [word], [half], [byte] and [part] are the numbers and bytes at a place of the block. *)
From Coq Require Import String.
From Verif Require Import PyBase ColorModel TexModel RomSpec ViewSpec.

(** ** info blocks: a count, two unknown numbers for each entry, the entries, the names *)
Definition info_count (d : bytes) (o : Z) : Z := byte d (o + 1).
Definition info_data (d : bytes) (o each : Z) (i : nat) : Z := o + 16 + 4 * info_count d o + each * Z.of_nat i.
Definition info_name (d : bytes) (o each : Z) (i : nat) : bytes := rstrip 0 (part d (info_data d o each (Z.to_nat (info_count d o)) + 16 * Z.of_nat i) 16).
Definition info_unk00 (d : bytes) (o : Z) (i : nat) : Z := half d (o + 12 + 4 * Z.of_nat i).
Definition info_unk02 (d : bytes) (o : Z) (i : nat) : Z := half d (o + 14 + 4 * Z.of_nat i).
(** the names need not be there *)
Definition info_shape (d : bytes) (o each : Z) : Prop :=
  let c := info_count d o in
  o + 12 <= zlen d /\ half d (o + 4) = 8 /\ half d (o + 6) = 12 + 4 * c /\ word d (o + 8) = 0x17F /\
  o + 16 + 4 * c + each * c <= zlen d /\ half d (o + 12 + 4 * c) = each /\ half d (o + 14 + 4 * c) = 4 + each * c.

(** ** textures *)
Definition texel_bits (f : Z) : Z := nth (Z.to_nat f) [0; 8; 2; 4; 8; 2; 8; 16] 0.
Definition texture_at (d : bytes) (i : nat) : texture :=
  let o := half d 0x0E in
  let p := info_data d o 8 i in
  let place := 8 * half d p in
  let params := half d (p + 2) in
  let w := 8 * 2 ^ (params / 16 mod 8) in
  let h := 8 * 2 ^ (params / 128 mod 8) in
  let f := params / 1024 mod 8 in
  {| tx00 := info_unk00 d o i; tx02 := info_unk02 d o i;
     txRepS := Z.testbit params 0; txRepT := Z.testbit params 1; txMirS := Z.testbit params 2; txMirT := Z.testbit params 3;
     txW := w; txH := h; txFmt := f; txC0 := Z.testbit params 13; txMode := params / 16384 mod 4; tx04 := word d (p + 4);
     txD1 := part d ((if f =? 5 then word d 0x24 else word d 0x14) + place) (w * h * texel_bits f / 8);
     txD2 := if f =? 5 then part d (word d 0x28 + place / 2) (w * h / 8) else [] |}.

(** ** palettes *)
Definition pal_info (d : bytes) : Z := word d 0x34.
Definition pal_count (d : bytes) : nat := Z.to_nat (info_count d (pal_info d)).
Definition pal_unk (d : bytes) (i : nat) : Z := half d (info_data d (pal_info d) 4 i + 2).
(** what tells palettes apart *)
Definition pal_key (d : bytes) (i : nat) : bytes * Z * Z * Z :=
  (info_name d (pal_info d) 4 i, info_unk00 d (pal_info d) i, info_unk02 d (pal_info d) i, pal_unk d i).
Definition pal_place (d : bytes) (i : nat) : Z := word d 0x38 + 8 * half d (info_data d (pal_info d) 4 i).
(** of palettes that are not told apart all start where the last one does *)
Definition pal_start (d : bytes) (i : nat) (s : Z) : Prop :=
  exists k, (k < pal_count d)%nat /\ pal_key d k = pal_key d i /\ s = pal_place d k /\ forall m, (k < m < pal_count d)%nat -> pal_key d m <> pal_key d i.
Definition pal_places (d : bytes) : list Z := map (pal_place d) (seq 0 (pal_count d)) ++ [word d 0x38 + 8 * half d 0x30].
(** a palette ends at the next place, and is empty if its place occurs twice *)
Definition is_stop (l : list Z) (s e : Z) : Prop :=
  ((2 <= count_occ Z.eq_dec l s)%nat /\ e = s) \/
  (count_occ Z.eq_dec l s = 1%nat /\ In e l /\ s < e /\ forall x, In x l -> s < x -> e <= x).
Definition colours (b : bytes) : list color :=
  map (fun k => let v := half b (2 * Z.of_nat k) in C4 (v mod 32) (v / 32 mod 32) (v / 1024 mod 32) (v / 32768 mod 2)) (seq 0 (Z.to_nat (zlen b / 2))).
Definition palette_at (d : bytes) (i : nat) (p : palette) : Prop :=
  exists s e, pal_start d i s /\ is_stop (pal_places d) s e /\
  p = {| pl00 := info_unk00 d (pal_info d) i; pl02 := info_unk02 d (pal_info d) i; plH02 := pal_unk d i; plColors := colours (part d s (e - s)) |}.

Definition tex0_shape (d : bytes) : Prop :=
  0x3C <= zlen d /\ part d 0 4 = asc "TEX0" /\ info_shape d (half d 0x0E) 8 /\ info_shape d (word d 0x34) 4.
Record tex0_view (d : bytes) (x : tex0) : Prop := {
  vt_unks : [x08 x; x10 x; x18 x; x20 x; x2C x; x32 x] = [word d 8; word d 0x10; word d 0x18; word d 0x20; word d 0x2C; half d 0x32];
  vt_textures : xTextures x = map (fun i => (Some (info_name d (half d 0x0E) 8 i), texture_at d i)) (seq 0 (Z.to_nat (info_count d (half d 0x0E))));
  vt_palettes : List.length (xPalettes x) = pal_count d /\
    forall i n p, nth_error (xPalettes x) i = Some (n, p) -> n = Some (info_name d (pal_info d) 4 i) /\ palette_at d i p
}.

(** ** NSBTX files: a header of 16 bytes, four bytes nothing looks at, the block *)
Definition nsbtx_block (f : bytes) : bytes := part f 0x14 (zlen f - 0x14).
Definition nsbtx_shape (f : bytes) : Prop :=
  part f 0 4 = asc "BTX0" /\ half f 6 = 1 /\ half f 14 = 1 /\ tex0_shape (nsbtx_block f).

(** * Properties of color.py (C27, C50) *)
From Verif Require Import PyBase PyLemmas ColorModel ColorLemmas.

(** C27 *)
Theorem C27_unpack_pack : forall c, valid51 c -> unpack (pack (cr c) (cg c) (cb c) (ca c)) = c.
Proof. exact unpack_pack_valid. Qed.
Print Assumptions C27_unpack_pack.
Theorem C27_pack_unpack : forall v, 0 <= v < 65536 ->
  let c := unpack v in pack (cr c) (cg c) (cb c) (ca c) = v /\ valid51 c.
Proof. exact pack_unpack. Qed.
Print Assumptions C27_pack_unpack.
Theorem C27_palette_load_save : forall p, Forall valid51 p ->
  exists d, savePalette p = Ok d /\ loadPalette d = Ok p /\ zlen d = 2 * zlen p.
Proof. exact palette_load_save. Qed.
Print Assumptions C27_palette_load_save.
Theorem C27_palette_save_load : forall d, is_bytes d -> zlen d mod 2 = 0 ->
  exists p, loadPalette d = Ok p /\ Forall valid51 p /\ savePalette p = Ok d.
Proof. exact palette_save_load. Qed.
Print Assumptions C27_palette_save_load.
Theorem C27_expand_contract : forall v, chan5 v -> chan8 (exp5 v) /\ con5 (exp5 v) = v.
Proof. exact exp5_ok. Qed.
Print Assumptions C27_expand_contract.
Theorem C27_expand_monotone : forall v w, chan5 v -> chan5 w -> v < w -> exp5 v < exp5 w.
Proof. exact exp5_mono. Qed.
Print Assumptions C27_expand_monotone.
Theorem C27_contract_nearest : forall x v, chan8 x -> chan5 v ->
  chan5 (con5 x) /\ Z.abs (exp5 (con5 x) - x) <= Z.abs (exp5 v - x).
Proof. intros x v Hx Hv. split; [exact (con5_range x Hx)|exact (con5_nearest x v Hx Hv)]. Qed.
Print Assumptions C27_contract_nearest.
Example C27_ex : unpack 0x9234 = C4 20 17 4 1 /\ pack 20 17 4 1 = 0x9234 /\ exp5 0 = 0 /\ exp5 31 = 255 /\
  loadPalette [0x34; 0x92; 0xFF; 0x7F; 1] = Ok [C4 20 17 4 1; C4 31 31 31 0] /\ savePalette [C4 20 17 4 1] = Ok [0x34; 0x92].
Proof. vm_compute. repeat split; reflexivity. Qed.

(** C50: convert *)
Theorem C50_convert_total : forall x f t, wf f x -> exists y, convert x f t = Ok y /\ wf t y.
Proof. exact convert_wf. Qed.
Print Assumptions C50_convert_total.
Theorem C50_convert_lossless : forall x f t, wf f x -> level f <= level t ->
  exists y, convert x f t = Ok y /\ convert y t f = Ok x.
Proof. exact convert_lossless. Qed.
Print Assumptions C50_convert_lossless.
Theorem C50_helpers_agree : forall v, 0 <= v < 65536 ->
  convert (VInt v) INT_16 RGB5A1 = Ok (VTup (unpack v)) /\ convert (VInt v) INT_16 RGBA255 = Ok (VTup (unpack255 v)) /\
  lut_unpacked v = unpack v /\ lut_unpacked255 v = unpack255 v.
Proof. exact helpers_agree. Qed.
Print Assumptions C50_helpers_agree.
Theorem C50_lut_words : forall v, 0 <= v < 65536 -> let c := unpack255 v in
  lut_rgba v = 2 ^ 24 * cr c + 2 ^ 16 * cg c + 2 ^ 8 * cb c + ca c /\
  lut_argb v = 2 ^ 24 * ca c + 2 ^ 16 * cr c + 2 ^ 8 * cg c + cb c /\
  lut_bgra v = 2 ^ 24 * cb c + 2 ^ 16 * cg c + 2 ^ 8 * cr c + ca c /\
  lut_abgr v = 2 ^ 24 * ca c + 2 ^ 16 * cb c + 2 ^ 8 * cg c + cr c.
Proof. exact luts_words. Qed.
Print Assumptions C50_lut_words.
Example C50_ex : wf BYTES_2 (VBytes 0x34 0x92) /\
  convert (VBytes 0x34 0x92) BYTES_2 RGBA255 = Ok (VTup (C4 165 140 33 255)) /\
  convert (VTup (C4 165 140 33 255)) RGBA255 BYTES_2 = Ok (VBytes 0x34 0x92) /\
  lut_abgr 0x9234 = 0xFF218CA5.
Proof. vm_compute. repeat split; try reflexivity; discriminate. Qed.

(** going down: channels are rounded, the alpha bit is set from half the range on *)
Theorem C50_convert_down : forall c, wf RGBA255 (VTup c) ->
  let c' := C4 (con5 (cr c)) (con5 (cg c)) (con5 (cb c)) (if 128 <=? ca c then 1 else 0) in
  let v := cr c' + 32 * cg c' + 1024 * cb c' + 32768 * ca c' in
  convert (VTup c) RGBA255 RGB5A5 = Ok (VTup (C4 (cr c') (cg c') (cb c') (con5 (ca c)))) /\
  convert (VTup c) RGBA255 RGB5A1 = Ok (VTup c') /\ convert (VTup c) RGBA255 INT_16 = Ok (VInt v) /\
  convert (VTup c) RGBA255 BYTES_2 = Ok (VBytes (v mod 256) (v / 256)).
Proof. exact convert_down. Qed.
Print Assumptions C50_convert_down.
Theorem C50_alpha_down : forall c, wf RGB5A5 (VTup c) ->
  convert (VTup c) RGB5A5 RGB5A1 = Ok (VTup (C4 (cr c) (cg c) (cb c) (if 16 <=? ca c then 1 else 0))) /\
  convert (VTup c) RGB5A5 INT_16 = Ok (VInt (cr c + 32 * cg c + 1024 * cb c + 32768 * (if 16 <=? ca c then 1 else 0))).
Proof. exact alpha_down. Qed.
Print Assumptions C50_alpha_down.
(** the older functions do the same conversions *)
Theorem C50_older_helpers_agree : forall c d b0 b1, wf RGBA255 (VTup c) -> wf RGB5A1 (VTup d) -> is_byte b0 -> is_byte b1 ->
  convert (VTup c) RGBA255 RGB5A1 = Ok (VTup (contract (cr c) (cg c) (cb c) (ca c))) /\
  convert (VTup c) RGBA255 INT_16 = Ok (VInt (pack255 (cr c) (cg c) (cb c) (ca c))) /\
  convert (VTup d) RGB5A1 RGBA255 = Ok (VTup (expand (cr d) (cg d) (cb d) (ca d))) /\
  (exists x y, save (cr d) (cg d) (cb d) (ca d) = Ok [x; y] /\ convert (VTup d) RGB5A1 BYTES_2 = Ok (VBytes x y)) /\
  (exists e, load [b0; b1] = Ok e /\ convert (VBytes b0 b1) BYTES_2 RGB5A1 = Ok (VTup e)).
Proof. exact older_helpers. Qed.
Print Assumptions C50_older_helpers_agree.
Example C50_down_ex : convert (VTup (C4 200 100 3 128)) RGBA255 RGB5A1 = Ok (VTup (C4 24 12 0 1)) /\
  contract 200 100 3 127 = C4 24 12 0 0 /\ pack255 200 100 3 128 = 0x8198 /\
  convert (VTup (C4 24 12 0 15)) RGB5A5 INT_16 = Ok (VInt 0x0198) /\ save 24 12 0 1 = Ok [0x98; 0x81] /\ load [0x98; 0x81] = Ok (C4 24 12 0 1).
Proof. vm_compute. repeat split; reflexivity. Qed.

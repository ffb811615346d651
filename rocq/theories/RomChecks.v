(** * Checksums, size and capacity of a saved ROM *)
From Verif Require Import PyBase PyLemmas PyTac AtLemmas CommonModel FntModel CodeModel RomModel RomSpec RomBody RomHeader RomLayout RomLoad.

Lemma saved_header upd r data r1 : rom_save upd r = Ok (data, r1) ->
  zlen data mod 0x400 = 0 /\ 0x4000 <= zlen data /\
  slice data 0xC0 0x15C = nintendoLogo r /\ half data 0x15C = crc16 (nintendoLogo r) /\
  half data 0x15E = crc16 (slice data 0 0x15E) /\ word data 0x84 = 0x4000 /\ get data 0x14 = Ok (deviceCapacity r1).
Proof.
  intros E. destruct (rom_save_spec _ _ _ _ E) as (D & l & P & fnt & h & cap & B & HS & ED & ER & _ & LD & K).
  assert (W : words r l fnt data) by (rewrite ED; eapply header_words; [exact HS|apply (bs_lfnt _ _ _ _ _ B)]).
  pose proof (bs_size _ _ _ _ _ B) as BS. pose proof (bs_rsa _ _ _ _ _ B) as (BR & _).
  split; [rewrite LD, BS; apply round_mod; lia|]. split.
  { rewrite LD, BS. pose proof (zlen_nonneg (rsaSignature r)). unfold round. pose proof (Z.mod_pos_bound (- (oRsa l + zlen (rsaSignature r))) 0x400). lia. }
  split; [|split; [|split; [|split; [exact (w_size _ _ _ _ W)|]]]].
  - rewrite ED. hfield HS 44%nat. destruct X as (X & V). refine (at_slice _ _ _ _ X _). rewrite V. reflexivity.
  - rewrite ED. hfield HS 45%nat. destruct X as (X & V). exact (half_at _ _ _ X V).
  - pose proof (crc_at r l cap h (skipn 0x200 D) HS) as A. rewrite <- ED in A. apply half_at; [exact A|]. pose proof (hs_crc _ _ _ _ HS) as C.
    assert (S : slice data 0 0x15E = concat (map henc (header_fields r l cap))).
    { rewrite ED, (hs_h _ _ _ _ HS), <- !app_assoc. apply slice_hit; [reflexivity|]. rewrite zlen_hencs by first [apply (hs_v1 _ _ _ _ HS)|apply widths_1]. reflexivity. }
    rewrite S. exact C.
  - rewrite ER. cbn [set_capacity deviceCapacity]. rewrite ED. hfield HS 5%nat. exact (at_get _ _ _ _ (proj1 X) eq_refl).
Qed.

Lemma saved_capacity r data r1 : rom_save true r = Ok (data, r1) ->
  zlen data <= 2 ^ (17 + deviceCapacity r1) /\ (forall k, 0 <= k -> zlen data <= 2 ^ k -> 17 + deviceCapacity r1 <= k) /\ 0 <= deviceCapacity r1.
Proof.
  intros E. pose proof (saved_header _ _ _ _ E) as (_ & G & _ & _ & _ & _ & CB).
  destruct (rom_save_spec _ _ _ _ E) as (D & l & P & fnt & h & cap & B & HS & ED & ER & EC & LD & K). cbv beta iota in EC.
  assert (CP : deviceCapacity r1 = cap) by (rewrite ER; reflexivity). rewrite CP. replace (17 + cap) with (Z.log2_up (zlen data)) by lia.
  split; [apply Z.log2_up_spec; lia|]. split.
  - intros k K0 L. apply Z.log2_up_le_mono in L. rewrite Z.log2_up_pow2 in L by exact K0. exact L.
  - pose proof (header_at r l cap h [] HS 5%nat _ eq_refl) as (_ & V). exact (proj1 V).
Qed.

Lemma saved_keeps r data r1 : rom_save false r = Ok (data, r1) -> r1 = r.
Proof. intros E. destruct (rom_save_spec _ _ _ _ E) as (D & l & P & fnt & h & cap & _ & _ & _ & -> & -> & _). destruct r. reflexivity. Qed.

Lemma small_fails r data r1 : rom_save false r = Ok (data, r1) -> zlen data <= 0x10000 -> rom_save true r = Err ValueError.
Proof.
  intros E L. pose proof (saved_header _ _ _ _ E) as (_ & G & _). unfold rom_save in *. apply bind_ok in E as ([D l] & EB & E). rewrite EB. cbn [bind].
  apply bind_ok in E as (h & EH & E). pose proof (rom_header_spec _ _ _ _ EH) as HS. apply ok_pair in E as (E & _).
  assert (LD : zlen D = zlen data).
  { pose proof (bs_size r D l) as BS. destruct (rom_body_spec _ _ _ EB) as (P & fnt & B). specialize (BS P fnt B). rewrite <- E, zlen_app, (hs_len _ _ _ _ HS), zlen_skipn.
    assert (0x4000 <= zlen D); [|lia]. rewrite BS. pose proof (bs_rsa _ _ _ _ _ B) as (BR & _). pose proof (zlen_nonneg (rsaSignature r)). unfold round.
    pose proof (Z.mod_pos_bound (- (oRsa l + zlen (rsaSignature r))) 0x400). lia. }
  rewrite LD. set (cap := Z.log2_up (zlen data) - 17). assert (CN : cap < 0).
  { unfold cap. pose proof (Z.log2_up_le_mono _ _ L) as M. change (Z.log2_up 0x10000) with 16 in M. lia. }
  assert (HN : rom_header r l cap = Err ValueError); [|rewrite HN; reflexivity].
  unfold rom_header. pose proof (hs_v1 _ _ _ _ HS) as V. unfold header_fields in V |- *. cbn [mapM].
  inversion V as [|? ? V0 V']; subst. inversion V' as [|? ? V1 V'']; subst. inversion V'' as [|? ? V2 V3']; subst. inversion V3' as [|? ? V3 V4']; subst. inversion V4' as [|? ? V4 _]; subst.
  rewrite !hwrite_ok by assumption. cbn [bind]. cbn [hwrite]. replace (byteb cap) with false by (unfold byteb; lia). reflexivity.
Qed.

(** the bytes after the ARM9 code and its trailer are 0xFF unless they end on a
    multiple of 0x200 *)
Lemma padding_follows upd r data r1 : rom_save upd r = Ok (data, r1) -> (zlen (arm9 r) + zlen (arm9PostData r)) mod 0x200 <> 0 ->
  ~ stored data (word data 0x20 + zlen (arm9 r) + zlen (arm9PostData r)) magic.
Proof.
  intros E M S. destruct (rom_save_spec _ _ _ _ E) as (D & l & P & fnt & h & cap & B & HS & ED & ER & _ & LD & K).
  assert (W : words r l fnt data) by (rewrite ED; eapply header_words; [exact HS|apply (bs_lfnt _ _ _ _ _ B)]).
  destruct (piece_stored _ _ _ _ _ _ data (bs_ends _ _ _ _ _ B) (bs_arm9 _ _ _ _ _ B) ltac:(discriminate) ltac:(discriminate) K) as (A & _).
  unfold arm9_all in A. apply at_app in A as (_ & A). apply at_app in A as (_ & A). rewrite <- (w_arm9 _ _ _ _ W) in A. rewrite zlen_app in A.
  apply stored_at in S. set (q := zlen (arm9 r) + zlen (arm9PostData r)) in *. assert (N : 0 < (- q) mod 0x200) by (clearbody q; clear - M; Z.to_euclidean_division_equations; lia).
  replace ((- q) mod 0x200) with (1 + ((- q) mod 0x200 - 1)) in A by lia. rewrite rep_succ in A by lia.
  apply (at_app data _ [255]) in A as (A & _). apply (at_app data _ [33]) in S as (S & _).
  pose proof (at_get _ _ _ _ A eq_refl) as X. rewrite (at_get _ _ _ _ S eq_refl) in X. discriminate.
Qed.

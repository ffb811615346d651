(** * Proofs about lz10.py (round trip, decoder safety, size) *)
From Verif Require Import PyBase PyLemmas LzModel LzSpec LzLemmas.

(** ** a partially filled output buffer *)
Definition part (raw : bytes) (c : Z) : bytes := firstn (Z.to_nat c) raw ++ zeros (zlen raw - c).

Lemma part_len raw c : 0 <= c <= zlen raw -> zlen (part raw c) = zlen raw.
Proof. intros. unfold part, zeros. rewrite zlen_app, zlen_firstn, zlen_rep by lia. lia. Qed.
Lemma part_full raw : part raw (zlen raw) = raw.
Proof.
  unfold part. rewrite Z.sub_diag. unfold zeros, rep. change (Z.to_nat 0) with 0%nat. cbn [repeat].
  rewrite app_nil_r. apply firstn_all2. unfold zlen. lia.
Qed.
Lemma part_0 raw : part raw 0 = zeros (zlen raw).
Proof. unfold part. rewrite Z.sub_0_r. reflexivity. Qed.
Lemma get_firstn {A} (l : list A) n i : 0 <= i < Z.of_nat n -> get (firstn n l) i = get l i.
Proof.
  intros H. rewrite <- (firstn_skipn n l) at 2.
  destruct (Z.lt_ge_cases i (zlen (firstn n l))).
  - rewrite get_app_l by lia. reflexivity.
  - rewrite get_ge by lia. rewrite zlen_firstn in *. symmetry. apply get_ge. rewrite zlen_app, zlen_firstn, zlen_skipn. lia.
Qed.
Lemma get_part raw c w : 0 <= w < c -> c <= zlen raw -> get (part raw c) w = get raw w.
Proof.
  intros. unfold part. rewrite get_app_l by (rewrite zlen_firstn; lia). apply get_firstn. lia.
Qed.
Lemma split_at {A} (l : list A) c b : 0 <= c -> get l c = Ok b ->
  exists l1 l2, l = l1 ++ b :: l2 /\ zlen l1 = c.
Proof.
  intros Hc H. apply get_inv in H; [|assumption]. apply nth_error_split in H as (l1 & l2 & -> & L).
  exists l1, l2. split; [reflexivity|]. unfold zlen. lia.
Qed.
Lemma setl_part raw c b : 0 <= c -> get raw c = Ok b -> setl (part raw c) c b = Ok (part raw (c + 1)).
Proof.
  intros Hc H. destruct (split_at raw c b Hc H) as (l1 & l2 & -> & L). subst c. unfold part.
  pose proof (zlen_nonneg l2).
  rewrite firstn_app_exact by (unfold zlen; lia).
  rewrite zlen_app, zlen_cons.
  replace (zlen l1 + (1 + zlen l2) - zlen l1) with (1 + zlen l2) by lia.
  unfold zeros. rewrite rep_succ by lia. rewrite setl_mid by reflexivity. f_equal.
  replace (l1 ++ b :: l2) with ((l1 ++ [b]) ++ l2) by (rewrite <- app_assoc; reflexivity).
  rewrite firstn_app_exact by (rewrite app_length; unfold zlen; cbn; lia).
  rewrite <- app_assoc. cbn [app]. do 3 f_equal. lia.
Qed.

(** pointwise form of slice equality *)
Lemma get_slice {A} (l : list A) k m j : 0 <= k -> 0 <= j < m -> k + m <= zlen l ->
  get (slice l k (k + m)) j = get l (k + j).
Proof.
  intros. rewrite slice_firstn_skipn by lia. rewrite get_firstn by lia.
  rewrite <- (firstn_skipn (Z.to_nat k) l) at 2. rewrite get_skip by (rewrite zlen_firstn; lia).
  f_equal. rewrite zlen_firstn. lia.
Qed.

(** ** bits of the flag byte *)
Lemma testbit_high b x k : 0 <= k -> 0 <= x < 2 ^ k -> Z.testbit (Z.b2z b * 2 ^ k + x) k = b.
Proof.
  intros Hk Hx. rewrite <- lor_shiftl_add by lia. rewrite Z.lor_spec, Z.shiftl_spec by lia. rewrite Z.sub_diag.
  rewrite Z.b2z_bit0.
  replace (Z.testbit x k) with false; [apply orb_false_r|]. symmetry.
  destruct (Z.eq_dec x 0) as [->|]; [apply Z.bits_0|]. apply Z.bits_above_log2; [lia|]. apply Z.log2_lt_pow2; lia.
Qed.
Lemma testbit_low b x k j : 0 <= j < k -> 0 <= x < 2 ^ k -> Z.testbit (b * 2 ^ k + x) j = Z.testbit x j.
Proof.
  intros Hk Hx. rewrite <- lor_shiftl_add by lia. rewrite Z.lor_spec, Z.shiftl_spec_low by lia. reflexivity.
Qed.
Lemma flag_byte_bit ts : forall i j t, 0 <= i -> zlen ts + i <= 8 -> nth_error ts j = Some t ->
  Z.testbit (flag_byte (2 ^ (7 - i)) ts) (7 - i - Z.of_nat j) = is_ref t.
Proof.
  induction ts as [|x ts IH]; intros i j t Hi Hl Hn; [destruct j; discriminate|].
  rewrite zlen_cons in Hl. pose proof (zlen_nonneg ts). cbn [flag_byte].
  assert (B : (if is_ref x then 2 ^ (7 - i) else 0) = Z.b2z (is_ref x) * 2 ^ (7 - i)) by (destruct (is_ref x); cbn [Z.b2z]; lia).
  rewrite B. clear B.
  assert (R : 0 <= flag_byte (2 ^ (7 - i) / 2) ts < 2 ^ (7 - i) /\
              (ts = [] \/ 2 ^ (7 - i) / 2 = 2 ^ (7 - (i + 1)))).
  { destruct (Z.eq_dec i 7) as [->|].
    - rewrite (zlen_0 ts) by lia. cbn. split; [lia|left; reflexivity].
    - replace (2 ^ (7 - i) / 2) with (2 ^ (7 - (i + 1))).
      + pose proof (flag_byte_range ts (i + 1) ltac:(lia) ltac:(lia)).
        replace (8 - (i + 1)) with (7 - i) in * by lia. split; [assumption|right; reflexivity].
      + replace (7 - i) with (Z.succ (7 - (i + 1))) by lia. rewrite Z.pow_succ_r by lia.
        rewrite Z.mul_comm, Z.div_mul by lia. reflexivity. }
  destruct R as [R D]. destruct j as [|j]; cbn [nth_error] in Hn.
  - injection Hn as ->. change (Z.of_nat 0) with 0. rewrite Z.sub_0_r. apply testbit_high; lia.
  - assert (Hj : Z.of_nat j < zlen ts).
    { unfold zlen. pose proof (nth_error_Some ts j) as N. rewrite Hn in N.
      assert ((j < length ts)%nat) by (apply N; discriminate). lia. }
    destruct D as [->|D]; [destruct j; discriminate|].
    rewrite testbit_low by lia. rewrite D in *.
    specialize (IH (i + 1) j t ltac:(lia) ltac:(lia) Hn).
    replace (7 - i - Z.of_nat (S j)) with (7 - (i + 1) - Z.of_nat j) by lia. exact IH.
Qed.
Lemma flag_byte_bits ts j t : zlen ts <= 8 -> nth_error ts j = Some t ->
  Z.testbit (flag_byte 128 ts) (7 - Z.of_nat j) = is_ref t.
Proof. intros. apply (flag_byte_bit ts 0 j t); lia || assumption. Qed.

Lemma land_pow2_eqb d k : 0 <= k -> negb (Z.land d (2 ^ k) =? 0) = Z.testbit d k.
Proof.
  intros Hk. destruct (Z.testbit d k) eqn:E.
  - apply negb_true_iff, Z.eqb_neq. intros H.
    assert (T : Z.testbit (Z.land d (2 ^ k)) k = false) by (rewrite H; apply Z.bits_0).
    rewrite Z.land_spec, E, Z.pow2_bits_true in T by assumption. discriminate.
  - apply negb_false_iff, Z.eqb_eq, Z.bits_inj'. intros n Hn. rewrite Z.land_spec, Z.bits_0.
    rewrite Z.pow2_bits_eqb by assumption. destruct (Z.eqb_spec k n) as [<-|]; [rewrite E; reflexivity|apply andb_false_r].
Qed.
Lemma land_128 d : negb (Z.land d 128 =? 0) = Z.testbit d 7.
Proof. apply (land_pow2_eqb d 7). lia. Qed.

(** ** decoder round trip *)
Section Dec.
Variable raw : bytes.

Definition at_ (s : dstate) (c : Z) : Prop :=
  out s = part raw c /\ outPos s = c /\ left s = zlen raw - c.

Lemma lz10_copy_ok n : forall s win c,
  at_ s c -> 0 <= win -> win + Z.of_nat n <= c -> c < zlen raw -> c + Z.of_nat n <= zlen raw ->
  (forall j, 0 <= j < Z.of_nat n -> get raw (win + j) = get raw (c + j)) ->
  if c + Z.of_nat n =? zlen raw then lz10_copy n s win = Ok (Ret raw)
  else exists s', lz10_copy n s win = Ok (Cont s') /\ at_ s' (c + Z.of_nat n) /\ inPos s' = inPos s.
Proof.
  induction n as [|n IH]; intros s win c Hs Hw Hn Hc Hcn Hg.
  - change (Z.of_nat 0) with 0. rewrite Z.add_0_r. destruct (Z.eqb_spec c (zlen raw)); [lia|].
    exists s. split; [reflexivity|]. split; [assumption|reflexivity].
  - destruct Hs as (Ho & Hp & Hl). cbn [lz10_copy]. rewrite Ho, Hp.
    rewrite get_part by lia.
    destruct (get_some raw win ltac:(lia)) as (b & Eb & _). rewrite Eb. cbn [bind].
    assert (Ec : get raw c = Ok b).
    { specialize (Hg 0 ltac:(lia)). rewrite !Z.add_0_r in Hg. congruence. }
    rewrite (setl_part raw c b) by (lia || assumption). cbn [bind].
    cbn [left]. rewrite Hl.
    destruct (Z.eqb_spec (zlen raw - c - 1) 0) as [E|E].
    + destruct (Z.eqb_spec (c + Z.of_nat (S n)) (zlen raw)); [|lia].
      replace (c + 1) with (zlen raw) by lia. rewrite part_full. reflexivity.
    + replace (c + Z.of_nat (S n)) with (c + 1 + Z.of_nat n) by lia.
      match goal with |- context [lz10_copy n ?s1 _] => specialize (IH s1 (win + 1) (c + 1)) end.
      cbn [inPos] in IH. apply IH; try lia.
      * split; [reflexivity|]. cbn [outPos left]. split; lia.
      * intros j Hj. replace (win + 1 + j) with (win + (j + 1)) by lia. replace (c + 1 + j) with (c + (j + 1)) by lia.
        apply Hg. lia.
Qed.

Lemma lz10_lit_ok data s c b : at_ s c -> 0 <= c -> get data (inPos s) = Ok b -> get raw c = Ok b ->
  if c + 1 =? zlen raw then lz10_lit data s = Ok (Ret raw)
  else exists s', lz10_lit data s = Ok (Cont s') /\ at_ s' (c + 1) /\ inPos s' = inPos s + 1.
Proof.
  intros (Ho & Hp & Hl) Hc Ed Eb. unfold lz10_lit. rewrite Ed. cbn [bind]. rewrite Ho, Hp.
  rewrite (setl_part raw c b) by assumption. cbn [bind left]. rewrite Hl.
  destruct (Z.eqb_spec (c + 1) (zlen raw)) as [E|E]; destruct (Z.eqb_spec (zlen raw - c - 1) 0); try lia.
  - rewrite E, part_full. reflexivity.
  - eexists. split; [reflexivity|]. split; [|reflexivity]. split; [reflexivity|]. cbn [outPos left]. split; lia.
Qed.

Lemma lz10_block_0 n : forall data s, lz10_block n data 0 s = lz10_raw n data s.
Proof.
  induction n as [|n IH]; intros data s; cbn [lz10_block lz10_raw]; [reflexivity|].
  change (Z.land 0 0x80) with 0. cbn [Z.eqb negb]. destruct (lz10_lit data s) as [[s'|]|]; cbn [bind]; try reflexivity.
  change (Z.shiftl 0 1) with 0. apply IH.
Qed.

Lemma lz10_block_ok ts : forall n d s pre rest c c',
  toks_ok lz10_params raw c ts c' ->
  inPos s = zlen pre -> at_ s c -> 0 <= c < zlen raw -> c' <= zlen raw ->
  zlen ts <= Z.of_nat n -> (zlen ts = Z.of_nat n \/ c' = zlen raw) ->
  (forall j t, nth_error ts j = Some t -> Z.testbit d (7 - Z.of_nat j) = is_ref t) -> (n <= 8)%nat ->
  if c' =? zlen raw then lz10_block n (pre ++ toks_bytes 1 ts ++ rest) d s = Ok (Ret raw)
  else exists s', lz10_block n (pre ++ toks_bytes 1 ts ++ rest) d s = Ok (Cont s') /\ at_ s' c' /\
       inPos s' = zlen pre + zlen (toks_bytes 1 ts).
Proof.
  induction ts as [|t ts IH]; intros n d s pre rest c c' Ht Hp Hs Hc Hc' Hn Hfull Hbits H8.
  - inversion Ht; subst. change (zlen (@nil token)) with 0 in *.
    destruct (Z.eqb_spec c' (zlen raw)); [lia|]. destruct n; [|lia].
    exists s. split; [reflexivity|]. split; [assumption|]. change (zlen (toks_bytes 1 [])) with 0. lia.
  - inversion Ht as [|? ? ? ? Htok Hrest]; subst. rewrite zlen_cons in *. pose proof (zlen_nonneg ts) as Htl.
    destruct n as [|n]; [lia|]. cbn [lz10_block]. rewrite land_128.
    pose proof (Hbits 0%nat t eq_refl) as B0. change (7 - Z.of_nat 0) with 7 in B0. rewrite B0.
    assert (TE : c + tok_len t <= zlen raw) by (eapply tok_ok_end; [lia|apply lz10_params_ok|exact Htok]).
    pose proof (tok_len_pos _ _ _ _ lz10_params_ok Htok) as TP.
    (* one token *)
    set (step := if is_ref t then _ else _).
    assert (STEP : if c + tok_len t =? zlen raw then step = Ok (Ret raw)
                   else exists s', step = Ok (Cont s') /\ at_ s' (c + tok_len t) /\ inPos s' = zlen pre + zlen (tok_bytes 1 t)).
    { destruct t as [b|l dd]; cbn [is_ref] in step; unfold step; clear step; cbn [tok_len] in *.
      - cbn [tok_ok] in Htok. destruct Htok as [Hb _].
        assert (Ed : get (pre ++ toks_bytes 1 (Lit b :: ts) ++ rest) (inPos s) = Ok b).
        { rewrite Hp. apply get_mid. reflexivity. }
        pose proof (lz10_lit_ok _ s c b Hs ltac:(lia) Ed Hb) as L.
        destruct (c + 1 =? zlen raw); [assumption|]. destruct L as (s' & E1 & E2 & E3). exists s'.
        split; [assumption|]. split; [assumption|]. cbn [tok_bytes]. rewrite zlen_cons. change (zlen (@nil Z)) with 0. lia.
      - cbn [tok_ok] in Htok. destruct Htok as (H1 & H2 & H3 & H4 & H5 & _). cbn [maxMatchLen maxMatchDiff lz10_params] in *.
        assert (Eu : unpack_e BE 2 (pre ++ toks_bytes 1 (Ref l dd :: ts) ++ rest) (inPos s)
                     = Ok ((l - 3) * 4096 + (dd - 1))).
        { rewrite Hp, unpack_e_skip by lia. rewrite Z.sub_diag.
          replace ((l - 3) * 4096 + (dd - 1)) with (dec BE (enc BE 2 ((l - 3) * 4096 + (dd - 1)))) by (apply dec_enc; change (256 ^ Z.of_nat 2) with 65536; lia).
          unfold toks_bytes; cbn [map concat tok_bytes]. rewrite <- app_assoc.
          replace [(l - 3) * 16 + (dd - 1) / 256; (dd - 1) mod 256] with (enc BE 2 ((l - 3) * 4096 + (dd - 1))).
          - rewrite dec_enc by (change (256 ^ Z.of_nat 2) with 65536; lia).
            apply unpack_e_hit; [reflexivity|change (256 ^ Z.of_nat 2) with 65536; lia].
          - unfold enc, be. cbn [le rev app]. f_equal; [lia|]. f_equal. lia. }
        rewrite Eu. cbn [bind].
        rewrite Z.shiftr_div_pow2 by lia. change (2 ^ 12) with 4096. rewrite land_4095.
        replace (((l - 3) * 4096 + (dd - 1)) / 4096 + 3) with l by lia.
        replace (((l - 3) * 4096 + (dd - 1)) mod 4096) with (dd - 1) by lia.
        destruct Hs as (Ho & Hop & Hl). rewrite Hop.
        match goal with |- context [lz10_copy ?m ?s1 ?w] => pose proof (lz10_copy_ok m s1 w c) as L end.
        rewrite Z2Nat.id in L by lia.
        assert (L' := L (conj Ho (conj eq_refl Hl)) ltac:(lia) ltac:(lia) ltac:(lia) ltac:(lia)). clear L.
        assert (HG : forall j, 0 <= j < l -> get raw (c - (dd - 1) - 1 + j) = get raw (c + j)).
        { intros j Hj. rewrite <- (get_slice raw c l j) by lia. rewrite <- H5. rewrite get_slice by lia. f_equal. lia. }
        specialize (L' HG). destruct (c + l =? zlen raw); [exact L'|].
        destruct L' as (s' & E1 & E2 & E3). exists s'. split; [exact E1|]. split; [assumption|].
        rewrite E3. cbn [inPos tok_bytes]. rewrite !zlen_cons. change (zlen (@nil Z)) with 0. lia. }
    destruct (Z.eqb_spec (c + tok_len t) (zlen raw)) as [E|E].
    + rewrite STEP. cbn [bind].
      assert (c' = zlen raw) by (pose proof (toks_ok_le _ _ _ _ _ lz10_params_ok Hrest); lia).
      destruct (Z.eqb_spec c' (zlen raw)); [reflexivity|lia].
    + destruct STEP as (s' & E1 & E2 & E3). rewrite E1. cbn [bind].
      replace (pre ++ toks_bytes 1 (t :: ts) ++ rest) with ((pre ++ tok_bytes 1 t) ++ toks_bytes 1 ts ++ rest)
        by (unfold toks_bytes; cbn [map concat]; rewrite <- !app_assoc; reflexivity).
      specialize (IH n (Z.shiftl d 1) s' (pre ++ tok_bytes 1 t) rest (c + tok_len t) c' Hrest).
      rewrite zlen_app in IH. specialize (IH E3 E2 ltac:(lia) Hc' ltac:(lia) ltac:(lia)).
      assert (Hb' : forall j u, nth_error ts j = Some u -> Z.testbit (Z.shiftl d 1) (7 - Z.of_nat j) = is_ref u).
      { intros j u Hj. specialize (Hbits (S j) u Hj).
        assert (Z.of_nat j < zlen ts).
        { unfold zlen. pose proof (nth_error_Some ts j) as N. rewrite Hj in N.
          assert ((j < length ts)%nat) by (apply N; discriminate). lia. }
        rewrite Z.shiftl_spec by lia. replace (7 - Z.of_nat j - 1) with (7 - Z.of_nat (S j)) by lia. assumption. }
      specialize (IH Hb' ltac:(lia)).
      destruct (c' =? zlen raw); [assumption|]. destruct IH as (s2 & F1 & F2 & F3). exists s2.
      split; [assumption|]. split; [assumption|]. rewrite F3. unfold toks_bytes; cbn [map concat]. rewrite zlen_app. lia.
Qed.

Lemma toks_ok_det p data : forall c ts a, toks_ok p data c ts a -> forall b, toks_ok p data c ts b -> a = b.
Proof.
  induction 1 as [|c t ts c' A B IHH]; intros b H2; inversion H2; subst; [reflexivity|]. apply IHH; assumption.
Qed.

Lemma lz10_loop_ok bs : forall fuel s pre rest c,
  blocks_shape bs -> toks_ok lz10_params raw c (concat bs) (zlen raw) ->
  inPos s = zlen pre -> at_ s c -> 0 <= c < zlen raw -> (length bs <= fuel)%nat ->
  lz10_loop fuel (pre ++ stream_bytes lz10_params bs ++ rest) s = Ok raw.
Proof.
  induction bs as [|b bs IH]; intros fuel s pre rest c Hsh Ht Hp Hs Hc Hf.
  - inversion Ht; lia.
  - destruct fuel as [|n]; [cbn in Hf; lia|]. cbn [lz10_loop].
    pose proof Hs as (Ho & Hop & Hl).
    destruct (Z.ltb_spec 0 (left s)); [|lia].
    unfold stream_bytes. cbn [map concat]. unfold block_bytes at 1. cbn [app].
    rewrite (get_mid pre) by assumption. cbn [bind].
    set (data := pre ++ _). set (d := flag_byte 128 b). set (s1 := {| inPos := inPos s + 1; out := out s; outPos := outPos s; left := left s |}).
    replace (if negb (d =? 0) then lz10_block 8 data d s1 else lz10_raw 8 data s1) with (lz10_block 8 data d s1)
      by (destruct (Z.eqb_spec d 0) as [->|]; cbn [negb]; [apply lz10_block_0|reflexivity]).
    cbn [concat] in Ht. apply toks_ok_app in Ht as (c' & Hb & Hr).
    assert (Hblen : 1 <= zlen b <= 8) by (destruct bs; cbn in Hsh; lia).
    assert (Hc' : c' <= zlen raw) by (eapply toks_ok_end; [|apply lz10_params_ok|exact Hb]; lia).
    assert (Hlast : zlen b = 8 \/ c' = zlen raw).
    { destruct bs as [|b2 bs]; [right; inversion Hr; reflexivity|left; cbn in Hsh; lia]. }
    set (fillr := (if zerosAtEnd lz10_params then zeros (8 - zlen b) else []) ++ concat (map (block_bytes lz10_params) bs) ++ rest).
    assert (Ed : data = (pre ++ [d]) ++ toks_bytes 1 b ++ fillr).
    { unfold data, fillr, d. unfold block_bytes at 1. cbn [posSubtract lz10_params app]. rewrite <- !app_assoc. cbn [app]. rewrite <- ?app_assoc. reflexivity. }
    pose proof (lz10_block_ok b 8 d s1 (pre ++ [d]) fillr c c' Hb) as L.
    assert (Hin : inPos s1 = zlen (pre ++ [d])) by (cbn [inPos s1]; zl).
    specialize (L Hin Hs Hc Hc' ltac:(lia) Hlast).
    assert (Hbits : forall j t, nth_error b j = Some t -> Z.testbit d (7 - Z.of_nat j) = is_ref t)
      by (intros; apply flag_byte_bits; [lia|assumption]).
    specialize (L Hbits (Nat.le_refl 8)). rewrite <- Ed in L.
    destruct (Z.eqb_spec c' (zlen raw)) as [E|E].
    + rewrite L. cbn [bind]. reflexivity.
    + destruct L as (s' & E1 & E2 & E3). rewrite E1. cbn [bind].
      destruct bs as [|b2 bs]; [exfalso; apply E; inversion Hr; reflexivity|]. cbn [blocks_shape] in Hsh. destruct Hsh as [H8 Hsh].
      assert (Ed2 : data = (pre ++ [d] ++ toks_bytes 1 b) ++ stream_bytes lz10_params (b2 :: bs) ++ rest).
      { rewrite Ed. unfold fillr. rewrite H8. cbn [zerosAtEnd lz10_params]. change (zeros (8 - 8)) with (@nil Z).
        unfold stream_bytes. cbn [app]. rewrite <- !app_assoc. reflexivity. }
      rewrite Ed2. apply (IH n s' _ rest c'); try assumption.
      * rewrite E3. zl.
      * pose proof (toks_ok_le _ _ _ _ _ lz10_params_ok Hb). lia.
      * cbn [length] in *. lia.
Qed.
End Dec.

Lemma stream_len_blocks p bs : Z.of_nat (length bs) <= zlen (stream_bytes p bs).
Proof.
  unfold stream_bytes. induction bs as [|b bs IH]; [reflexivity|]. cbn [map concat length]. rewrite zlen_app.
  unfold block_bytes at 1. rewrite zlen_cons.
  match goal with |- context [zlen (toks_bytes ?a ?b ++ ?c)] => pose proof (zlen_nonneg (toks_bytes a b ++ c)) end. lia.
Qed.

Lemma lz10_header n : 0 <= n -> Z.lor (Z.shiftl n 8) 0x10 = n * 256 + 16.
Proof. intros. rewrite lor_shiftl_add by (change (2 ^ 8) with 256; lia). reflexivity. Qed.

Lemma lz10_compress_shape data : zlen data < 2 ^ 24 ->
  exists bs, lz10_compress data = Ok (le 4 (zlen data * 256 + 16) ++ stream_bytes lz10_params bs) /\
    toks_ok lz10_params data 0 (concat bs) (zlen data) /\ blocks_shape bs.
Proof.
  intros H. pose proof (zlen_nonneg data). unfold lz10_compress.
  destruct (lz_compress_spec lz10_params lz10_params_ok data) as (bs & a & b & E & Ht & Hs & _).
  rewrite E. cbn [bind]. rewrite lz10_header by lia. rewrite pack_u_ok by (change (256 ^ Z.of_nat 4) with (2 ^ 32); lia).
  cbn [bind]. exists bs. auto.
Qed.

Lemma lz10_roundtrip data tail : zlen data < 2 ^ 24 ->
  exists c, lz10_compress data = Ok c /\ lz10_decompress (c ++ tail) = Ok data.
Proof.
  intros H. destruct (lz10_compress_shape data H) as (bs & E & Ht & Hs). eexists. split; [exact E|].
  pose proof (zlen_nonneg data) as Hd. unfold lz10_decompress.
  set (h := zlen data * 256 + 16).
  assert (G0 : get ((le 4 h ++ stream_bytes lz10_params bs) ++ tail) 0 = Ok 16).
  { unfold h. cbn [le app]. replace ((zlen data * 256 + 16) mod 256) with 16 by lia. reflexivity. }
  rewrite G0. cbn [bind Z.eqb Pos.eqb negb].
  rewrite <- app_assoc. rewrite unpack_u_hit by (try reflexivity; change (256 ^ Z.of_nat 4) with (2 ^ 32); unfold h; lia).
  cbn [bind]. rewrite Z.shiftr_div_pow2 by lia. change (2 ^ 8) with 256. replace (h / 256) with (zlen data) by (unfold h; lia).
  destruct (Z.eq_dec (zlen data) 0) as [E0|E0].
  - apply zlen_0 in E0 as E1. subst data. cbn. reflexivity.
  - apply (lz10_loop_ok data bs _ _ (le 4 h) tail 0); try assumption.
    + rewrite zlen_le. reflexivity.
    + split; [symmetry; apply part_0|]. cbn [outPos left]. split; lia.
    + lia.
    + pose proof (stream_len_blocks lz10_params bs). unfold zlen in *. rewrite !app_length. lia.
Qed.

Lemma lz10_too_long data : 2 ^ 24 <= zlen data -> lz10_compress data = Err StructError.
Proof.
  intros H. unfold lz10_compress.
  destruct (lz_compress_spec lz10_params lz10_params_ok data) as (bs & a & b & E & _). rewrite E. cbn [bind].
  rewrite lz10_header by lia. rewrite pack_u_err; [reflexivity|]. change (256 ^ Z.of_nat 4) with (2 ^ 32). lia.
Qed.

(** ** size *)
Lemma toks_size p data ts : forall c c', params_ok p -> toks_ok p data c ts c' ->
  exists R, 0 <= R <= zlen ts /\ zlen (toks_bytes (posSubtract p) ts) = zlen ts + R /\ zlen ts + 2 * R <= c' - c.
Proof.
  induction ts as [|t ts IH]; intros c c' P H; inversion H as [|? ? ? ? Ht Hr]; subst.
  - exists 0. change (toks_bytes (posSubtract p) []) with (@nil Z). change (zlen (@nil Z)) with 0. change (zlen (@nil token)) with 0. lia.
  - destruct (IH _ _ P Hr) as (R & H1 & H2 & H3). unfold toks_bytes in *. cbn [map concat]. rewrite zlen_app, zlen_cons.
    destruct t; cbn [tok_bytes tok_len tok_ok] in *.
    + exists R. rewrite zlen_cons. change (zlen (@nil Z)) with 0. lia.
    + exists (R + 1). rewrite !zlen_cons. change (zlen (@nil Z)) with 0. lia.
Qed.
Lemma stream_size data bs : forall c, blocks_shape bs -> toks_ok lz10_params data c (concat bs) (zlen data) ->
  exists T R, zlen (stream_bytes lz10_params bs) = 9 * ((T + 7) / 8) + R /\ 0 <= T /\ 0 <= R <= T /\ T + 2 * R <= zlen data - c.
Proof.
  induction bs as [|b bs IH]; intros c Hs Ht.
  - cbn [concat] in Ht. inversion Ht; subst. exists 0, 0. change (zlen (stream_bytes lz10_params [])) with 0. lia.
  - cbn [concat] in Ht. apply toks_ok_app in Ht as (m & Hb & Hr).
    destruct (toks_size _ _ _ _ _ lz10_params_ok Hb) as (R & H1 & H2 & H3).
    assert (Hbl : 1 <= zlen b <= 8) by (destruct bs; cbn in Hs; lia).
    assert (Hs' : blocks_shape bs) by (destruct bs; cbn in Hs; [exact I|apply Hs]).
    destruct (IH m Hs' Hr) as (T & R' & E & T0 & R0 & B).
    exists (zlen b + T), (R + R'). unfold stream_bytes in *. cbn [map concat]. unfold block_bytes at 1.
    rewrite zlen_app, zlen_cons, zlen_app, E. cbn [zerosAtEnd lz10_params posSubtract] in *. unfold zeros. rewrite zlen_rep by lia. rewrite H2.
    assert (zlen b = 8 \/ T = 0).
    { destruct bs as [|b2 bs]; [right|left; cbn in Hs; lia].
      change (zlen (concat (map (block_bytes lz10_params) []))) with 0 in E. lia. }
    lia.
Qed.
Lemma lz10_size data : zlen data < 2 ^ 24 ->
  exists c, lz10_compress data = Ok c /\ slice c 0 4 = 0x10 :: le 3 (zlen data) /\
    zlen c <= 7 + 9 * ((zlen data + 7) / 8).
Proof.
  intros H. pose proof (zlen_nonneg data). destruct (lz10_compress_shape data H) as (bs & E & Ht & Hs). eexists. split; [exact E|].
  destruct (stream_size data bs 0 Hs Ht) as (T & R & E2 & T0 & R0 & B).
  split.
  - rewrite slice_hit by (rewrite ?zlen_le; reflexivity). cbn [le]. f_equal; [lia|].
    replace ((zlen data * 256 + 16) / 256) with (zlen data) by lia. reflexivity.
  - rewrite zlen_app, zlen_le, E2. change (Z.of_nat 4) with 4. lia.
Qed.

Lemma tok_bytes_is p data c t : params_ok p -> is_bytes data -> tok_ok p data c t -> is_bytes (tok_bytes (posSubtract p) t).
Proof.
  intros P Hd H. pose proof (po_len p P). pose proof (po_sub p P). pose proof (po_diff p P). destruct t as [b|l d]; cbn [tok_ok tok_bytes] in *.
  - destruct H as [H _]. constructor; [|constructor]. unfold get in H.
    destruct (_ <? 0) in H; [discriminate|]. destruct (nth_error _ _) eqn:E in H; [|discriminate]. injection H as ->.
    apply nth_error_In in E. unfold is_bytes in Hd. rewrite Forall_forall in Hd. apply Hd; assumption.
  - constructor; [unfold is_byte; lia|]. constructor; [unfold is_byte; lia|constructor].
Qed.
Lemma toks_bytes_is p data ts : forall c c', params_ok p -> is_bytes data -> toks_ok p data c ts c' -> is_bytes (toks_bytes (posSubtract p) ts).
Proof.
  induction ts as [|t ts IH]; intros c c' P Hd H; [constructor|]. inversion H; subst.
  unfold toks_bytes. cbn [map concat]. apply is_bytes_app. split; [eapply tok_bytes_is; eassumption|eapply IH; eassumption].
Qed.
Lemma stream_is_bytes p data bs : forall c c', params_ok p -> is_bytes data -> blocks_shape bs ->
  toks_ok p data c (concat bs) c' -> is_bytes (stream_bytes p bs).
Proof.
  induction bs as [|b bs IH]; intros c c' P Hd Hs H; [constructor|].
  cbn [concat] in H. apply toks_ok_app in H as (m & H1 & H2).
  assert (Hbl : 1 <= zlen b <= 8) by (destruct bs; cbn in Hs; lia).
  assert (Hs' : blocks_shape bs) by (destruct bs; cbn in Hs; [exact I|apply Hs]).
  unfold stream_bytes. cbn [map concat]. apply is_bytes_app. split; [|eapply IH; eassumption].
  unfold block_bytes. constructor.
  - pose proof (flag_byte_range b 0 ltac:(lia) ltac:(lia)) as F. exact F.
  - apply is_bytes_app. split; [eapply toks_bytes_is; eassumption|]. destruct (zerosAtEnd p); [apply is_bytes_zeros|constructor].
Qed.
Lemma lz10_out_bytes data c : is_bytes data -> lz10_compress data = Ok c -> is_bytes c.
Proof.
  intros Hd H. destruct (Z.lt_ge_cases (zlen data) (2 ^ 24)) as [L|L].
  - destruct (lz10_compress_shape data L) as (bs & E & Ht & Hs). rewrite E in H. assert (c = le 4 (zlen data * 256 + 16) ++ stream_bytes lz10_params bs) as -> by congruence.
    apply is_bytes_app. split; [apply is_bytes_le|]. eapply stream_is_bytes; eauto using lz10_params_ok.
  - rewrite lz10_too_long in H by lia. discriminate.
Qed.

(** ** decoder safety on arbitrary input *)
Definition dec_err (e : exc) : Prop := e = IndexError \/ e = StructError.

Definition safe_ctl (n : Z) (i : Z) (r : res (ctl dstate bytes)) : Prop :=
  match r with
  | Ok (Cont s) => zlen (out s) = n /\ is_bytes (out s) /\ i <= inPos s
  | Ok (Ret b) => zlen b = n /\ is_bytes b
  | Err e => dec_err e
  end.

Lemma get_is_byte l i b : is_bytes l -> get l i = Ok b -> is_byte b.
Proof.
  intros H. unfold get. destruct (_ <? 0); [discriminate|]. destruct (nth_error _ _) eqn:E; [|discriminate].
  intros [= <-]. apply nth_error_In in E. unfold is_bytes in H. rewrite Forall_forall in H. apply H; assumption.
Qed.
Lemma get_err {A} (l : list A) i e : get l i = Err e -> e = IndexError.
Proof. unfold get. destruct (_ <? 0); [congruence|]. destruct (nth_error _ _); congruence. Qed.
Lemma setl_err {A} (l : list A) i x e : setl l i x = Err e -> e = IndexError.
Proof. unfold setl. destruct (_ || _); congruence. Qed.
Lemma Forall_upd {A} (P : A -> Prop) (l : list A) n x : Forall P l -> P x -> Forall P (upd l n x).
Proof.
  revert n; induction l as [|y l IH]; intros n H Hx; [constructor|]. inversion H; subst.
  destruct n; cbn [upd]; constructor; auto.
Qed.
Lemma setl_ok l i x l' : setl l i x = Ok l' -> zlen l' = zlen l /\ (is_bytes l -> is_byte x -> is_bytes l').
Proof.
  unfold setl. destruct (_ || _); [discriminate|]. intros [= <-]. split; [apply zlen_upd|]. apply Forall_upd.
Qed.

Lemma lz10_copy_safe n : forall s win m i, zlen (out s) = m -> is_bytes (out s) -> i <= inPos s ->
  safe_ctl m i (lz10_copy n s win).
Proof.
  induction n as [|n IH]; intros s win m i Hl Hb Hi; cbn [lz10_copy]; [cbn; auto|].
  destruct (get (out s) win) as [b|e] eqn:E; cbn [bind].
  2:{ cbn. left. eapply get_err; eassumption. }
  destruct (setl (out s) (outPos s) b) as [o|e] eqn:E2; cbn [bind].
  2:{ cbn. left. eapply setl_err; eassumption. }
  apply setl_ok in E2 as [E2 E3]. pose proof (E3 Hb (get_is_byte _ _ _ Hb E)) as E4.
  cbn [left]. destruct (left s - 1 =? 0); [cbn; split; [lia|assumption]|]. apply IH; cbn [out inPos]; lia || assumption.
Qed.
Lemma lz10_lit_safe data s m i : is_bytes data -> zlen (out s) = m -> is_bytes (out s) -> i <= inPos s ->
  safe_ctl m i (lz10_lit data s).
Proof.
  intros Hd Hl Hb Hi. unfold lz10_lit. destruct (get data (inPos s)) as [b|e] eqn:E; cbn [bind].
  2:{ cbn. left. eapply get_err; eassumption. }
  destruct (setl (out s) (outPos s) b) as [o|e] eqn:E2; cbn [bind].
  2:{ cbn. left. eapply setl_err; eassumption. }
  apply setl_ok in E2 as [E2 E3]. pose proof (E3 Hb (get_is_byte _ _ _ Hd E)) as E4.
  cbn [left]. destruct (left s - 1 =? 0); cbn; (split; [lia|]); [assumption|split; [assumption|lia]].
Qed.
Lemma unpack_err e n data off x : unpack_e e n data off = Err x -> x = StructError.
Proof.
  unfold unpack_e, rd, struct_off. destruct (off <? 0); [destruct (_ || _)|destruct (_ <? _)]; cbn [bind]; congruence.
Qed.
Lemma lz10_block_safe n : forall data d s m i, is_bytes data -> zlen (out s) = m -> is_bytes (out s) -> i <= inPos s ->
  safe_ctl m i (lz10_block n data d s).
Proof.
  induction n as [|n IH]; intros data d s m i Hd Hl Hb Hi; cbn [lz10_block]; [cbn; auto|].
  set (step := if negb (Z.land d 128 =? 0) then _ else _).
  assert (S : safe_ctl m i step).
  { unfold step. destruct (negb _); [|apply lz10_lit_safe; assumption].
    destruct (unpack_e BE 2 data (inPos s)) as [th|e] eqn:E; cbn [bind].
    - apply lz10_copy_safe; cbn [out inPos]; lia || assumption.
    - cbn. right. eapply unpack_err; eassumption. }
  destruct step as [[s'|b]|e]; cbn [bind]; [|exact S|exact S]. destruct S as (S1 & S2 & S3). apply IH; assumption.
Qed.
Lemma lz10_raw_safe n data s m i : is_bytes data -> zlen (out s) = m -> is_bytes (out s) -> i <= inPos s ->
  safe_ctl m i (lz10_raw n data s).
Proof. intros. rewrite <- lz10_block_0. apply lz10_block_safe; assumption. Qed.

Lemma lz10_loop_safe fuel : forall data s m, is_bytes data -> zlen (out s) = m -> is_bytes (out s) -> 0 <= inPos s ->
  zlen data - inPos s + 1 <= Z.of_nat fuel -> (1 <= fuel)%nat ->
  match lz10_loop fuel data s with
  | Ok o => zlen o = m /\ is_bytes o
  | Err e => dec_err e
  end.
Proof.
  induction fuel as [|n IH]; intros data s m Hd Hl Hb Hi Hf Hf1; [lia|]. cbn [lz10_loop].
  destruct (0 <? left s); [|split; assumption].
  destruct (get data (inPos s)) as [d|e] eqn:E; cbn [bind].
  2:{ left. eapply get_err; eassumption. }
  apply get_ok_range in E; [|assumption].
  set (s1 := {| inPos := inPos s + 1; out := out s; outPos := outPos s; left := left s |}).
  set (step := if negb (d =? 0) then _ else _).
  assert (S : safe_ctl m (inPos s + 1) step).
  { unfold step. destruct (negb _); [apply lz10_block_safe|apply lz10_raw_safe]; cbn [out inPos s1]; lia || assumption. }
  destruct step as [[s'|b]|e]; cbn [bind]; [|exact S|exact S]. destruct S as (S1 & S2 & S3).
  apply IH; lia || assumption.
Qed.

Lemma lz10_decompress_safe data : is_bytes data ->
  match lz10_decompress data with
  | Ok o => exists rest n, data = [0x10] ++ le 3 n ++ rest /\ 0 <= n < 2 ^ 24 /\ zlen o = n /\ is_bytes o
  | Err e => match data with
             | b :: _ => if b =? 0x10 then e = IndexError \/ e = StructError else e = TypeError
             | [] => e = IndexError
             end
  end.
Proof.
  intros Hd. unfold lz10_decompress. destruct data as [|b0 r]; [reflexivity|].
  change (get (b0 :: r) 0) with (Ok b0). cbn [bind].
  destruct (Z.eqb_spec b0 0x10) as [->|N]; cbn [negb]; [|reflexivity].
  destruct (unpack_u 4 (16 :: r) 0) as [h|e] eqn:E; cbn [bind].
  2:{ right. eapply unpack_err; exact E. }
  unfold unpack_u, unpack_e in E. destruct (rd (16 :: r) 0 (Z.of_nat 4)) as [bs|] eqn:R; [|discriminate].
  cbn [bind] in E. injection E as <-.
  pose proof (rd_ok_inv _ _ _ _ (Z.le_refl 0) R) as L. rewrite zlen_cons in L. change (Z.of_nat 4) with 4 in *.
  rewrite rd_slice in R by (rewrite ?zlen_cons; lia).
  apply (f_equal (fun r => match r with Ok x => x | Err _ => [] end)) in R. cbv beta iota in R.
  destruct r as [|b1 [|b2 [|b3 r]]]; try (zl; fail).
  assert (B : bs = [16; b1; b2; b3]).
  { rewrite <- R. change (16 :: b1 :: b2 :: b3 :: r) with ([16; b1; b2; b3] ++ r). apply slice_hit; reflexivity. }
  clear R. subst bs. cbn [dec].
  inversion Hd as [|? ? _ Hd1]; subst. inversion Hd1 as [|? ? B1 Hd2]; subst. inversion Hd2 as [|? ? B2 Hd3]; subst.
  inversion Hd3 as [|? ? B3 Hd4]; subst. unfold is_byte in B1, B2, B3.
  set (n := Z.shiftr (unle [16; b1; b2; b3]) 8).
  assert (En : n = b1 + 256 * b2 + 65536 * b3) by (unfold n; rewrite Z.shiftr_div_pow2 by lia; change (2 ^ 8) with 256; cbn [unle]; lia).
  pose proof (lz10_loop_safe (S (length (16 :: b1 :: b2 :: b3 :: r))) (16 :: b1 :: b2 :: b3 :: r)
    {| inPos := 4; out := zeros n; outPos := 0; left := n |} n Hd) as S.
  cbn [out inPos] in S. specialize (S (zlen_zeros n ltac:(lia)) (is_bytes_zeros n) ltac:(lia) ltac:(unfold zlen; lia) ltac:(lia)).
  destruct (lz10_loop _ _ _) as [o|e].
  - exists r, n. split; [|split; [lia|exact S]]. rewrite En. cbn [le app]. f_equal. f_equal; [lia|]. f_equal; [lia|]. f_equal. lia.
  - exact S.
Qed.

(** ** tokens denote the data *)
Lemma firstn_get_app (data : bytes) c b : 0 <= c -> get data c = Ok b ->
  firstn (Z.to_nat c) data ++ [b] = firstn (Z.to_nat (c + 1)) data.
Proof.
  intros Hc H. destruct (split_at data c b Hc H) as (l1 & l2 & -> & L).
  rewrite firstn_app_exact by (unfold zlen in L; lia).
  replace (l1 ++ b :: l2) with ((l1 ++ [b]) ++ l2) by (rewrite <- app_assoc; reflexivity).
  rewrite firstn_app_exact; [reflexivity|]. rewrite app_length. cbn [length]. unfold zlen in L. lia.
Qed.
Lemma firstn_slice_app (data : bytes) c l : 0 <= c -> 0 <= l -> c + l <= zlen data ->
  firstn (Z.to_nat c) data ++ slice data c (c + l) = firstn (Z.to_nat (c + l)) data.
Proof.
  intros. rewrite slice_firstn_skipn by lia.
  replace (Z.to_nat (c + l)) with (Z.to_nat c + Z.to_nat l)%nat by lia.
  rewrite <- (firstn_skipn (Z.to_nat c) data) at 3.
  replace (Z.to_nat c + Z.to_nat l)%nat with (length (firstn (Z.to_nat c) data) + Z.to_nat l)%nat
    by (rewrite firstn_length; unfold zlen in *; lia).
  rewrite firstn_app_2. reflexivity.
Qed.

Lemma expand_ok p data ts : forall c c', params_ok p -> 0 <= c <= zlen data -> toks_ok p data c ts c' ->
  expand (firstn (Z.to_nat c) data) ts = firstn (Z.to_nat c') data.
Proof.
  induction ts as [|t ts IH]; intros c c' P Hc H; inversion H as [|? ? ? ? Ht Hr]; subst; cbn [expand]; [reflexivity|].
  pose proof (tok_len_pos _ _ _ _ P Ht). pose proof (tok_ok_end _ _ _ _ (proj1 Hc) P Ht).
  assert (Hc' : 0 <= c + tok_len t <= zlen data) by lia. rewrite <- (IH _ _ P Hc' Hr). f_equal.
  assert (HF : zlen (firstn (Z.to_nat c) data) = c) by (rewrite zlen_firstn; lia).
  destruct t as [b|l d]; cbn [expand_token tok_len tok_ok] in *.
  - apply firstn_get_app; [lia|apply Ht].
  - destruct Ht as (T1 & T2 & T3 & T4 & T5 & _). rewrite HF. rewrite <- firstn_slice_app by lia. f_equal.
    rewrite <- T5. rewrite <- (firstn_skipn (Z.to_nat c) data) at 2. rewrite slice_app_l by lia. reflexivity.
Qed.

Lemma lz_tokens p data : params_ok p ->
  exists bs a b, lz_compress p data = Ok (stream_bytes p bs, a, b) /\ blocks_shape bs /\
    expand [] (concat bs) = data /\ toks_ok p data 0 (concat bs) (zlen data).
Proof.
  intros P. destruct (lz_compress_spec p P data) as (bs & a & b & E & Ht & Hs & _). exists bs, a, b.
  split; [assumption|]. split; [assumption|]. split; [|assumption].
  pose proof (zlen_nonneg data). pose proof (expand_ok p data (concat bs) 0 (zlen data) P ltac:(lia) Ht) as X.
  change (firstn (Z.to_nat 0) data) with (@nil Z) in X. rewrite X. apply firstn_all2. unfold zlen. lia.
Qed.

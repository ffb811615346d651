(** * Proofs about codeCompression.py *)
From Verif Require Import PyBase PyLemmas LzModel LzSpec LzLemmas Lz10Lemmas.

(** ** the decoder reads and writes from the end *)
Lemma nth_error_rev {A} (l : list A) i : (i < length l)%nat -> nth_error (rev l) i = nth_error l (length l - 1 - i).
Proof.
  revert i; induction l as [|x l IH]; intros i Hi; cbn [length] in *; [lia|]. cbn [rev].
  destruct (Nat.eq_dec i (length l)) as [->|].
  - rewrite nth_error_app2 by (rewrite rev_length; lia). rewrite rev_length, Nat.sub_diag.
    replace (S (length l) - 1 - length l)%nat with 0%nat by lia. reflexivity.
  - rewrite nth_error_app1 by (rewrite rev_length; lia). rewrite IH by lia.
    replace (S (length l) - 1 - i)%nat with (S (length l - 1 - i)) by lia. reflexivity.
Qed.
Lemma get_rev {A} (l : list A) i : 0 <= i -> get (rev l) (-1 - i) = get l i.
Proof.
  intros Hi. unfold get. rewrite zlen_rev. destruct (Z.ltb_spec (-1 - i) 0); [|lia]. destruct (Z.ltb_spec i 0); [lia|].
  destruct (Z.ltb_spec i 0); [lia|].
  destruct (Z.ltb_spec (-1 - i + zlen l) 0) as [L|L].
  - replace (nth_error l (Z.to_nat i)) with (@None A); [reflexivity|]. symmetry. apply nth_error_None. unfold zlen in L. lia.
  - rewrite nth_error_rev by (unfold zlen in *; lia).
    replace (length l - 1 - Z.to_nat (-1 - i + zlen l))%nat with (Z.to_nat i) by (unfold zlen in *; lia). reflexivity.
Qed.
Lemma upd_rev {A} (l : list A) i x : (i < length l)%nat -> upd (rev l) (length l - 1 - i) x = rev (upd l i x).
Proof.
  intros Hi. destruct (nth_error l i) as [y|] eqn:E; [|apply nth_error_None in E; lia].
  apply nth_error_split in E as (l1 & l2 & -> & <-). rewrite upd_app, !rev_app_distr. cbn [rev]. rewrite <- !app_assoc. cbn [app].
  replace (length (l1 ++ y :: l2) - 1 - length l1)%nat with (length (rev l2)).
  - apply upd_app.
  - rewrite rev_length, app_length. cbn [length]. lia.
Qed.
Lemma setl_rev {A} (l : list A) i x l' : 0 <= i -> setl l i x = Ok l' -> setl (rev l) (-1 - i) x = Ok (rev l').
Proof.
  intros Hi. unfold setl. rewrite zlen_rev. destruct (Z.ltb_spec (-1 - i) 0); [|lia]. destruct (Z.ltb_spec i 0); [lia|].
  destruct (Z.ltb_spec i 0); [lia|]. cbn [orb]. destruct (Z.leb_spec (zlen l) i); [discriminate|]. intros [= <-].
  destruct (Z.ltb_spec (-1 - i + zlen l) 0); [lia|]. destruct (Z.leb_spec (zlen l) (-1 - i + zlen l)); [lia|]. cbn [orb].
  f_equal. rewrite <- upd_rev by (unfold zlen in *; lia). f_equal. unfold zlen in *. lia.
Qed.

Section CodeDec.
Variable tgt : bytes.     (* the reversed plain text the decoder has to produce *)
Variable W : bytes.       (* the reversed compressed bytes *)
Variables dataLen compressedLen : Z.
Hypothesis Hlim : zlen W + 1 < compressedLen <= dataLen.

Record St (s : cstate) (pos c m : Z) : Prop := {
  st_r : readBytes s = pos; st_o : outSize s = c; st_m : mask s = m; st_d : decomp s = rev (part tgt c) }.

Lemma code_copy_ok n : forall w c,
  0 <= w -> w + Z.of_nat n <= c -> c + Z.of_nat n <= zlen tgt ->
  (forall j, 0 <= j < Z.of_nat n -> get tgt (w + j) = get tgt (c + j)) ->
  code_copy n (rev (part tgt c)) w c = Ok (rev (part tgt (c + Z.of_nat n)), c + Z.of_nat n).
Proof.
  induction n as [|n IH]; intros w c Hw Hn Hc Hg; cbn [code_copy].
  - change (Z.of_nat 0) with 0. rewrite Z.add_0_r. reflexivity.
  - rewrite get_rev by lia. rewrite get_part by lia.
    destruct (get_some tgt w ltac:(lia)) as (b & Eb & _). rewrite Eb. cbn [bind].
    assert (Ec : get tgt c = Ok b) by (specialize (Hg 0 ltac:(lia)); rewrite !Z.add_0_r in Hg; congruence).
    rewrite (setl_rev _ c b (part tgt (c + 1))) by (try lia; apply setl_part; lia || assumption). cbn [bind].
    rewrite IH; try lia.
    + replace (c + 1 + Z.of_nat n) with (c + Z.of_nat (S n)) by lia. reflexivity.
    + intros j Hj. replace (w + 1 + j) with (w + (j + 1)) by lia. replace (c + 1 + j) with (c + (j + 1)) by lia. apply Hg. lia.
Qed.

(** the part of [tok_ok] the decoder needs *)
Definition tok_dec (c : Z) (t : token) : Prop :=
  match t with
  | Lit b => get tgt c = Ok b
  | Ref l d => 3 <= l <= 18 /\ l <= d <= 4098 /\ d <= c /\ c + l <= zlen tgt /\
               forall j, 0 <= j < l -> get tgt (c - d + j) = get tgt (c + j)
  end.

(** second half of an iteration: the token itself *)
Definition code_tok (s1 : cstate) : res cstate :=
  let compData := rev W in
  if negb (Z.land (flags s1) (mask s1) =? 0) then
    if dataLen <=? readBytes s1 + 1 then Err RuntimeError
    else
      byte1 <- get compData (-1 - readBytes s1) ;;
      byte2 <- get compData (-1 - (readBytes s1 + 1)) ;;
      let len := Z.shiftr byte1 4 + 3 in
      let disp0 := Z.lor (Z.shiftl (Z.land byte1 0x0F) 8) byte2 + 3 in
      disp <- (if outSize s1 <? disp0 then
                 if outSize s1 <? 2 then Err RuntimeError else Ok 2
               else Ok disp0) ;;
      '(dd, o) <- code_copy (Z.to_nat len) (decomp s1) (outSize s1 - disp) (outSize s1) ;;
      Ok {| outSize := o; readBytes := readBytes s1 + 2; flags := flags s1; mask := mask s1;
            decomp := dd |}
  else
    if dataLen <? readBytes s1 then Err RuntimeError
    else
      x <- get compData (-1 - readBytes s1) ;;
      dd <- setl (decomp s1) (-1 - outSize s1) x ;;
      Ok {| outSize := outSize s1 + 1; readBytes := readBytes s1 + 1; flags := flags s1;
            mask := mask s1; decomp := dd |}.

Lemma code_tok_ok s1 t pre rest c k :
  W = pre ++ tok_bytes 3 t ++ rest -> St s1 (zlen pre) c (2 ^ k) -> 0 <= k -> 0 <= c -> tok_dec c t ->
  Z.testbit (flags s1) k = is_ref t ->
  exists s2, code_tok s1 = Ok s2 /\ St s2 (zlen pre + zlen (tok_bytes 3 t)) (c + tok_len t) (2 ^ k) /\ flags s2 = flags s1.
Proof.
  intros HW [Hr Ho Hm Hd] Hk Hc Ht Hb. unfold code_tok. rewrite Hm, land_pow2_eqb, Hb by assumption.
  pose proof (zlen_nonneg pre). pose proof (zlen_nonneg rest).
  assert (HWl : zlen W = zlen pre + zlen (tok_bytes 3 t) + zlen rest) by (rewrite HW, !zlen_app; lia).
  rewrite Hr, Ho, Hd.
  destruct t as [b|l d]; cbn [is_ref tok_len tok_dec] in *.
  - cbn [tok_bytes] in *. rewrite zlen_cons in *. change (zlen (@nil Z)) with 0 in *.
    destruct (Z.ltb_spec dataLen (zlen pre)); [lia|].
    rewrite get_rev by lia.
    assert (G1 : get W (zlen pre) = Ok b) by (rewrite HW; apply get_mid; reflexivity). rewrite G1. cbn [bind].
    rewrite (setl_rev _ c b (part tgt (c + 1))) by (try lia; apply setl_part; lia || assumption). cbn [bind].
    eexists. split; [reflexivity|]. split; [|reflexivity]. constructor; reflexivity.
  - cbn [tok_bytes] in *. rewrite !zlen_cons in *. change (zlen (@nil Z)) with 0 in *.
    destruct Ht as (H1 & H2 & H3 & H4 & H5).
    destruct (Z.leb_spec dataLen (zlen pre + 1)); [lia|].
    rewrite !get_rev by lia.
    assert (G1 : get W (zlen pre) = Ok ((l - 3) * 16 + (d - 3) / 256)) by (rewrite HW; apply get_mid; reflexivity).
    assert (G2 : get W (zlen pre + 1) = Ok ((d - 3) mod 256)).
    { rewrite HW. replace (pre ++ [(l - 3) * 16 + (d - 3) / 256; (d - 3) mod 256] ++ rest)
        with ((pre ++ [(l - 3) * 16 + (d - 3) / 256]) ++ (d - 3) mod 256 :: rest) by (rewrite <- app_assoc; reflexivity).
      apply get_mid. zl. }
    rewrite G1, G2. cbn [bind].
    rewrite Z.shiftr_div_pow2, land_15 by lia. change (2 ^ 4) with 16.
    rewrite lor_shiftl_add by (change (2 ^ 8) with 256; lia). change (2 ^ 8) with 256.
    replace (((l - 3) * 16 + (d - 3) / 256) / 16 + 3) with l by lia.
    replace (((l - 3) * 16 + (d - 3) / 256) mod 16 * 256 + (d - 3) mod 256 + 3) with d by lia.
    destruct (Z.ltb_spec c d); [lia|]. cbn [bind].
    rewrite code_copy_ok; rewrite ?Z2Nat.id by lia; try lia; try assumption.
    cbn [bind]. eexists. split; [reflexivity|]. split; [|reflexivity].
    constructor; cbn; try reflexivity; lia.
Qed.

Lemma code_iter_eq s : code_iter dataLen compressedLen (rev W) s =
  (s1 <- (if mask s =? 1 then
           if compressedLen <=? readBytes s then Err RuntimeError
           else f <- get (rev W) (-1 - readBytes s) ;;
                Ok {| outSize := outSize s; readBytes := readBytes s + 1; flags := f;
                      mask := 0x80; decomp := decomp s |}
         else Ok {| outSize := outSize s; readBytes := readBytes s; flags := flags s;
                    mask := Z.shiftr (mask s) 1; decomp := decomp s |}) ;; code_tok s1).
Proof. reflexivity. Qed.

Definition toks_dec (c : Z) (ts : list token) (c' : Z) : Prop :=
  exists f, f 0%nat = c /\ f (length ts) = c' /\
    forall j t, nth_error ts j = Some t -> tok_dec (f j) t /\ f (S j) = f j + tok_len t.

Inductive toksd : Z -> list token -> Z -> Prop :=
| toksd_nil c : toksd c [] c
| toksd_cons c t ts c' : tok_dec c t -> toksd (c + tok_len t) ts c' -> toksd c (t :: ts) c'.

Lemma toksd_inv c t ts c' : toksd c (t :: ts) c' -> tok_dec c t /\ toksd (c + tok_len t) ts c'.
Proof. intros H. inversion H; subst. split; assumption. Qed.
Lemma toksd_nil_inv c c' : toksd c [] c' -> c' = c.
Proof. intros H. inversion H; reflexivity. Qed.
Lemma tok_dec_len c t : 0 <= c -> tok_dec c t -> 1 <= tok_len t /\ c + tok_len t <= zlen tgt.
Proof.
  intros Hc. destruct t; cbn [tok_dec tok_len].
  - intros H. apply get_ok_range in H; lia.
  - intros; lia.
Qed.
Lemma toksd_le c ts c' : 0 <= c -> toksd c ts c' -> c + zlen ts <= c'.
Proof.
  intros Hc H. induction H as [|c t ts c' Ht _ IH]; [change (zlen (@nil token)) with 0; lia|].
  rewrite zlen_cons. pose proof (tok_dec_len c t Hc Ht). specialize (IH ltac:(lia)). lia.
Qed.

(** tokens number [i..] of a block (flag byte already read) *)
Lemma run_toks ts : forall i fl s pre rest c c' k,
  W = pre ++ toks_bytes 3 ts ++ rest -> St s (zlen pre) c (2 ^ (8 - i)) -> flags s = fl ->
  1 <= i -> i + zlen ts <= 8 -> 0 <= c -> toksd c ts c' -> c' <= zlen tgt ->
  (forall j t, nth_error ts j = Some t -> Z.testbit fl (7 - i - Z.of_nat j) = is_ref t) ->
  exists s', code_loop (length ts + k) dataLen compressedLen (zlen tgt) (rev W) s =
             code_loop k dataLen compressedLen (zlen tgt) (rev W) s' /\
    St s' (zlen pre + zlen (toks_bytes 3 ts)) c' (2 ^ (8 - (i + zlen ts))).
Proof.
  induction ts as [|t ts IH]; intros i fl s pre rest c c' k HW Hs Hfl Hi H8 Hc Ht Hc' Hb.
  - apply toksd_nil_inv in Ht. rewrite Ht. exists s. split; [reflexivity|]. change (zlen (toks_bytes 3 [])) with 0. change (zlen (@nil token)) with 0.
    rewrite !Z.add_0_r. assumption.
  - apply toksd_inv in Ht as [Htok Hrest]. rewrite zlen_cons in *. pose proof (zlen_nonneg ts).
    pose proof (tok_dec_len c t Hc Htok) as TL. pose proof (toksd_le (c + tok_len t) ts c' ltac:(lia) Hrest) as TL2.
    cbn [length Nat.add code_loop]. pose proof Hs as [Hr Ho Hm Hd]. rewrite Ho.
    destruct (Z.ltb_spec c (zlen tgt)); [|lia].
    rewrite code_iter_eq, Hm.
    destruct (Z.eqb_spec (2 ^ (8 - i)) 1) as [E|E].
    { exfalso. assert (2 ^ 1 <= 2 ^ (8 - i)) by (apply Z.pow_le_mono_r; lia). lia. }
    cbn [bind].
    replace (Z.shiftr (2 ^ (8 - i)) 1) with (2 ^ (7 - i)).
    2:{ rewrite Z.shiftr_div_pow2 by lia. replace (8 - i) with ((7 - i) + 1) by lia. rewrite Z.pow_add_r by lia.
        rewrite Z.div_mul by (change (2 ^ 1) with 2; lia). reflexivity. }
    set (s1 := {| outSize := _; readBytes := _; flags := _; mask := _; decomp := _ |}).
    assert (Hs1 : St s1 (zlen pre) c (2 ^ (7 - i))) by (constructor; cbn; assumption || reflexivity).
    unfold toks_bytes in HW; cbn [map concat] in HW. rewrite <- app_assoc in HW.
    destruct (code_tok_ok s1 t pre (toks_bytes 3 ts ++ rest) c (7 - i) HW Hs1 ltac:(lia) Hc Htok) as (s2 & E2 & S2 & F2).
    { specialize (Hb 0%nat t eq_refl). change (Z.of_nat 0) with 0 in Hb. rewrite Z.sub_0_r in Hb. cbn [flags s1]. rewrite Hfl. exact Hb. }
    rewrite E2. cbn [bind].
    destruct (IH (i + 1) fl s2 (pre ++ tok_bytes 3 t) rest (c + tok_len t) c' k) as (s' & E3 & S3); try lia.
    + rewrite HW. rewrite <- app_assoc. reflexivity.
    + rewrite zlen_app. replace (8 - (i + 1)) with (7 - i) by lia. assumption.
    + rewrite F2. exact Hfl.
    + assumption.
    + intros j u Hj. specialize (Hb (S j) u Hj). replace (7 - (i + 1) - Z.of_nat j) with (7 - i - Z.of_nat (S j)) by lia. assumption.
    + exists s'. split; [assumption|]. unfold toks_bytes at 1; cbn [map concat]. rewrite zlen_app.
      rewrite zlen_app in S3. replace (8 - (i + (1 + zlen ts))) with (8 - (i + 1 + zlen ts)) by lia.
      replace (zlen pre + (zlen (tok_bytes 3 t) + zlen (concat (map (tok_bytes 3) ts))))
        with (zlen pre + zlen (tok_bytes 3 t) + zlen (toks_bytes 3 ts)) by (unfold toks_bytes; lia). assumption.
Qed.

(** a block (possibly cut short): flag byte plus tokens *)
Lemma run_block ts fl s pre rest c c' k :
  W = pre ++ [fl] ++ toks_bytes 3 ts ++ rest -> St s (zlen pre) c 1 ->
  1 <= zlen ts <= 8 -> 0 <= c -> toksd c ts c' -> c' <= zlen tgt ->
  (forall j t, nth_error ts j = Some t -> Z.testbit fl (7 - Z.of_nat j) = is_ref t) ->
  exists s', code_loop (length ts + k) dataLen compressedLen (zlen tgt) (rev W) s =
             code_loop k dataLen compressedLen (zlen tgt) (rev W) s' /\
    St s' (zlen pre + 1 + zlen (toks_bytes 3 ts)) c' (2 ^ (8 - zlen ts)).
Proof.
  intros HW Hs Hl Hc Ht Hc' Hb. destruct ts as [|t ts]; [change (zlen (@nil token)) with 0 in Hl; lia|].
  apply toksd_inv in Ht as [Htok Hrest]. rewrite zlen_cons in *. pose proof (zlen_nonneg ts).
  pose proof (zlen_nonneg pre).
  pose proof (tok_dec_len c t Hc Htok) as TL. pose proof (toksd_le (c + tok_len t) ts c' ltac:(lia) Hrest) as TL2.
  assert (HWl : zlen pre + 1 <= zlen W) by (rewrite HW, !zlen_app, zlen_cons; change (zlen (@nil Z)) with 0; pose proof (zlen_nonneg (toks_bytes 3 (t :: ts))); pose proof (zlen_nonneg rest); lia).
  cbn [length Nat.add code_loop]. pose proof Hs as [Hr Ho Hm Hd]. rewrite Ho.
  destruct (Z.ltb_spec c (zlen tgt)); [|lia].
  rewrite code_iter_eq, Hm, Hr. change (1 =? 1) with true. cbv iota.
  destruct (Z.leb_spec compressedLen (zlen pre)); [lia|].
  rewrite get_rev by lia.
  assert (G1 : get W (zlen pre) = Ok fl) by (rewrite HW; apply get_mid; reflexivity). rewrite G1. cbn [bind].
  set (s1 := {| outSize := _; readBytes := _; flags := _; mask := _; decomp := _ |}).
  assert (Hs1 : St s1 (zlen (pre ++ [fl])) c (2 ^ 7)).
  { constructor; cbn; try assumption; try reflexivity. zl. }
  assert (HW2 : W = (pre ++ [fl]) ++ tok_bytes 3 t ++ toks_bytes 3 ts ++ rest).
  { rewrite HW. unfold toks_bytes; cbn [map concat]. rewrite <- !app_assoc. reflexivity. }
  destruct (code_tok_ok s1 t (pre ++ [fl]) (toks_bytes 3 ts ++ rest) c 7 HW2 Hs1 ltac:(lia) Hc Htok) as (s2 & E2 & S2 & F2).
  { specialize (Hb 0%nat t eq_refl). exact Hb. }
  rewrite E2. cbn [bind].
  destruct (run_toks ts 1 fl s2 ((pre ++ [fl]) ++ tok_bytes 3 t) rest (c + tok_len t) c' k) as (s' & E3 & S3); try lia.
  - rewrite HW2 at 1. rewrite <- !app_assoc. reflexivity.
  - rewrite zlen_app. exact S2.
  - exact F2.
  - assumption.
  - intros j u Hj. specialize (Hb (S j) u Hj). replace (7 - 1 - Z.of_nat j) with (7 - Z.of_nat (S j)) by lia. assumption.
  - exists s'. split; [assumption|]. unfold toks_bytes at 1; cbn [map concat]. fold (toks_bytes 3 ts).
    rewrite !zlen_app in *. rewrite zlen_cons in S3. change (zlen (@nil Z)) with 0 in S3.
    replace (zlen pre + 1 + (zlen (tok_bytes 3 t) + zlen (toks_bytes 3 ts))) with (zlen pre + (1 + 0) + zlen (tok_bytes 3 t) + zlen (toks_bytes 3 ts)) by lia.
    exact S3.
Qed.

Lemma toksd_app a : forall c b c', toksd c (a ++ b) c' -> exists m, toksd c a m /\ toksd m b c'.
Proof.
  induction a as [|t a IH]; intros c b c' H; cbn [app] in *.
  - exists c. split; [constructor|assumption].
  - inversion H as [|? ? ? ? Ht Hr]; subst. apply IH in Hr as (m & H1 & H2). exists m. split; [constructor; assumption|assumption].
Qed.

(** full blocks *)
Lemma run_blocks bs : forall s pre rest c c' k,
  W = pre ++ stream_bytes code_params bs ++ rest -> St s (zlen pre) c 1 ->
  Forall (fun b => zlen b = 8) bs -> 0 <= c -> toksd c (concat bs) c' -> c' <= zlen tgt ->
  exists s', code_loop (length (concat bs) + k) dataLen compressedLen (zlen tgt) (rev W) s =
             code_loop k dataLen compressedLen (zlen tgt) (rev W) s' /\
    St s' (zlen pre + zlen (stream_bytes code_params bs)) c' 1.
Proof.
  induction bs as [|b bs IH]; intros s pre rest c c' k HW Hs Hf Hc Ht Hc'.
  - cbn [concat] in Ht. apply toksd_nil_inv in Ht. rewrite Ht. exists s. split; [reflexivity|].
    change (zlen (stream_bytes code_params [])) with 0. rewrite Z.add_0_r. assumption.
  - cbn [concat] in Ht. apply toksd_app in Ht as (m & H1 & H2). apply Forall_cons_iff in Hf as [Hb8 Hf'].
    pose proof (toksd_le _ _ _ Hc H1) as L1. pose proof (toksd_le m (concat bs) c' ltac:(pose proof (zlen_nonneg b); lia) H2) as L2. pose proof (zlen_nonneg (concat bs)).
    cbn [concat]. rewrite app_length, <- Nat.add_assoc.
    unfold stream_bytes in HW. cbn [map concat] in HW. unfold block_bytes at 1 in HW. cbn [zerosAtEnd code_params posSubtract] in HW.
    rewrite app_nil_r in HW.
    destruct (run_block b (flag_byte 128 b) s pre (stream_bytes code_params bs ++ rest) c m (length (concat bs) + k)) as (s1 & E1 & S1); try lia; try assumption.
    { rewrite HW. unfold stream_bytes. cbn [app]. rewrite <- !app_assoc. reflexivity. }
    { intros j t Hj. apply flag_byte_bits; [lia|assumption]. }
    rewrite Hb8 in S1. change (2 ^ (8 - 8)) with 1 in S1.
    destruct (IH s1 (pre ++ flag_byte 128 b :: toks_bytes 3 b) rest m c' k) as (s2 & E2 & S2); try lia; try assumption.
    { rewrite HW. unfold stream_bytes. cbn [app]. rewrite <- !app_assoc. cbn [app]. rewrite <- ?app_assoc. reflexivity. }
    { rewrite zlen_app, zlen_cons. replace (zlen pre + (1 + zlen (toks_bytes 3 b))) with (zlen pre + 1 + zlen (toks_bytes 3 b)) by lia. assumption. }
    exists s2. split; [congruence|].
    unfold stream_bytes at 1. cbn [map concat]. unfold block_bytes at 1. cbn [zerosAtEnd code_params posSubtract].
    rewrite app_nil_r. rewrite zlen_app in *. rewrite zlen_cons in *.
    replace (zlen pre + (1 + zlen (toks_bytes 3 b) + zlen (concat (map (block_bytes code_params) bs))))
      with (zlen pre + (1 + zlen (toks_bytes 3 b)) + zlen (stream_bytes code_params bs)) by (unfold stream_bytes; lia).
    assumption.
Qed.

Lemma run_all bs1 ts1 ts2 s :
  W = stream_bytes code_params bs1 ++ [flag_byte 128 (ts1 ++ ts2)] ++ toks_bytes 3 ts1 ->
  Forall (fun b => zlen b = 8) bs1 -> zlen (ts1 ++ ts2) <= 8 -> ts1 <> [] ->
  toksd 0 (concat bs1 ++ ts1) (zlen tgt) -> St s 0 0 1 ->
  code_loop (S (length W)) dataLen compressedLen (zlen tgt) (rev W) s = Ok (rev tgt).
Proof.
  intros HW Hf H8 Hne Ht Hs. apply toksd_app in Ht as (m & H1 & H2).
  pose proof (zlen_nonneg ts1). pose proof (zlen_nonneg ts2). rewrite zlen_app in H8.
  pose proof (toksd_le _ _ _ (Z.le_refl 0) H1) as L1. pose proof (zlen_nonneg (concat bs1)). pose proof (toksd_le m ts1 (zlen tgt) ltac:(lia) H2) as L2.
  assert (Hn1 : 1 <= zlen ts1) by (destruct ts1; [congruence|rewrite zlen_cons; pose proof (zlen_nonneg ts1); lia]).
  assert (LT : forall c c' ts, toksd c ts c' -> zlen ts <= zlen (toks_bytes 3 ts)).
  { clear. intros c c' ts H. induction H as [|c t ts c' _ _ IH]; [reflexivity|].
    unfold toks_bytes in *; cbn [map concat]. rewrite zlen_app, zlen_cons.
    destruct t; cbn [tok_bytes]; rewrite !zlen_cons; change (zlen (@nil Z)) with 0; lia. }
  assert (LS : zlen (concat bs1) <= zlen (stream_bytes code_params bs1)).
  { clear - H1 LT. revert H1. generalize 0. induction bs1 as [|b bs IH]; intros z H; [reflexivity|].
    cbn [concat] in *. apply toksd_app in H as (q & A & B). specialize (IH q B). apply LT in A.
    unfold stream_bytes in *. cbn [map concat]. rewrite !zlen_app. unfold block_bytes at 1. rewrite zlen_cons, zlen_app.
    cbn [posSubtract code_params] in *. pose proof (zlen_nonneg (if zerosAtEnd code_params then zeros (8 - zlen b) else [])). lia. }
  pose proof (LT _ _ _ H2) as LT2.
  assert (HL : zlen W = zlen (stream_bytes code_params bs1) + 1 + zlen (toks_bytes 3 ts1)) by (rewrite HW, !zlen_app, zlen_cons; change (zlen (@nil Z)) with 0; lia).
  set (extra := (S (length W) - length (concat bs1) - length ts1)%nat).
  assert (He : (1 <= extra)%nat) by (unfold extra, zlen in *; lia).
  replace (S (length W)) with (length (concat bs1) + (length ts1 + extra))%nat by (unfold extra, zlen in *; lia).
  destruct (run_blocks bs1 s [] ([flag_byte 128 (ts1 ++ ts2)] ++ toks_bytes 3 ts1) 0 m (length ts1 + extra)) as (s1 & E1 & S1); try lia; try assumption.
  change (zlen (@nil Z)) with 0 in S1. rewrite Z.add_0_l in S1. rewrite E1.
  destruct (run_block ts1 (flag_byte 128 (ts1 ++ ts2)) s1 (stream_bytes code_params bs1) [] m (zlen tgt) extra) as (s2 & E2 & S2); try lia; try assumption.
  { rewrite app_nil_r. exact HW. }
  { intros j t Hj. apply flag_byte_bits; [rewrite zlen_app; lia|]. rewrite nth_error_app1; [assumption|]. apply nth_error_Some. rewrite Hj. discriminate. }
  rewrite E2. destruct extra as [|n]; [lia|]. cbn [code_loop]. destruct S2 as [Sr So Sm Sd]. rewrite So.
  destruct (Z.ltb_spec (zlen tgt) (zlen tgt)); [lia|]. rewrite Sd, part_full. reflexivity.
Qed.
End CodeDec.

(** tokens valid for [raw] are decodable for the prefix that they cover *)
Lemma toks_ok_toksd p raw ts : forall c c' E, maxMatchLen p = 18 -> maxMatchDiff p <= 4098 -> 0 <= c -> toks_ok p raw c ts c' -> c' <= E <= zlen raw ->
  toksd (firstn (Z.to_nat E) raw) c ts c'.
Proof.
  induction ts as [|t ts IH]; intros c c' E HM HD Hc H HE; inversion H as [|? ? ? ? Ht Hr]; subst; constructor.
  - assert (L : c + tok_len t <= c').
    { clear - Hr HM. revert Hr. generalize (c + tok_len t). induction ts as [|u ts IH]; intros z Hz; inversion Hz as [|? ? ? ? Hu Hv]; subst; [lia|].
      specialize (IH _ Hv). destruct u; cbn [tok_len tok_ok] in *; lia. }
    destruct t as [b|l d]; cbn [tok_ok tok_dec tok_len] in *.
    + rewrite get_firstn by lia. apply Ht.
    + destruct Ht as (H1 & H2 & H3 & H4 & H5 & _). rewrite HM in *. repeat split; try lia.
      * rewrite zlen_firstn. lia.
      * intros j Hj. rewrite !get_firstn by lia. rewrite <- (get_slice raw c l j) by lia. rewrite <- H5. rewrite get_slice by lia. reflexivity.
  - apply IH; try assumption. destruct t; cbn [tok_ok tok_len] in *; lia.
Qed.

(** ** the trailer *)
Definition trailer (r hl ex : Z) : bytes := le 3 (r + hl) ++ [hl] ++ le 4 ex.

Lemma le4_split a b : 0 <= a < 2 ^ 24 -> le 4 (a + 2 ^ 24 * b) = le 3 a ++ [b mod 256].
Proof.
  intros H. cbn [le app]. f_equal; [lia|]. f_equal; [lia|]. f_equal; [lia|]. f_equal. lia.
Qed.

Lemma detect_one_amt X tail r hl ex :
  0 <= r + hl < 2 ^ 24 -> 8 <= hl < 256 -> 0 <= ex < 2 ^ 32 -> r + hl <= zlen X + 8 + zlen tail ->
  detect_one (X ++ trailer r hl ex ++ tail) (zlen tail) = Ok (Some (Some (zlen tail))).
Proof.
  intros H1 H2 H3 H4. unfold detect_one. set (data := X ++ trailer r hl ex ++ tail).
  pose proof (zlen_nonneg X). pose proof (zlen_nonneg tail).
  assert (HL : zlen data = zlen X + 8 + zlen tail) by (unfold data, trailer; zl).
  assert (E0 : get data (-5 - zlen tail) = get data (zlen X + 3)).
  { unfold get. rewrite HL. destruct (Z.ltb_spec (-5 - zlen tail) 0); [|lia]. destruct (Z.ltb_spec (zlen X + 3) 0); [lia|].
    replace (-5 - zlen tail + (zlen X + 8 + zlen tail)) with (zlen X + 3) by lia. reflexivity. }
  rewrite E0. destruct (get_some data (zlen X + 3) ltac:(lia)) as (b & Eb & _). rewrite Eb.
  rewrite HL. replace (zlen X + 8 + zlen tail - zlen tail - 8) with (zlen X) by lia.
  assert (U1 : unpack_u 4 data (zlen X) = Ok (r + hl + 2 ^ 24 * hl)).
  { unfold data. rewrite unpack_u_skip by lia. rewrite Z.sub_diag. unfold trailer.
    replace ((le 3 (r + hl) ++ [hl] ++ le 4 ex) ++ tail) with (le 4 (r + hl + 2 ^ 24 * hl) ++ (le 4 ex ++ tail)).
    - apply unpack_u_hit; [reflexivity|]. change (256 ^ Z.of_nat 4) with (2 ^ 32). lia.
    - rewrite le4_split by assumption. rewrite Z.mod_small by lia. rewrite <- !app_assoc. reflexivity. }
  assert (U2 : unpack_u 4 data (zlen X + 4) = Ok ex).
  { unfold data. rewrite unpack_u_skip by lia. unfold trailer.
    replace ((le 3 (r + hl) ++ [hl] ++ le 4 ex) ++ tail) with ((le 3 (r + hl) ++ [hl]) ++ le 4 ex ++ tail) by (rewrite <- !app_assoc; reflexivity).
    rewrite unpack_u_skip by zl. replace (zlen X + 4 - zlen X - zlen (le 3 (r + hl) ++ [hl])) with 0 by zl.
    apply unpack_u_hit; [reflexivity|]. change (256 ^ Z.of_nat 4) with (2 ^ 32). lia. }
  rewrite U1, U2. cbn [bind].
  rewrite Z.shiftr_div_pow2, land_ffffff by lia.
  replace ((r + hl + 2 ^ 24 * hl) / 2 ^ 24) with hl by lia. replace ((r + hl + 2 ^ 24 * hl) mod 2 ^ 24) with (r + hl) by lia.
  destruct (Z.ltb_spec hl 8); [lia|]. destruct (Z.ltb_spec (zlen X + 8 + zlen tail) (r + hl)); [lia|]. reflexivity.
Qed.

Lemma le4_zero ex : 0 <= ex < 2 ^ 32 -> le 4 ex = [0; 0; 0; 0] -> ex = 0.
Proof. intros H E. rewrite <- (unle_le_id 4 ex) by (change (256 ^ Z.of_nat 4) with (2 ^ 32); lia). rewrite E. reflexivity. Qed.

(** what [decompress] does with a file that has our shape, followed by [tail]
    (the appended data that it is able to detect) *)
Lemma code_decompress_shape pre W tgt bs1 ts1 ts2 padn tail :
  W = stream_bytes code_params bs1 ++ [flag_byte 128 (ts1 ++ ts2)] ++ toks_bytes 3 ts1 ->
  Forall (fun b => zlen b = 8) bs1 -> zlen (ts1 ++ ts2) <= 8 -> ts1 <> [] ->
  toksd tgt 0 (concat bs1 ++ ts1) (zlen tgt) ->
  0 <= padn <= 3 -> 0 < zlen tgt - zlen W - (8 + padn) < 2 ^ 32 -> zlen tgt < 2 ^ 24 ->
  let hl := 8 + padn in
  let data := pre ++ rev W ++ rep 0xFF padn ++ trailer (zlen W) hl (zlen tgt - zlen W - hl) ++ tail in
  detectAppendedData data = Ok (Some (zlen tail)) ->
  code_decompress data = Ok (pre ++ rev tgt ++ tail).
Proof.
  intros HW Hf H8 Hne Ht Hp Hex H24 hl data Hdet. unfold code_decompress. rewrite Hdet. cbn [bind].
  set (ex := zlen tgt - zlen W - hl) in *.
  assert (Hhl : 8 <= hl <= 11) by (unfold hl; lia).
  set (body := pre ++ rev W ++ rep 0xFF padn ++ trailer (zlen W) hl ex).
  assert (Hd : data = body ++ tail) by (unfold data, body; rewrite <- !app_assoc; reflexivity).
  pose proof (zlen_nonneg tail). pose proof (zlen_nonneg pre). pose proof (zlen_nonneg W).
  assert (HLt : zlen (trailer (zlen W) hl ex) = 8) by (unfold trailer; zl).
  assert (HLb : zlen body = zlen pre + zlen W + hl) by (unfold body; rewrite !zlen_app, zlen_rev, zlen_rep, HLt by lia; unfold hl; lia).
  assert (HLd : zlen data = zlen body + zlen tail) by (rewrite Hd, zlen_app; reflexivity).
  assert (EA : (if zlen tail =? 0 then [] else slice_from data (- zlen tail)) = tail).
  { destruct (Z.eqb_spec (zlen tail) 0) as [E|E]; [apply zlen_0 in E; congruence|].
    unfold slice_from, slice. rewrite HLd. unfold clamp. destruct (Z.ltb_spec (- zlen tail) 0); [|lia].
    destruct (Z.ltb_spec (zlen body + zlen tail) 0); [lia|]. rewrite Z.max_r, Z.min_id by lia.
    rewrite Hd, skipn_app_exact by (unfold zlen in *; lia). apply firstn_all2. unfold zlen in *; lia. }
  assert (EB : (if zlen tail =? 0 then data else slice_to data (- zlen tail)) = body).
  { destruct (Z.eqb_spec (zlen tail) 0) as [E|E]; [apply zlen_0 in E; rewrite Hd, E, app_nil_r; reflexivity|].
    unfold slice_to, slice. rewrite HLd. rewrite (clamp_id _ 0) by lia. unfold clamp. destruct (Z.ltb_spec (- zlen tail) 0); [|lia].
    rewrite Z.max_r by lia. rewrite Hd. cbn [Z.to_nat skipn]. change (Z.to_nat 0) with 0%nat. cbn [skipn]. apply firstn_app_exact. unfold zlen in *; lia. }
  cbv zeta. rewrite EA. match goal with |- context [beq (slice_from ?b (-4)) _] => replace b with body by (symmetry; exact EB) end. clear EA EB.
  assert (E4 : slice_from body (-4) = le 4 ex).
  { replace body with ((pre ++ rev W ++ rep 255 padn ++ le 3 (zlen W + hl) ++ [hl]) ++ le 4 ex)
      by (unfold body, trailer; rewrite <- !app_assoc; reflexivity).
    apply slice_from_end; rewrite zlen_le; reflexivity. }
  rewrite E4. replace (beq (le 4 ex) [0; 0; 0; 0]) with false.
  2:{ symmetry. apply beq_neq. intros E. apply le4_zero in E; unfold ex in *; lia. }
  assert (W24 : 0 <= zlen W + hl < 2 ^ 24) by (unfold ex, hl in *; lia).
  assert (U1 : unpack_u 4 body (zlen body - 8) = Ok (zlen W + hl + 2 ^ 24 * hl)).
  { assert (LL : zlen body - 8 = zlen (pre ++ rev W ++ rep 255 padn)) by (rewrite HLb, !zlen_app, zlen_rev, zlen_rep by lia; unfold hl; lia).
    rewrite LL. replace body with ((pre ++ rev W ++ rep 255 padn) ++ trailer (zlen W) hl ex) by (unfold body; rewrite <- !app_assoc; reflexivity).
    rewrite unpack_u_skip by lia. rewrite Z.sub_diag.
    unfold trailer. replace (le 3 (zlen W + hl) ++ [hl] ++ le 4 ex) with (le 4 (zlen W + hl + 2 ^ 24 * hl) ++ le 4 ex).
    - apply unpack_u_hit; [reflexivity|]. change (256 ^ Z.of_nat 4) with (2 ^ 32). unfold hl in *; lia.
    - rewrite le4_split by assumption. rewrite Z.mod_small by (unfold hl; lia). rewrite <- !app_assoc. reflexivity. }
  assert (U2 : unpack_u 4 body (zlen body - 8 + 4) = Ok ex).
  { assert (LL : zlen body - 8 + 4 = zlen (pre ++ rev W ++ rep 255 padn ++ le 3 (zlen W + hl) ++ [hl]))
      by (rewrite HLb, !zlen_app, zlen_rev, zlen_rep, zlen_le, zlen_cons by lia; change (zlen (@nil Z)) with 0; unfold hl; lia).
    rewrite LL. replace body with ((pre ++ rev W ++ rep 255 padn ++ le 3 (zlen W + hl) ++ [hl]) ++ le 4 ex) by (unfold body, trailer; rewrite <- !app_assoc; reflexivity).
    rewrite unpack_u_skip by lia. rewrite Z.sub_diag.
    apply unpack_u_hit_all; [reflexivity|]. change (256 ^ Z.of_nat 4) with (2 ^ 32). unfold ex; lia. }
  rewrite U1, U2. cbn [bind].
  rewrite Z.shiftr_div_pow2, land_ffffff by lia.
  replace ((zlen W + hl + 2 ^ 24 * hl) / 2 ^ 24) with hl by lia. replace ((zlen W + hl + 2 ^ 24 * hl) mod 2 ^ 24) with (zlen W + hl) by lia.
  destruct (Z.ltb_spec (zlen body) hl); [lia|]. destruct (Z.ltb_spec (zlen body) (zlen W + hl)); [lia|].
  assert (EP : slice body (- hl) (-8) = rep 0xFF padn).
  { unfold slice, clamp. destruct (Z.ltb_spec (- hl) 0); [|unfold hl in *; lia]. change (-8 <? 0) with true. cbv iota.
    rewrite !Z.max_r by (unfold hl in *; lia).
    replace body with ((pre ++ rev W) ++ rep 255 padn ++ trailer (zlen W) hl ex) by (unfold body; rewrite <- !app_assoc; reflexivity).
    rewrite skipn_app_exact. 2:{ assert (zlen (pre ++ rev W) = zlen pre + zlen W) by zl. rewrite !zlen_app, HLt, zlen_rev, zlen_rep by lia. unfold hl, zlen in *. lia. }
    apply firstn_app_exact. rewrite !zlen_app, HLt, zlen_rev, zlen_rep by lia. unfold rep. rewrite repeat_length. unfold hl. lia. }
  rewrite EP.
  replace (forallb (fun b => b =? 255) (rep 255 padn)) with true.
  2:{ symmetry. apply forallb_forall. intros x Hx. unfold rep in Hx. apply repeat_spec in Hx. subst. reflexivity. }
  cbn [negb].
  replace (if zlen body <=? zlen W + hl then zlen body else zlen W + hl) with (zlen W + hl) by (destruct (Z.leb_spec (zlen body) (zlen W + hl)); lia).
  replace (zlen body - (zlen W + hl)) with (zlen pre) by lia.
  replace (zlen pre + (zlen W + hl) - hl) with (zlen pre + zlen W) by lia.
  replace (zlen body + ex - zlen pre) with (zlen tgt) by (unfold ex; lia).
  assert (EC : slice body (zlen pre) (zlen pre + zlen W) = rev W).
  { unfold body. apply slice_mid; [reflexivity|]. rewrite zlen_rev. reflexivity. }
  assert (ET : slice_to body (zlen pre) = pre).
  { unfold slice_to, body. apply slice_hit; reflexivity. }
  rewrite EC, ET, rev_length.
  erewrite (run_all tgt W (zlen body) (zlen W + hl)); [cbn [bind]; reflexivity| | | | | | |]; try eassumption.
  - unfold hl in *; lia.
  - constructor; cbn [readBytes outSize mask decomp]; try reflexivity. rewrite part_0. unfold zeros, rep.
    clear. induction (Z.to_nat (zlen tgt)) as [|n IH]; [reflexivity|]. cbn [repeat rev]. rewrite <- IH.
    clear. induction n as [|n IH]; [reflexivity|]. cbn [repeat app]. rewrite <- IH. reflexivity.
Qed.

(** ** shape of [_compress]'s output *)
Lemma firstn_rev_ {A} (l : list A) n : firstn n (rev l) = rev (skipn (length l - n) l).
Proof. apply firstn_rev. Qed.

Lemma blocks_shape_split bs1 b bs2 : blocks_shape (bs1 ++ b :: bs2) -> Forall (fun b => zlen b = 8) bs1 /\ zlen b <= 8.
Proof.
  induction bs1 as [|x bs1 IH]; cbn [app]; intros H.
  - split; [constructor|]. destruct bs2; cbn in H; lia.
  - cbn [blocks_shape] in H. destruct (bs1 ++ b :: bs2) eqn:E; [destruct bs1; discriminate|]. destruct H as [H1 H2].
    destruct (IH H2). split; [constructor; assumption|assumption].
Qed.

Lemma code_stream_app a b : stream_bytes code_params (a ++ b) = stream_bytes code_params a ++ stream_bytes code_params b.
Proof. unfold stream_bytes. rewrite map_app, concat_app. reflexivity. Qed.

(** the data ends in a compressed part: [c] bytes of plain text became [W] *)
Definition comp_shape (data pre W tgt : bytes) : Prop :=
  data = pre ++ rev tgt /\
  exists bs1 ts1 ts2, W = stream_bytes code_params bs1 ++ [flag_byte 128 (ts1 ++ ts2)] ++ toks_bytes 3 ts1 /\
    Forall (fun b => zlen b = 8) bs1 /\ zlen (ts1 ++ ts2) <= 8 /\ ts1 <> [] /\
    toksd tgt 0 (concat bs1 ++ ts1) (zlen tgt).

Lemma toks_mono p data ts : forall c c', maxMatchLen p = 18 -> toks_ok p data c ts c' -> 0 <= c -> c <= zlen data -> c <= c' <= zlen data.
Proof.
  induction ts as [|t ts IH]; intros c c' HM H Hc Hc2; inversion H as [|? ? ? ? Ht Hr]; subst; [lia|].
  assert (1 <= tok_len t /\ c + tok_len t <= zlen data).
  { destruct t; cbn [tok_ok tok_len] in *; [destruct Ht as [Ht _]; apply get_ok_range in Ht; lia|lia]. }
  specialize (IH _ _ HM Hr ltac:(lia) ltac:(lia)). lia.
Qed.

Lemma cut_slices data bs c r bs1 ts1 ts2 bs2 :
  bs = bs1 ++ (ts1 ++ ts2) :: bs2 ->
  toks_ok code_params (rev data) 0 (concat bs1 ++ ts1) c ->
  r = zlen (stream_bytes code_params bs1) + 1 + zlen (toks_bytes 3 ts1) ->
  blocks_shape bs -> ts1 <> [] ->
  exists pre W tgt, comp_shape data pre W tgt /\ zlen W = r /\ zlen tgt = c /\ zlen pre = zlen data - c /\
    slice_to data (zlen data - c) = pre /\
    slice_from (rev (stream_bytes code_params bs)) (zlen (stream_bytes code_params bs) - r) = rev W.
Proof.
  intros Hbs Ht Hr Hsh Hne.
  pose proof (toks_mono code_params _ _ _ _ eq_refl Ht (Z.le_refl 0) (zlen_nonneg _)) as Hc. rewrite zlen_rev in Hc.
  set (W := stream_bytes code_params bs1 ++ [flag_byte 128 (ts1 ++ ts2)] ++ toks_bytes 3 ts1).
  assert (HWl : zlen W = r) by (unfold W; rewrite !zlen_app, zlen_cons; change (zlen (@nil Z)) with 0; lia).
  assert (HS : exists rest, stream_bytes code_params bs = W ++ rest).
  { exists (toks_bytes 3 ts2 ++ stream_bytes code_params bs2). rewrite Hbs, code_stream_app.
    unfold W. unfold stream_bytes at 2. cbn [map concat]. unfold block_bytes at 1. cbn [zerosAtEnd code_params posSubtract].
    rewrite app_nil_r, toks_bytes_app. unfold stream_bytes. rewrite <- ?app_assoc. cbn [app]. rewrite <- ?app_assoc. reflexivity. }
  destruct HS as (rest & HS).
  exists (firstn (Z.to_nat (zlen data - c)) data), W, (firstn (Z.to_nat c) (rev data)).
  assert (HT : zlen (firstn (Z.to_nat c) (rev data)) = c) by (rewrite zlen_firstn, zlen_rev; lia).
  assert (HD : data = firstn (Z.to_nat (zlen data - c)) data ++ rev (firstn (Z.to_nat c) (rev data))).
  { rewrite firstn_rev, rev_involutive. replace (length data - Z.to_nat c)%nat with (Z.to_nat (zlen data - c)) by (unfold zlen in *; lia).
    symmetry. apply firstn_skipn. }
  split; [|split; [assumption|split; [assumption|split; [|split]]]].
  - split; [assumption|]. exists bs1, ts1, ts2.
    destruct (blocks_shape_split bs1 (ts1 ++ ts2) bs2) as [F1 F2]; [rewrite <- Hbs; assumption|].
    split; [reflexivity|]. split; [assumption|]. split; [assumption|]. split; [assumption|].
    rewrite HT. eapply (toks_ok_toksd code_params (rev data)); try exact Ht; try reflexivity; rewrite ?zlen_rev; cbn; lia.
  - rewrite zlen_firstn. lia.
  - unfold slice_to. rewrite <- (firstn_skipn (Z.to_nat (zlen data - c)) data) at 1. apply slice_hit; [reflexivity|]. rewrite zlen_firstn. lia.
  - unfold slice_from. rewrite HS. rewrite rev_app_distr, zlen_app, zlen_app, !zlen_rev.
    replace (zlen W + zlen rest) with (zlen rest + zlen W) by lia.
    rewrite <- (app_nil_r (rev rest ++ rev W)), <- app_assoc. apply slice_mid; rewrite ?zlen_rev; lia.
Qed.

Lemma blocks_last (bs : list (list token)) : bs <> [] -> exists bs1 b, bs = bs1 ++ [b].
Proof. intros H. destruct (exists_last H) as (l & a & ->). eauto. Qed.

Lemma zlen_pos {A} (l : list A) : l <> [] -> 1 <= zlen l.
Proof. destruct l; [congruence|]. intros _. rewrite zlen_cons. pose proof (zlen_nonneg l). lia. Qed.

(** the stored branch *)
Definition stored (data : bytes) : bytes := pad_to 4 0 data ++ [0; 0; 0; 0].

(** every outcome of [_compress] *)
Lemma code_body_cases data :
  code_compress_body data = Ok (stored data) \/
  (exists pre W tgt padn, comp_shape data pre W tgt /\ 0 <= padn <= 3 /\ (zlen pre + zlen W + padn) mod 4 = 0 /\
     let hl := 8 + padn in
     let ex := zlen tgt - zlen W - hl in
     (0 <= ex -> zlen data < 2 ^ 24 ->
       code_compress_body data = Ok (pre ++ rev W ++ rep 0xFF padn ++ trailer (zlen W) hl ex)) /\
     (ex < 0 -> code_compress_body data = Err StructError)) \/
  (code_compress_body data = Err StructError).
Proof.
  unfold code_compress_body.
  destruct (lz_compress_spec code_params code_params_ok (rev data)) as (bs & ignD & ignC & E & Ht & Hs & Hb).
  rewrite E. cbn [bind]. set (fwd := stream_bytes code_params bs) in *. rewrite zlen_rev in *.
  destruct ((zlen fwd =? 0) || _) eqn:EB; [left; reflexivity|right].
  apply orb_false_iff in EB as [EB1 _]. apply Z.eqb_neq in EB1.
  assert (Hbs : bs <> []) by (intros ->; apply EB1; reflexivity).
  (* the cut *)
  assert (CUT : (exists pre W tgt, comp_shape data pre W tgt /\ zlen pre = ignD /\ zlen W = zlen fwd - ignC /\
      slice_to data ignD = pre /\ slice_from (rev fwd) ignC = rev W) \/ (ignD = zlen data /\ ignC = zlen fwd)).
  { assert (A : forall c r bs1 ts1 ts2 bs2, ignD = zlen data - c -> ignC = zlen fwd - r ->
       bs = bs1 ++ (ts1 ++ ts2) :: bs2 -> ts1 <> [] ->
       toks_ok code_params (rev data) 0 (concat bs1 ++ ts1) c ->
       r = zlen (stream_bytes code_params bs1) + 1 + zlen (toks_bytes 3 ts1) ->
       exists pre W tgt, comp_shape data pre W tgt /\ zlen pre = ignD /\ zlen W = zlen fwd - ignC /\
      slice_to data ignD = pre /\ slice_from (rev fwd) ignC = rev W).
    { intros c r bs1 ts1 ts2 bs2 E1 E2 E3 E4 E5 E6.
      destruct (cut_slices data bs c r bs1 ts1 ts2 bs2 E3 E5 E6 Hs E4) as (pre & W & tgt & H1 & H2 & H3 & H4 & H5 & H6).
      exists pre, W, tgt. subst ignD ignC. fold fwd in H6. split; [assumption|]. split; [assumption|]. split; [lia|]. split; assumption. }
    destruct Hb as [[-> ->]|(c & r & E1 & E2 & _ & _ & B)].
    - left. destruct (blocks_last bs Hbs) as (bs1 & b & Eb).
      assert (Hbl : b <> []).
      { intros ->. destruct (blocks_shape_split bs1 [] []) as [_ L]; [rewrite <- Eb; assumption|].
        clear - Hs Eb. subst bs. induction bs1 as [|x bs1 IH]; cbn [app] in Hs; [cbn in Hs; change (zlen (@nil token)) with 0 in Hs; lia|].
        apply IH. cbn [blocks_shape] in Hs. destruct (bs1 ++ [[]]) eqn:Q; [destruct bs1; discriminate|]. apply Hs. }
      apply (A (zlen data) (zlen fwd) bs1 b [] []); try lia; try assumption.
      + rewrite app_nil_r. assumption.
      + rewrite Eb, concat_app in Ht. cbn [concat] in Ht. rewrite app_nil_r in Ht. assumption.
      + unfold fwd. rewrite Eb, code_stream_app, zlen_app. unfold stream_bytes at 2. cbn [map concat]. rewrite app_nil_r.
        unfold block_bytes. cbn [zerosAtEnd code_params posSubtract]. rewrite app_nil_r, zlen_cons. lia.
    - destruct B as [[-> ->]|[B|B]].
      + right. lia.
      + left. destruct B as (bs1 & ts1 & ts2 & bs2 & E3 & E4 & E5 & E6). apply (A c r bs1 ts1 ts2 bs2); assumption.
      + destruct B as (ts1 & ts2 & E3 & E4 & _). destruct ts1; [congruence|discriminate]. }
  destruct CUT as [(pre & W & tgt & Hsh & HpD & HW & HT & HF)|[-> ->]].
  - left. set (c1 := pre ++ rev W). set (padn := (- zlen c1) mod 4).
    assert (Hpad : 0 <= padn <= 3) by (unfold padn; lia).
    pose proof (zlen_nonneg pre). pose proof (zlen_nonneg W). pose proof (zlen_nonneg tgt).
    assert (HD : zlen data = zlen pre + zlen tgt) by (destruct Hsh as [-> _]; zl).
    exists pre, W, tgt, padn. split; [assumption|]. split; [assumption|]. split; [unfold padn, c1; zl; lia|]. cbv zeta.
    rewrite HT, HF. fold c1.
    assert (Lc : zlen c1 = zlen pre + zlen W) by (unfold c1; zl).
    assert (Lp : zlen (pad_to 4 255 c1) = zlen c1 + padn) by (apply zlen_pad_to; lia).
    rewrite Lp. replace (zlen c1 + padn - zlen c1) with padn by lia.
    replace (zlen data - zlen c1 - (8 + padn)) with (zlen tgt - zlen W - (8 + padn)) by lia.
    replace (zlen fwd - ignC + (8 + padn)) with (zlen W + (8 + padn)) by lia.
    set (ex := zlen tgt - zlen W - (8 + padn)).
    split.
    + intros Hex H24. unfold ex in Hex.
      rewrite pack_u_ok by (change (256 ^ Z.of_nat 4) with (2 ^ 32); lia). cbn [bind].
      change (zeros 8) with (zeros 4 ++ zeros 4).
      rewrite (put_mid (pad_to 4 255 c1) (zeros 4) (zeros 4)) by (rewrite ?Lp, ?zlen_le; reflexivity). cbn [bind].
      replace (le 4 (zlen W + (8 + padn))) with (le 3 (zlen W + (8 + padn)) ++ [0]).
      2:{ replace (zlen W + (8 + padn)) with (zlen W + (8 + padn) + 2 ^ 24 * 0) at 2 by lia. rewrite le4_split by lia. reflexivity. }
      replace (pad_to 4 255 c1 ++ (le 3 (zlen W + (8 + padn)) ++ [0]) ++ zeros 4)
        with ((pad_to 4 255 c1 ++ le 3 (zlen W + (8 + padn))) ++ 0 :: zeros 4) by (rewrite <- !app_assoc; reflexivity).
      rewrite setl_mid by (rewrite zlen_app, Lp, zlen_le; reflexivity). cbn [bind].
      rewrite pack_u_ok by (change (256 ^ Z.of_nat 4) with (2 ^ 32); unfold ex; lia). cbn [bind].
      replace ((pad_to 4 255 c1 ++ le 3 (zlen W + (8 + padn))) ++ (8 + padn) :: zeros 4)
        with ((pad_to 4 255 c1 ++ le 3 (zlen W + (8 + padn)) ++ [8 + padn]) ++ zeros 4 ++ []) by (rewrite app_nil_r, <- !app_assoc; reflexivity).
      rewrite put_mid by (rewrite ?zlen_le, ?zlen_app, ?Lp, ?zlen_le; try reflexivity; rewrite zlen_cons; change (zlen (@nil Z)) with 0; lia).
      rewrite app_nil_r. f_equal. unfold trailer, pad_to, c1. fold padn. rewrite <- !app_assoc. reflexivity.
    + intros Hex. unfold ex in Hex. unfold pack_u at 1, pack_e.
      destruct (_ && _); [|reflexivity]. cbn [bind].
      rewrite <- Lp. 
      match goal with |- context [put ?d ?o ?b] => destruct (put d o b) as [c4|e4] eqn:P1 end.
      2:{ cbn [bind]. f_equal. unfold put, struct_off in P1. destruct (_ <? 0) in P1; [destruct (_ || _) in P1|destruct (_ <? _) in P1]; cbn [bind] in P1; congruence. }
      cbn [bind]. apply put_zlen in P1. rewrite zlen_app in P1. change (zlen (zeros 8)) with 8 in P1.
      unfold setl. destruct (Z.ltb_spec (zlen (pad_to 4 255 c1) + 3) 0); [lia|].
      destruct (Z.ltb_spec (zlen (pad_to 4 255 c1) + 3) 0); [lia|]. cbn [orb].
      destruct (Z.leb_spec (zlen c4) (zlen (pad_to 4 255 c1) + 3)); [lia|]. cbn [bind].
      rewrite pack_u_err by (fold ex in Hex; lia). reflexivity.
  - right. 
    replace (slice_to data (zlen data)) with data by (symmetry; apply slice_all).
    replace (slice_from (rev fwd) (zlen fwd)) with (@nil Z).
    2:{ symmetry. unfold slice_from. rewrite zlen_rev. apply slice_nil. pose proof (zlen_nonneg fwd). lia. }
    rewrite app_nil_r. set (padn := (- zlen data) mod 4). assert (0 <= padn <= 3) by (unfold padn; lia). pose proof (zlen_nonneg data).
    rewrite zlen_pad_to by lia. fold padn. replace (zlen fwd - zlen fwd + (8 + (zlen data + padn - zlen data))) with (8 + padn) by lia.
    rewrite pack_u_ok by (change (256 ^ Z.of_nat 4) with (2 ^ 32); lia). cbn [bind].
    assert (Lp : zlen (pad_to 4 255 data) = zlen data + padn) by (apply zlen_pad_to; lia).
    change (zeros 8) with (zeros 4 ++ zeros 4).
    rewrite (put_mid (pad_to 4 255 data) (zeros 4) (zeros 4)) by (rewrite ?Lp, ?zlen_le; reflexivity). cbn [bind].
    replace (le 4 (8 + padn)) with (le 3 (8 + padn) ++ [0]).
    2:{ replace (8 + padn) with (8 + padn + 2 ^ 24 * 0) at 2 by lia. rewrite le4_split by lia. reflexivity. }
    replace (pad_to 4 255 data ++ (le 3 (8 + padn) ++ [0]) ++ zeros 4)
        with ((pad_to 4 255 data ++ le 3 (8 + padn)) ++ 0 :: zeros 4) by (rewrite <- !app_assoc; reflexivity).
    rewrite setl_mid by (rewrite zlen_app, Lp, zlen_le; reflexivity). cbn [bind].
    rewrite pack_u_err by lia. reflexivity.
Qed.

(** ** round trip *)
Lemma detect_plain body r hl ex :
  0 <= r + hl < 2 ^ 24 -> 8 <= hl < 256 -> 0 <= ex < 2 ^ 32 -> r + hl <= zlen body + 8 ->
  detectAppendedData (body ++ trailer r hl ex) = Ok (Some 0).
Proof.
  intros H1 H2 H3 H4. unfold detectAppendedData. cbn [detect_loop].
  pose proof (detect_one_amt body [] r hl ex H1 H2 H3) as D. rewrite app_nil_r in D. change (zlen (@nil Z)) with 0 in D.
  rewrite D by lia. reflexivity.
Qed.

Lemma trailer_last body r hl ex : slice_from (body ++ trailer r hl ex) (-4) = le 4 ex.
Proof.
  unfold trailer. replace (body ++ le 3 (r + hl) ++ [hl] ++ le 4 ex) with ((body ++ le 3 (r + hl) ++ [hl]) ++ le 4 ex)
    by (rewrite <- !app_assoc; reflexivity). apply slice_from_end; rewrite zlen_le; reflexivity.
Qed.

Lemma slice_split {A} (l : list A) n : 0 <= n -> slice_to l n ++ slice_from l n = l.
Proof.
  intros Hn. pose proof (zlen_nonneg l). destruct (Z.le_gt_cases n (zlen l)).
  - unfold slice_to, slice_from. rewrite slice_app_eq by lia. apply slice_all.
  - unfold slice_to, slice_from. rewrite slice_hit_all by lia.
    unfold slice, clamp. destruct (Z.ltb_spec n 0); [lia|]. destruct (Z.ltb_spec (zlen l) 0); [lia|].
    rewrite !Z.min_r, Z.sub_diag by lia. change (Z.to_nat 0) with 0%nat. cbn [firstn]. apply app_nil_r.
Qed.
Lemma zlen_slice_from {A} (l : list A) n : 0 <= n -> zlen (slice_from l n) <= zlen l.
Proof. intros. pose proof (slice_split l n H) as S. rewrite <- S at 2. rewrite zlen_app. pose proof (zlen_nonneg (slice_to l n)). lia. Qed.

Lemma code_roundtrip_gen P data c tail : zlen data < 2 ^ 24 -> code_compress_body data = Ok c ->
  slice_from (P ++ c) (-4) <> [0; 0; 0; 0] ->
  (tail = [] \/ detectAppendedData (P ++ c ++ tail) = Ok (Some (zlen tail))) ->
  code_decompress (P ++ c ++ tail) = Ok (P ++ data ++ tail).
Proof.
  intros Hl E Hne Htail. destruct (code_body_cases data) as [H|[(pre & W & tgt & padn & Hsh & Hp & Hm & Hok & Herr)|H]].
  - rewrite H in E. exfalso. assert (c = stored data) as -> by congruence. apply Hne. unfold stored. rewrite app_assoc.
    apply slice_from_end; reflexivity.
  - cbv zeta in Hok, Herr. set (ex := zlen tgt - zlen W - (8 + padn)) in *.
    destruct (Z.lt_ge_cases ex 0) as [Hex|Hex]; [rewrite Herr in E by assumption; discriminate|].
    rewrite (Hok Hex Hl) in E. set (body := pre ++ rev W ++ rep 255 padn).
    assert (c = body ++ trailer (zlen W) (8 + padn) ex) as -> by (unfold body; rewrite <- !app_assoc; congruence).
    rewrite app_assoc, trailer_last in Hne.
    assert (Hex' : 0 < ex) by (destruct (Z.eq_dec ex 0) as [E0|]; [rewrite E0 in Hne; exfalso; apply Hne; reflexivity|lia]).
    destruct Hsh as [HD (bs1 & ts1 & ts2 & H1 & H2 & H3 & H4 & H5)].
    assert (HDl : zlen data = zlen pre + zlen tgt) by (rewrite HD; zl). pose proof (zlen_nonneg pre). pose proof (zlen_nonneg W).
    pose proof (zlen_nonneg P).
    pose proof (code_decompress_shape (P ++ pre) W tgt bs1 ts1 ts2 padn tail H1 H2 H3 H4 H5 Hp ltac:(fold ex; unfold ex; lia) ltac:(lia)) as R.
    cbv zeta in R. fold ex in R.
    replace ((P ++ pre) ++ rev W ++ rep 255 padn ++ trailer (zlen W) (8 + padn) ex ++ tail)
      with (P ++ (body ++ trailer (zlen W) (8 + padn) ex) ++ tail) in R by (unfold body; rewrite <- !app_assoc; reflexivity).
    rewrite R.
    + rewrite HD, <- !app_assoc. reflexivity.
    + destruct Htail as [->|Htail]; [|assumption]. rewrite app_nil_r, app_assoc. apply detect_plain; unfold ex in *; try lia.
      unfold body. rewrite !zlen_app, zlen_rev, zlen_rep by lia. lia.
  - congruence.
Qed.

Lemma code_roundtrip data isArm9 c tail : zlen data < 2 ^ 24 -> code_compress data isArm9 = Ok c ->
  slice_from c (-4) <> [0; 0; 0; 0] ->
  (tail = [] \/ detectAppendedData (c ++ tail) = Ok (Some (zlen tail))) ->
  code_decompress (c ++ tail) = Ok (data ++ tail).
Proof.
  intros Hl E Hne Ht. unfold code_compress in E. destruct isArm9.
  - apply bind_ok in E as (c0 & E0 & E1). assert (c = slice_to data 0x4000 ++ c0) as -> by congruence.
    rewrite <- app_assoc. rewrite <- app_assoc in Ht.
    rewrite (code_roundtrip_gen (slice_to data 0x4000) (slice_from data 0x4000) c0 tail); try assumption.
    + rewrite app_assoc, slice_split by lia. reflexivity.
    + pose proof (zlen_slice_from data 0x4000 ltac:(lia)). lia.
  - apply (code_roundtrip_gen [] data c tail); assumption.
Qed.

Lemma code_compress_errors data isArm9 e : zlen data < 2 ^ 24 -> code_compress data isArm9 = Err e -> e = StructError.
Proof.
  intros Hl. assert (A : forall d, zlen d < 2 ^ 24 -> code_compress_body d = Err e -> e = StructError).
  { intros d Hd H. destruct (code_body_cases d) as [B|[(pre & W & tgt & padn & _ & _ & _ & Hok & Herr)|B]]; [congruence| |congruence].
    cbv zeta in *. destruct (Z.lt_ge_cases (zlen tgt - zlen W - (8 + padn)) 0) as [L|L]; [rewrite Herr in H by assumption; congruence|].
    rewrite Hok in H by assumption. discriminate. }
  unfold code_compress. destruct isArm9; [|apply A; assumption]. pose proof (zlen_slice_from data 0x4000 ltac:(lia)).
  destruct (code_compress_body (slice_from data 16384)) eqn:E; cbn [bind]; [discriminate|]. intros [= ->]. eapply A; [|exact E]. lia.
Qed.

(** ** incompressible data *)
Lemma slice_rev {A} (l : list A) i j : 0 <= i <= j -> j <= zlen l -> slice (rev l) i j = rev (slice l (zlen l - j) (zlen l - i)).
Proof.
  intros H1 H2. unfold slice. rewrite zlen_rev, !clamp_id by lia.
  rewrite skipn_rev, firstn_rev, <- ?firstn_skipn_comm. rewrite firstn_length.
  rewrite skipn_firstn_comm.
  replace (Nat.min (length l - Z.to_nat i) (length l) - Z.to_nat (j - i))%nat with (Z.to_nat (zlen l - j)) by (unfold zlen in *; lia).
  f_equal. f_equal. unfold zlen in *; lia.
Qed.

Lemma all_lit_bytes p data ts : forall c c', toks_ok p data c ts c' -> Forall (fun t => is_ref t = false) ts ->
  zlen (toks_bytes (posSubtract p) ts) = c' - c.
Proof.
  induction ts as [|t ts IH]; intros c c' H F; inversion H as [|? ? ? ? Ht Hr]; subst.
  - change (zlen (toks_bytes (posSubtract p) [])) with 0. lia.
  - inversion F; subst. destruct t; [|discriminate]. specialize (IH _ _ Hr ltac:(assumption)).
    unfold toks_bytes in *. cbn [map concat tok_bytes]. rewrite zlen_app, zlen_cons. change (zlen (@nil Z)) with 0. cbn [tok_len] in IH. lia.
Qed.

Definition no_repeat (data : bytes) : Prop :=
  forall i j, 0 <= i -> i + 3 <= j -> j + 3 <= zlen data -> slice data i (i + 3) <> slice data j (j + 3).

Lemma no_repeat_lits data ts : forall c c', no_repeat data -> 0 <= c -> toks_ok code_params (rev data) c ts c' ->
  Forall (fun t => is_ref t = false) ts.
Proof.
  induction ts as [|t ts IH]; intros c c' N Hc H; inversion H as [|? ? ? ? Ht Hr]; subst; constructor.
  - destruct t as [b|l d]; [reflexivity|]. exfalso. cbn [tok_ok] in Ht. destruct Ht as (H1 & H2 & H3 & H4 & H5 & _).
    rewrite zlen_rev in H4.
    assert (E : slice (rev data) (c - d) (c - d + 3) = slice (rev data) c (c + 3)).
    { rewrite (slice_prefix (rev data) (c - d) 3 l), (slice_prefix (rev data) c 3 l) by lia. rewrite H5. reflexivity. }
    rewrite !slice_rev in E by lia. apply (f_equal (@rev Z)) in E. rewrite !rev_involutive in E.
    apply (N (zlen data - (c + 3)) (zlen data - (c - d + 3))); try lia.
    replace (zlen data - (c + 3) + 3) with (zlen data - c) by lia. replace (zlen data - (c - d + 3) + 3) with (zlen data - (c - d)) by lia.
    symmetry. exact E.
  - apply (IH _ _ N) in Hr; [assumption|]. pose proof (tok_len_pos _ _ _ _ code_params_ok Ht). lia.
Qed.

Lemma stream_all_lits bs : zlen (stream_bytes code_params bs) = Z.of_nat (length bs) + zlen (toks_bytes 3 (concat bs)).
Proof.
  induction bs as [|b bs IH]; [reflexivity|]. unfold stream_bytes in *. cbn [map concat length]. rewrite zlen_app, toks_bytes_app, zlen_app, IH.
  unfold block_bytes. cbn [zerosAtEnd code_params posSubtract]. rewrite app_nil_r, zlen_cons. lia.
Qed.

Lemma land_m5 x : x - 4 <= Z.land x (-5) <= x.
Proof.
  assert (E : x = Z.land x 4 + Z.land x (-5)).
  { assert (D : Z.land (Z.land x 4) (Z.land x (-5)) = 0).
    { apply Z.bits_inj'. intros n Hn. rewrite !Z.land_spec, Z.bits_0.
      assert (F : Z.testbit (Z.land (-5) 4) n = false) by (change (Z.land (-5) 4) with 0; apply Z.bits_0).
      rewrite Z.land_spec in F. destruct (Z.testbit x n), (Z.testbit (-5) n), (Z.testbit 4 n); cbn in *; congruence. }
    rewrite Z.add_nocarry_lxor by exact D. rewrite Z.lxor_lor by exact D.
    rewrite <- Z.land_lor_distr_r. change (Z.lor 4 (-5)) with (-1). rewrite Z.land_m1_r. reflexivity. }
  assert (B : 0 <= Z.land x 4 <= 4).
  { change 4 with (2 ^ 2) at 1 2. pose proof (land_pow2_eqb x 2 ltac:(lia)) as L. change (2 ^ 2) with 4 in *.
    assert (Z.land x 4 = 0 \/ Z.land x 4 = 4).
    { destruct (Z.testbit x 2) eqn:T; [right|left].
      - apply Z.bits_inj'. intros n Hn. rewrite Z.land_spec. change 4 with (2 ^ 2). rewrite Z.pow2_bits_eqb by lia.
        destruct (Z.eqb_spec 2 n) as [<-|]; [rewrite T; reflexivity|apply andb_false_r].
      - apply negb_false_iff, Z.eqb_eq in L. assumption. }
    lia. }
  lia.
Qed.

Lemma code_stored data : no_repeat data -> code_compress_body data = Ok (stored data).
Proof.
  intros N. unfold code_compress_body.
  destruct (lz_compress_spec code_params code_params_ok (rev data)) as (bs & ignD & ignC & E & Ht & Hs & _).
  rewrite E. cbn [bind]. rewrite !zlen_rev in *.
  pose proof (no_repeat_lits data _ _ _ N (Z.le_refl 0) Ht) as F. apply (all_lit_bytes _ _ _ _ _ Ht) in F. cbn [posSubtract code_params] in F.
  pose proof (stream_all_lits bs) as S. rewrite F in S.
  pose proof (land_m5 (zlen (stream_bytes code_params bs) + 3)).
  replace ((zlen (stream_bytes code_params bs) =? 0) || _) with true; [reflexivity|].
  symmetry. apply orb_true_iff. right. apply Z.ltb_lt. lia.
Qed.

(** ** decoder safety *)
Definition cdec_err (e : exc) : Prop := e = RuntimeError \/ e = IndexError.

Lemma code_copy_safe n : forall dd w o,
  match code_copy n dd w o with
  | Ok (dd', o') => zlen dd' = zlen dd /\ o' = o + Z.of_nat n
  | Err e => e = IndexError
  end.
Proof.
  induction n as [|n IH]; intros dd w o; cbn [code_copy]; [split; [reflexivity|lia]|].
  destruct (get dd (-1 - w)) as [x|e] eqn:E; cbn [bind]; [|eapply get_err; eassumption].
  destruct (setl dd (-1 - o) x) as [dd'|e] eqn:E2; cbn [bind]; [|eapply setl_err; eassumption].
  apply setl_ok in E2 as [E2 _]. specialize (IH dd' (w + 1) (o + 1)). destruct (code_copy n dd' (w + 1) (o + 1)) as [[d o']|e']; [|assumption].
  destruct IH as [I1 I2]. split; lia.
Qed.

Lemma code_iter_safe dl cl cd s : 0 <= readBytes s ->
  match code_iter dl cl cd s with
  | Ok s' => readBytes s < zlen cd /\ readBytes s < readBytes s' /\ zlen (decomp s') = zlen (decomp s)
  | Err e => cdec_err e
  end.
Proof.
  intros Hr. unfold code_iter.
  set (m := if mask s =? 1 then _ else _).
  assert (M : match m with
              | Ok s1 => readBytes s <= readBytes s1 /\ decomp s1 = decomp s
              | Err e => cdec_err e end).
  { unfold m. destruct (mask s =? 1); [|cbn; split; [lia|reflexivity]].
    destruct (cl <=? readBytes s); [left; reflexivity|].
    destruct (get cd (-1 - readBytes s)) as [f|e] eqn:E; cbn [bind].
    - cbn; split; [lia|reflexivity].
    - right. eapply get_err; eassumption. }
  destruct m as [s1|e]; cbn [bind]; [|exact M]. destruct M as [M1 M2].
  assert (G : forall k x, 0 <= k -> get cd (-1 - k) = Ok x -> k < zlen cd).
  { intros k x Hk. unfold get. destruct (Z.ltb_spec (-1 - k) 0); [|lia]. destruct (Z.ltb_spec (-1 - k + zlen cd) 0); [discriminate|]. intros; lia. }
  destruct (negb _).
  - destruct (dl <=? readBytes s1 + 1); [left; reflexivity|].
    destruct (get cd (-1 - readBytes s1)) as [b1|e] eqn:E1; cbn [bind]; [|right; eapply get_err; eassumption].
    destruct (get cd (-1 - (readBytes s1 + 1))) as [b2|e] eqn:E2; cbn [bind]; [|right; eapply get_err; eassumption].
    pose proof (G (readBytes s1 + 1) b2 ltac:(lia) E2).
    match goal with |- context [bind ?d _] => set (disp := d) end.
    assert (D : match disp with Ok _ => True | Err e => cdec_err e end).
    { unfold disp. destruct (_ <? _); [|exact I]. destruct (_ <? 2); [left; reflexivity|exact I]. }
    destruct disp as [d|e]; cbn [bind]; [|exact D].
    match goal with |- context [code_copy ?n ?dd ?w ?o] => pose proof (code_copy_safe n dd w o) as C; destruct (code_copy n dd w o) as [[dd' o']|e] end.
    + cbn [bind readBytes decomp]. destruct C as [C1 C2]. rewrite <- M2. split; [lia|]. split; [lia|assumption].
    + cbn [bind]. right. assumption.
  - destruct (dl <? readBytes s1); [left; reflexivity|].
    destruct (get cd (-1 - readBytes s1)) as [x|e] eqn:E1; cbn [bind]; [|right; eapply get_err; eassumption].
    pose proof (G (readBytes s1) x ltac:(lia) E1).
    destruct (setl (decomp s1) (-1 - outSize s1) x) as [dd|e] eqn:E2; cbn [bind]; [|right; eapply setl_err; eassumption].
    apply setl_ok in E2 as [E2 _]. cbn [readBytes decomp]. rewrite <- M2. split; [lia|]. split; [lia|assumption].
Qed.

Lemma code_loop_safe fuel : forall dl cl n cd s, 0 <= readBytes s -> (1 <= fuel)%nat -> zlen cd - readBytes s + 1 <= Z.of_nat fuel ->
  match code_loop fuel dl cl n cd s with
  | Ok o => zlen o = zlen (decomp s)
  | Err e => cdec_err e
  end.
Proof.
  induction fuel as [|k IH]; intros dl cl n cd s Hr Hf1 Hf; [lia|]. cbn [code_loop].
  destruct (_ <? _); [|reflexivity].
  pose proof (code_iter_safe dl cl cd s Hr) as S. destruct (code_iter dl cl cd s) as [s'|e]; cbn [bind]; [|exact S].
  destruct S as (S1 & S2 & S3). rewrite <- S3. apply IH; lia.
Qed.

Lemma detect_loop_spec data amts : (forall a, In a amts -> 0 <= a) ->
  match detect_loop data amts with
  | Ok (Some a) => In a amts /\ 8 + a <= zlen data
  | Ok None => True
  | Err e => e = StructError
  end.
Proof.
  intros HA. induction amts as [|a amts IH]; cbn [detect_loop]; [exact I|].
  pose proof (HA a (or_introl eq_refl)) as Ha. specialize (IH (fun x Hx => HA x (or_intror Hx))).
  assert (D : match detect_one data a with
              | Ok (Some (Some x)) => x = a /\ 0 <= zlen data - a - 8 \/ (x = a /\ zlen data - a - 8 < 0 /\ 8 + a <= zlen data)
              | Ok _ => True | Err e => e = StructError end).
  { unfold detect_one. destruct (get data (-5 - a)) eqn:G; [|exact I].
    destruct (unpack_u 4 data (zlen data - a - 8)) as [v|e] eqn:U; cbn [bind]; [|eapply unpack_err; exact U].
    destruct (unpack_u 4 data (zlen data - a - 8 + 4)) as [v2|e] eqn:U2; cbn [bind]; [|eapply unpack_err; exact U2].
    destruct (_ <? 8); [exact I|]. destruct (_ <? _); [exact I|]. 
    left. split; [reflexivity|].
    unfold get in G. destruct (Z.ltb_spec (-5 - a) 0).
    - destruct (Z.ltb_spec (-5 - a + zlen data) 0); [discriminate|].
      destruct (Z.lt_ge_cases (zlen data - a - 8) 0); [|lia]. exfalso.
      unfold unpack_u, unpack_e, rd, struct_off in U.
      destruct (Z.ltb_spec (zlen data - a - 8) 0); [|lia]. change (Z.of_nat 4) with 4 in *.
      destruct (Z.ltb_spec 0 (zlen data - a - 8 + 4)); [cbn in U; discriminate|].
      lia.
    - lia. }
  destruct (detect_one data a) as [[[x|]|]|e]; cbn [bind]; try exact D.
  - split; [left|]; lia.
  - destruct (detect_loop data amts) as [[y|]|e]; try exact IH. destruct IH; split; [right; assumption|assumption].
Qed.

Lemma code_decompress_safe data :
  is_bytes data ->
  match code_decompress data with
  | Ok o => o = data \/
      exists amt ex, In amt [0; 4; 8; 12; 16; 20; 24; 28] /\ 8 + amt <= zlen data /\
        unpack_u 4 data (zlen data - amt - 4) = Ok ex /\
        ((ex = 0 /\ o = slice_to data (zlen data - amt)) \/ (0 < ex /\ zlen o = zlen data + ex))
  | Err e => e = StructError \/ e = ValueError \/ e = RuntimeError \/ e = IndexError
  end.
Proof.
  intros Hb. unfold code_decompress, detectAppendedData. pose proof (detect_loop_spec data [0; 4; 8; 12; 16; 20; 24; 28] ltac:(intros a Ha; cbn in Ha; lia)) as D.
  destruct (detect_loop data _) as [[amt|]|e]; cbn [bind]; [|left; reflexivity|left; assumption].
  destruct D as [DI DL].
  assert (Ha : 0 <= amt) by (cbn in DI; lia).
  set (tail := slice_from data (zlen data - amt)). set (body := slice_to data (zlen data - amt)).
  assert (HD : data = body ++ tail) by (symmetry; apply slice_split; lia).
  assert (HLb : zlen body = zlen data - amt) by (unfold body, slice_to; rewrite zlen_slice; lia).
  assert (HLt : zlen tail = amt) by (assert (zlen data = zlen body + zlen tail) by (rewrite HD at 1; apply zlen_app); lia).
  cbv zeta.
  match goal with |- context [beq (slice_from ?b (-4)) _] => replace b with body end.
  2:{ destruct (Z.eqb_spec amt 0) as [->|]; [unfold body; rewrite Z.sub_0_r; apply slice_all|].
      rewrite HD. symmetry. apply slice_to_end; lia. }
  match goal with |- context [ _ ++ _ ++ ?t ] => replace t with tail end.
  2:{ destruct (Z.eqb_spec amt 0) as [E|]; [apply zlen_0; lia|]. rewrite HD. symmetry. apply slice_from_end; lia. }
  (* the size field *)
  assert (HB : is_bytes body) by (apply is_bytes_slice; assumption).
  set (pre := slice_to body (zlen body - 4)). set (w := slice_from body (zlen body - 4)).
  assert (HBs : body = pre ++ w) by (symmetry; apply slice_split; lia).
  assert (HLw : zlen w = 4) by (unfold w, slice_from; rewrite zlen_slice; lia).
  assert (HLp : zlen pre = zlen body - 4) by (rewrite HBs at 1; rewrite zlen_app; lia).
  assert (Hw : is_bytes w) by (apply is_bytes_slice; assumption).
  assert (EW : slice_from body (-4) = w) by (rewrite HBs; apply slice_from_end; lia).
  assert (EU : unpack_u 4 body (zlen body - 8 + 4) = Ok (unle w)).
  { replace (zlen body - 8 + 4) with (zlen pre) by lia. rewrite HBs. rewrite unpack_u_skip by lia. rewrite Z.sub_diag.
    unfold unpack_u, unpack_e. rewrite rd_hit_all by (try reflexivity; assumption). reflexivity. }
  assert (EU2 : unpack_u 4 data (zlen data - amt - 4) = Ok (unle w)).
  { rewrite HD at 1. rewrite unpack_u_app_l by (change (Z.of_nat 4) with 4; lia). replace (zlen data - amt - 4) with (zlen body - 8 + 4) by lia. assumption. }
  pose proof (unle_range w Hw) as HR. rewrite HLw in HR.
  rewrite EW. destruct (beq w [0; 0; 0; 0]) eqn:EQ.
  { right. exists amt, 0. apply beq_eq in EQ. split; [assumption|]. split; [assumption|]. split; [rewrite EU2, EQ; reflexivity|]. left. split; reflexivity. }
  assert (Hpos : 0 < unle w).
  { assert (unle w <> 0); [|lia]. intros Z0. apply beq_neq in EQ. apply EQ. rewrite <- (le_unle_n 4 w Hw) by (unfold zlen in HLw; lia). rewrite Z0. reflexivity. }
  destruct (unpack_u 4 body (zlen body - 8)) as [clhl|e] eqn:U; cbn [bind]; [|left; eapply unpack_err; exact U].
  rewrite EU. cbn [bind].
  assert (HC : 0 <= Z.land clhl 0xFFFFFF) by (rewrite land_ffffff; lia).
  destruct (Z.ltb_spec (zlen body) (Z.shiftr clhl 24)); [right; left; reflexivity|].
  destruct (Z.ltb_spec (zlen body) (Z.land clhl 16777215)); [right; left; reflexivity|].
  destruct (negb _); [right; left; reflexivity|].
  replace (if zlen body <=? Z.land clhl 16777215 then zlen body else Z.land clhl 16777215) with (Z.land clhl 16777215)
    by (destruct (Z.leb_spec (zlen body) (Z.land clhl 16777215)); lia).
  set (cl := Z.land clhl 16777215) in *.
  match goal with |- context [code_loop (S (length ?cd)) ?dl ?c ?n ?cd ?s] =>
    pose proof (code_loop_safe (S (length cd)) dl c n cd s ltac:(cbn; lia) ltac:(lia) ltac:(cbn [readBytes]; unfold zlen; lia)) as L;
    destruct (code_loop (S (length cd)) dl c n cd s) as [o|e] end; cbn [bind].
  - right. exists amt, (unle w). split; [assumption|]. split; [assumption|]. split; [assumption|]. right. split; [assumption|].
    cbn [decomp] in L. unfold zeros in L. rewrite zlen_rep in L by lia. rewrite !zlen_app, L, HLt. unfold slice_to. rewrite zlen_slice by lia. lia.
  - right; right. destruct L; [left|right]; assumption.
Qed.

Lemma code_outcomes data c : zlen data < 2 ^ 24 -> code_compress data false = Ok c ->
  c = data ++ rep 0 ((- zlen data) mod 4) ++ [0; 0; 0; 0] \/
  (exists ex, 0 <= ex /\ slice_from c (-4) = le 4 ex /\ zlen c = zlen data - ex /\ zlen c mod 4 = 0).
Proof.
  intros Hl E. unfold code_compress in E.
  destruct (code_body_cases data) as [H|[(pre & W & tgt & padn & Hsh & Hp & Hm & Hok & Herr)|H]].
  - left. rewrite H in E. assert (c = stored data) as -> by congruence. unfold stored, pad_to. rewrite <- app_assoc. reflexivity.
  - right. cbv zeta in Hok, Herr. set (ex := zlen tgt - zlen W - (8 + padn)) in *.
    destruct (Z.lt_ge_cases ex 0) as [Hex|Hex]; [rewrite Herr in E by assumption; discriminate|].
    rewrite (Hok Hex Hl) in E. set (body := pre ++ rev W ++ rep 255 padn).
    assert (EC : c = body ++ trailer (zlen W) (8 + padn) ex) by (unfold body; rewrite <- !app_assoc; congruence).
    exists ex. split; [assumption|]. split; [rewrite EC; apply trailer_last|].
    destruct Hsh as [HD _]. assert (HDl : zlen data = zlen pre + zlen tgt) by (rewrite HD; zl).
    assert (HL : zlen c = zlen pre + zlen W + padn + 8).
    { rewrite EC. unfold body, trailer. rewrite !zlen_app, zlen_rev, zlen_rep, !zlen_le, zlen_cons by lia. change (zlen (@nil Z)) with 0. lia. }
    split; [unfold ex; lia|]. rewrite HL. clear - Hm. lia.
  - congruence.
Qed.

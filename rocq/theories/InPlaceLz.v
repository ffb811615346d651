(** * The compressor stops where the most has been saved

    [_lzCommon.compress] (_lzCommon.py:75-139) records every new maximum of
    "bytes read minus bytes written", and reports how much of its output to leave
    out so that nothing before the end has saved more than the whole. *)
From Verif Require Import PyBase PyLemmas LzModel LzSpec LzLemmas.

Lemma list_eq_dec_nil {A} (l : list A) : l = [] \/ l <> [].
Proof. destruct l; [left; reflexivity|right; discriminate]. Qed.

Section Peaks.
Variable p : lzparams.
Hypothesis P : params_ok p.
Variable data : bytes.
Notation enc_blocks := (stream_bytes p).
Notation boundary := (boundary p data).
Notation dict_ok := (dict_ok p data).
Notation fillb := (fillb p).

(** nothing reached so far saves more than the best; and nothing up to a recorded
    point saves more than that point *)
Definition peaks bs ts (cur : Z) (d : list (Z * (Z * Z))) (b : Z) : Prop :=
  (forall c r, boundary bs ts c r -> c - r <= b /\ c <= cur) /\
  (forall k c r, dict_get d k = Some (c, r) -> forall c' r', boundary bs ts c' r' -> c' <= c -> c' - r' <= k).

Lemma toks_ok_det ts : forall c a b, toks_ok p data c ts a -> toks_ok p data c ts b -> a = b.
Proof.
  induction ts as [|t ts IH]; intros c a b H1 H2; inversion H1; inversion H2; subst; [congruence|]. eapply IH; eassumption.
Qed.

Lemma boundary_snoc_inv bs ts t m c r : toks_ok p data 0 (concat bs ++ ts) m -> tok_ok p data m t -> boundary bs (ts ++ [t]) c r ->
  boundary bs ts c r \/ (c = m + tok_len t /\ r = zlen (enc_blocks bs) + 1 + zlen (toks_bytes (posSubtract p) (ts ++ [t]))).
Proof.
  intros Hm Ht [H|[H|(ts1 & ts2 & E & N & H & R)]]; [left; left; assumption|left; right; left; assumption|].
  destruct (list_eq_dec_nil ts2) as [->|N2].
  - right. rewrite app_nil_r in E. subst ts1. split; [|assumption].
    eapply toks_ok_det; [exact H|]. rewrite app_assoc. apply toks_ok_app. exists m. split; [assumption|]. constructor; [assumption|constructor].
  - left. destruct (exists_last N2) as (q & x & ->). rewrite app_assoc in E. apply app_inj_tail in E as [-> _].
    right; right. exists ts1, q. split; [reflexivity|]. split; [assumption|]. split; assumption.
Qed.

Lemma boundary_close_inv bs ts c r : boundary (bs ++ [ts]) [] c r -> boundary bs ts c r.
Proof.
  intros [H|[(bs1 & ts1 & ts2 & bs2 & E & N & H & R)|(ts1 & ts2 & E & N & _)]]; [left; assumption| |].
  - right. destruct (list_eq_dec_nil bs2) as [->|N2].
    + apply app_inj_tail in E as [-> ->]. right. exists ts1, ts2. split; [reflexivity|]. split; [assumption|]. split; assumption.
    + left. destruct (exists_last N2) as (q & x & ->). rewrite app_comm_cons, app_assoc in E. apply app_inj_tail in E as [-> _].
      exists bs1, ts1, ts2, q. split; [reflexivity|]. split; [assumption|]. split; assumption.
  - destruct ts1; [congruence|discriminate].
Qed.

Record pinner (bs : list (list token)) (ts : list token) (i : Z) (s : lzstate) (fl : Z) : Prop := {
  pin_toks : toks_ok p data 0 (concat bs ++ ts) (cur s);
  pin_res : result s = enc_blocks bs ++ [0] ++ toks_bytes (posSubtract p) ts ++ fillb (i - zlen ts);
  pin_cnt : zlen ts = i \/ (zlen ts < i /\ cur s = zlen data);
  pin_fl : fl = flags_from 0 ts 0;
  pin_dict : dict_ok bs ts (idict s) (best s);
  pin_peak : peaks bs ts (cur s) (idict s) (best s) }.

Lemma peak_token_step bs ts i s fl :
  0 <= i < 8 -> pinner bs ts i s fl ->
  exists s' fl' ts', token_step p data (s, fl) i = Ok (s', fl') /\ pinner bs ts' (i + 1) s' fl'.
Proof.
  intros Hi [Ht Hr Hc Hf Hd Hp]. pose proof (zlen_nonneg data) as Hdl. pose proof (zlen_nonneg ts) as Htl.
  assert (C0 : 0 <= cur s) by (pose proof (toks_ok_le _ _ _ _ _ P Ht) as L; pose proof (zlen_nonneg (concat bs ++ ts)); lia).
  assert (C1 : cur s <= zlen data) by (apply (toks_ok_end _ _ _ _ _ (conj (Z.le_refl 0) Hdl) P Ht)).
  unfold token_step. destruct (Z.leb_spec (zlen data) (cur s)) as [E|E].
  - (* nothing left *)
    eexists _, _, ts. split; [reflexivity|]. constructor; cbn [cur result idict best]; try assumption.
    + replace (i + 1 - zlen ts) with (i - zlen ts + 1) by lia. rewrite fillb_succ by lia. rewrite Hr.
      destruct (zerosAtEnd p); rewrite ?app_nil_r, <- ?app_assoc; reflexivity.
    + right. lia.
  - assert (Hcnt : zlen ts = i) by lia. rewrite Hcnt, Z.sub_diag, fillb_0, app_nil_r in Hr.
    destruct (search_spec p data (cur s)) as (mp & ml & Es & Hml & Hend & Hmat & Hno);
      [lia|pose proof (po_len p P); lia|pose proof (po_diff p P); lia|].
    rewrite Es. cbn [bind].
    (* the token, the new position, bytes *)
    set (mid := if 2 <? ml then _ else _).
    assert (T : exists t, tok_ok p data (cur s) t /\
       mid = Ok (cur s + tok_len t, result s ++ tok_bytes (posSubtract p) t, flags_from 0 (ts ++ [t]) 0)).
    { unfold mid. destruct (Z.ltb_spec 2 ml) as [M|M].
      - destruct (Hmat ltac:(lia)) as (M1 & M2 & M3).
        exists (Ref ml (cur s - mp)). split.
        + cbn [tok_ok]. replace (cur s - (cur s - mp)) with mp by lia.
          repeat split; try assumption; try lia. 
        + rewrite flags_from_snoc, <- Hf, Hcnt. cbn [tok_len is_ref]. rewrite <- tok_bytes_eq by (pose proof (po_len p P); pose proof (po_diff p P); pose proof (po_sub p P); lia).
          replace (7 - (0 + i)) with (7 - i) by lia. reflexivity.
      - destruct (get_some data (cur s) ltac:(lia)) as (b & Eb & _).
        exists (Lit b). rewrite flags_from_snoc, <- Hf, Hcnt, Eb. cbn [bind tok_len is_ref tok_bytes tok_ok]. split; [|reflexivity].
        split; [exact Eb|]. intros m Hm. apply Hno. lia. }
    destruct T as (t & Htok & Emid). rewrite Emid. cbn [bind].
    assert (I : forall d' b', dict_ok bs (ts ++ [t]) d' b' -> peaks bs (ts ++ [t]) (cur s + tok_len t) d' b' ->
      pinner bs (ts ++ [t]) (i + 1)
        {| cur := cur s + tok_len t; result := result s ++ tok_bytes (posSubtract p) t; idict := d'; best := b' |}
        (flags_from 0 (ts ++ [t]) 0)).
    { intros d' b' Hd' Hp'. constructor; cbn [cur result idict best].
      - rewrite app_assoc. apply toks_ok_app. exists (cur s). split; [assumption|].
        constructor; [assumption|constructor].
      - rewrite Hr, toks_bytes_app.
        replace (i + 1 - zlen (ts ++ [t])) with 0 by zl. rewrite fillb_0.
        unfold toks_bytes at 3. cbn [map concat]. rewrite !app_nil_r, <- !app_assoc. reflexivity.
      - left. zl.
      - reflexivity.
      - assumption.
      - assumption. }
    assert (B : boundary bs (ts ++ [t]) (cur s + tok_len t) (zlen (result s ++ tok_bytes (posSubtract p) t))).
    { right; right. exists (ts ++ [t]), []. rewrite app_nil_r. split; [reflexivity|].
      split; [destruct ts; discriminate|]. split.
      - rewrite app_assoc. apply toks_ok_app. exists (cur s). split; [assumption|]. constructor; [assumption|constructor].
      - rewrite Hr, !zlen_app, toks_bytes_app, zlen_app. unfold toks_bytes at 3. cbn [map concat].
        rewrite app_nil_r. zl. }
    destruct Hd as (Hb & Hb0 & Hk).
    assert (Hk' : forall k c r, dict_get (idict s) k = Some (c, r) -> (k = c - r /\ 0 <= k) /\ boundary bs (ts ++ [t]) c r).
    { intros k c r G. destruct (Hk k c r G). split; [assumption|]. apply boundary_grow; assumption. }
    set (sv := cur s + tok_len t - zlen (result s ++ tok_bytes (posSubtract p) t)) in *.
    destruct Hp as [Hp1 Hp2].
    pose proof (toks_ok_le p data (cur s) [t] (cur s + tok_len t) P ltac:(constructor; [assumption|constructor])) as TL.
    rewrite zlen_cons in TL. change (zlen (@nil token)) with 0 in TL.
    assert (NEW : forall c r, boundary bs (ts ++ [t]) c r -> (c <= cur s /\ c - r <= best s /\ boundary bs ts c r) \/ (c = cur s + tok_len t /\ c - r = sv)).
    { intros c r Hb1. destruct (boundary_snoc_inv bs ts t (cur s) c r Ht Htok Hb1) as [O|[-> ->]]; [left|right].
      - destruct (Hp1 c r O). split; [lia|]. split; [lia|assumption].
      - split; [reflexivity|]. unfold sv. rewrite Hr, !zlen_app, toks_bytes_app, zlen_app. unfold toks_bytes at 2. cbn [map concat].
        rewrite app_nil_r. zl. }
    assert (OLD : forall k c r, dict_get (idict s) k = Some (c, r) -> forall c' r', boundary bs (ts ++ [t]) c' r' -> c' <= c -> c' - r' <= k).
    { intros k c r G c' r' Hb1 L. destruct (Hk k c r G) as [_ Hb2]. destruct (Hp1 c r Hb2) as [_ Lc].
      destruct (NEW c' r' Hb1) as [(_ & _ & O)|[-> _]]; [|lia]. apply (Hp2 k c r G c' r' O L). }
    destruct (Z.ltb_spec (best s) sv) as [S|S].
    + eexists _, _, (ts ++ [t]). split; [reflexivity|].
      assert (TOP : forall c r, boundary bs (ts ++ [t]) c r -> c - r <= sv /\ c <= cur s + tok_len t).
      { intros c r Hb1. destruct (NEW c r Hb1) as [(A1 & A2 & _)|[-> A2]]; lia. }
      apply I; fold sv.
      * destruct (dict_get (idict s) sv) as [v|] eqn:Eg.
        -- split; [eauto|]. split; [lia|assumption].
        -- split; [exists (cur s + tok_len t, zlen (result s ++ tok_bytes (posSubtract p) t)); rewrite dict_get_snoc, Eg, Z.eqb_refl; reflexivity|].
           split; [lia|]. intros k c r. rewrite dict_get_snoc. destruct (dict_get (idict s) k) as [w|] eqn:Ek.
           ++ intros [= ->]. apply Hk'; assumption.
           ++ destruct (Z.eqb_spec sv k) as [<-|]; [|discriminate]. intros [= <- <-]. split; [split; [reflexivity|lia]|assumption].
      * split; [exact TOP|]. destruct (dict_get (idict s) sv) as [v|] eqn:Eg; [exact OLD|].
        intros k c r. rewrite dict_get_snoc. destruct (dict_get (idict s) k) as [w|] eqn:Ek.
        -- intros [= ->]. apply (OLD k c r Ek).
        -- destruct (Z.eqb_spec sv k) as [<-|]; [|discriminate]. intros _ c' r' Hb1 _. exact (proj1 (TOP c' r' Hb1)).
    + eexists _, _, (ts ++ [t]). split; [reflexivity|]. apply I; [split; [assumption|]; split; assumption|].
      split; [|exact OLD]. intros c r Hb1. destruct (NEW c r Hb1) as [(A1 & A2 & _)|[-> A2]]; lia.
Qed.

Lemma peak_inner_loop n : forall bs ts i s fl,
  0 <= i -> i + Z.of_nat n = 8 -> pinner bs ts i s fl ->
  exists s' fl' ts', foldM (token_step p data) (s, fl) (range_z i n) = Ok (s', fl') /\ pinner bs ts' 8 s' fl'.
Proof.
  induction n as [|n IH]; intros bs ts i s fl Hi Hn H; cbn [range_z foldM].
  - exists s, fl, ts. replace 8 with i by lia. split; [reflexivity|assumption].
  - destruct (peak_token_step bs ts i s fl ltac:(lia) H) as (s1 & f1 & ts1 & E & H1). rewrite E. cbn [bind].
    apply (IH bs ts1); [lia|lia|assumption].
Qed.

(** ** the outer loop *)
Record pouter (bs : list (list token)) (s : lzstate) : Prop := {
  pou_toks : toks_ok p data 0 (concat bs) (cur s);
  pou_res : result s = enc_blocks bs;
  pou_cnt : Forall (fun b => zlen b = 8) bs \/ (blocks_shape bs /\ cur s = zlen data);
  pou_dict : dict_ok bs [] (idict s) (best s);
  pou_peak : peaks bs [] (cur s) (idict s) (best s) }.

Lemma peak_loop fuel : forall bs s,
  Forall (fun b => zlen b = 8) bs \/ cur s = zlen data ->
  pouter bs s -> zlen data - cur s + 1 <= Z.of_nat fuel ->
  exists bs' s', compress_loop fuel p data s = Ok s' /\ pouter bs' s' /\ blocks_shape bs' /\ cur s' = zlen data.
Proof.
  induction fuel as [|n IH]; intros bs s Hfull H Hf.
  - destruct H as [Ht _ _ _ _]. pose proof (zlen_nonneg data).
    pose proof (toks_ok_end _ _ _ _ _ (conj (Z.le_refl 0) H) P Ht). lia.
  - cbn [compress_loop]. pose proof H as [Ht Hr Hc Hd Hp]. pose proof (zlen_nonneg data) as Hdl.
    pose proof (toks_ok_end _ _ _ _ _ (conj (Z.le_refl 0) Hdl) P Ht) as He.
    destruct (Z.ltb_spec (cur s) (zlen data)) as [L|L].
    + destruct Hfull as [Hfull|]; [|lia].
      set (s0 := {| cur := cur s; result := result s ++ [0]; idict := idict s; best := best s |}).
      assert (I0 : pinner bs [] 0 s0 0).
      { constructor; cbn [cur result idict best s0].
        - rewrite app_nil_r. assumption.
        - rewrite Hr. change (0 - zlen (@nil token)) with 0. rewrite fillb_0. reflexivity.
        - left; reflexivity.
        - reflexivity.
        - assumption.
        - assumption. }
      destruct (peak_inner_loop 8 bs [] 0 s0 0) as (s1 & fl & ts & E & [It Ir Ic If Id Ip]); [lia|reflexivity|assumption|].
      rewrite E. cbn [bind].
      rewrite Ir. cbn [app]. rewrite setl_mid by (rewrite Hr; reflexivity). cbn [bind].
      pose proof (zlen_nonneg ts).
      assert (T8 : zlen ts <= 8) by lia.
      apply toks_ok_app in It as Itt. destruct Itt as (m & It1 & It2).
      assert (m = cur s).
      { clear - It1 Ht. revert It1 Ht. generalize 0, (concat bs) as l. intros z l H1. revert H1. 
        induction 1 as [|c t ts c' A B IHH]; intros H2; inversion H2; subst; [reflexivity|]. apply IHH; assumption. }
      subst m. pose proof (toks_ok_le _ _ _ _ _ P It2) as Lt.
      assert (T1 : 1 <= zlen ts) by lia.
      set (s2 := {| cur := cur s1; result := _; idict := idict s1; best := best s1 |}).
      assert (O : pouter (bs ++ [ts]) s2).
      { constructor; cbn [cur result idict best s2].
        - rewrite concat_app. cbn [concat]. rewrite app_nil_r. assumption.
        - rewrite stream_bytes_app. unfold block_bytes. rewrite If, flag_byte_eq by assumption. reflexivity.
        - destruct Ic as [Ic|[Ic1 Ic2]].
          + left. apply Forall_app. split; [assumption|]. constructor; [assumption|constructor].
          + right. split; [|assumption]. apply blocks_shape_snoc; [assumption|lia].
        - destruct Id as (D1 & D2 & D3). split; [assumption|]. split; [assumption|].
          intros k c r G. destruct (D3 k c r G). split; [assumption|]. apply boundary_close; assumption.
        - destruct Ip as [I1 I2]. split; [intros c r B; apply I1, boundary_close_inv, B|].
          intros k c r G c' r' B Lc. apply (I2 k c r G c' r'); [apply boundary_close_inv, B|exact Lc]. }
      apply (IH (bs ++ [ts])); [|assumption|].
      * cbn [cur s2]. destruct Ic as [Ic|[Ic1 Ic2]]; [left|right; assumption].
        apply Forall_app. split; [assumption|]. constructor; [assumption|constructor].
      * cbn [cur s2]. lia.
    + exists bs, s. split; [reflexivity|]. split; [assumption|]. split; [|lia].
      destruct Hc as [Hc|[Hc _]]; [|assumption].
      destruct bs as [|b bs]; [exact I|].
      clear - Hc. revert b Hc. induction bs as [|b' bs IH]; intros b Hc; inversion Hc; subst; [cbn; lia|].
      split; [assumption|]. apply IH; assumption.
Qed.

(** ** the compressor, as a whole *)
Theorem lz_compress_peaks :
  exists bs ignD ignC,
    lz_compress p data = Ok (stream_bytes p bs, ignD, ignC) /\
    toks_ok p data 0 (concat bs) (zlen data) /\ blocks_shape bs /\
    ((ignD = 0 /\ ignC = 0 /\ forall c r, boundary bs [] c r -> c - r <= zlen data - zlen (stream_bytes p bs)) \/
     (exists c r, ignD = zlen data - c /\ ignC = zlen (stream_bytes p bs) - r /\
        c - r > zlen data - zlen (stream_bytes p bs) /\ c - r >= 0 /\ boundary bs [] c r /\
        forall c' r', boundary bs [] c' r' -> c' <= c -> c' - r' <= c - r)).
Proof.
  unfold lz_compress. set (s0 := {| cur := 0; result := []; idict := _; best := 0 |}).
  assert (O : pouter [] s0).
  { constructor; cbn [cur result idict best s0].
    - constructor.
    - reflexivity.
    - left; constructor.
    - split; [eexists; reflexivity|]. split; [lia|]. intros k c r. cbn [dict_get].
      destruct (Z.eqb_spec 0 k) as [<-|]; [|discriminate]. intros [= <- <-]. split; [lia|]. left; split; reflexivity.
    - assert (Z0 : forall c r, boundary [] [] c r -> c = 0 /\ r = 0).
      { intros c r [H|[(bs1 & ts1 & ts2 & bs2 & E & _)|(ts1 & ts2 & E & N & _)]]; [assumption|destruct bs1; discriminate|].
        destruct ts1; [congruence|discriminate]. }
      split; [intros c r B; destruct (Z0 c r B); lia|]. intros k c r. cbn [dict_get].
      destruct (Z.eqb_spec 0 k) as [<-|]; [|discriminate]. intros _ c' r' B _. destruct (Z0 c' r' B). lia. }
  destruct (peak_loop (S (length data)) [] s0) as (bs & s & E & [Ht Hr Hc Hd Hp] & Hs & Hcur);
    [left; constructor|assumption|cbn [cur s0]; unfold zlen; lia|].
  rewrite E. cbn [bind]. rewrite Hcur in Ht. rewrite Hcur, Hr.
  destruct Hd as (Hb & Hb0 & Hk).
  destruct (Z.ltb_spec (zlen data - zlen (stream_bytes p bs)) (best s)) as [L|L].
  - destruct (dict_seek_ok (Z.to_nat (best s - (zlen data - zlen (stream_bytes p bs)))) (idict s)
       (zlen data - zlen (stream_bytes p bs) + 1) (best s)) as (k & c & r & E1 & E2 & E3); [assumption|lia|lia|].
    rewrite E1. cbn [bind]. destruct (Hk k c r E2) as [[-> K0] B].
    exists bs, (zlen data - c), (zlen (stream_bytes p bs) - r).
    split; [reflexivity|]. split; [assumption|]. split; [assumption|]. right. exists c, r.
    split; [reflexivity|]. split; [reflexivity|]. split; [lia|]. split; [lia|]. split; [assumption|].
    intros c' r' Bc Lc. destruct Hp as [_ Hp]. apply (Hp _ c r E2 c' r' Bc Lc).
  - exists bs, 0, 0. split; [reflexivity|]. split; [assumption|]. split; [assumption|]. left; split; [reflexivity|]. split; [reflexivity|].
    intros c r B. destruct Hp as [Hp _]. destruct (Hp c r B). lia.
Qed.
End Peaks.
(** * When BMG.save succeeds, and the length of the file it writes *)
From Coq Require Import String.
From Verif Require Import PyBase PyLemmas PyTac AtLemmas BmgModel BmgSpec BmgText BmgScan BmgFile BmgLoad.

Lemma encode_len c s b : encode c s = Ok b -> zlen b = sum (map (char_len c) s).
Proof.
  revert b. induction s as [|x s IH]; intros b H; [inversion H; reflexivity|]. apply encode_cons in H as (u & v & Hu & Hv & ->). cbn [map sum fold_right]. rewrite zlen_app. unfold char_len at 1. rewrite Hu.
  rewrite (IH v Hv). reflexivity.
Qed.
Lemma encode_total c s : (exists b, encode c s = Ok b) <-> (forall ch, In ch s -> exists u, c_char c ch = Ok u).
Proof.
  split.
  - intros (b & H). revert b H. induction s as [|x s IH]; intros b H ch Hc; [destruct Hc|]. apply encode_cons in H as (u & v & Hu & Hv & _). destruct Hc as [<-|Hc]; [exists u; exact Hu|apply (IH v Hv); exact Hc].
  - induction s as [|x s IH]; intros H; [exists []; reflexivity|]. destruct (H x (or_introl eq_refl)) as (u & Hu). destruct IH as (v & Hv); [intros ch Hc; apply H; right; exact Hc|].
    exists (u ++ v). apply (encode_app c [x] s u v); [apply encode_single; exact Hu|exact Hv].
Qed.

Section PARTS.
Context (c : codec) (nul esc : bytes) (MK : marks c nul esc).
Lemma part_save_iff p : (exists b, part_save c p = Ok b) <-> part_fits c (zlen nul) p.
Proof.
  destruct MK as (EN & EE & LE & _). destruct p as [s|t d].
  - cbn [part_fits]. split.
    + intros (b & H). apply part_txt in H as (C0 & C26 & H). apply contains_in in C0, C26. split; [exact C0|]. split; [exact C26|]. apply encode_total. exists b. exact H.
    + intros (C0 & C26 & H). apply contains_in in C0, C26. apply encode_total in H as (b & H). exists b. apply part_txt. auto.
  - cbn [part_fits part_save]. unfold esc_save. rewrite EE. cbn [bind]. rewrite LE. pose proof (zlen_nonneg d). pose proof (zlen_nonneg nul). unfold byteb. split.
    + intros (b & H1). apply bind_ok in H1 as (? & G1 & H1). apply bind_ok in H1 as (? & G2 & _). apply guard_ok in G1, G2. lia.
    + intros [H1 H2]. replace ((0 <=? zlen d + 2 + zlen nul) && (zlen d + 2 + zlen nul <? 256)) with true by lia. replace ((0 <=? t) && (t <? 256)) with true by lia. cbn [guard bind]. eexists. reflexivity.
Qed.
Lemma part_save_len p b : part_save c p = Ok b -> zlen b = part_len c (zlen nul) p.
Proof.
  destruct MK as (EN & EE & LE & _). destruct p as [s|t d]; intros H.
  - apply part_txt in H as (_ & _ & H). apply encode_len. exact H.
  - cbn [part_save] in H. unfold esc_save in H. rewrite EE in H. cbn [bind] in H. apply bind_ok in H as (? & _ & H). apply bind_ok in H as (? & _ & H). apply ok_inj in H. subst b.
    rewrite !zlen_app, LE. cbn [part_len]. change (zlen [t]) with 1. rewrite zlen_cons. change (zlen (@nil Z)) with 0. lia.
Qed.
Lemma mapM_total {A B} (f : A -> res B) l : (exists r, mapM f l = Ok r) <-> (forall x, In x l -> exists y, f x = Ok y).
Proof.
  split.
  - intros (r & H). revert r H. induction l as [|x l IH]; intros r H z Hz; [destruct Hz|]. cbn [mapM] in H. apply bind_ok in H as (y & Hy & H). apply bind_ok in H as (ys & Hys & _). destruct Hz as [<-|Hz]; [exists y; exact Hy|apply (IH ys Hys); exact Hz].
  - induction l as [|x l IH]; intros H; [exists []; reflexivity|]. destruct (H x (or_introl eq_refl)) as (y & Hy). destruct IH as (r & Hr); [intros z Hz; apply H; right; exact Hz|]. exists (y :: r). cbn [mapM]. rewrite Hy. cbn [bind]. rewrite Hr. reflexivity.
Qed.
Lemma message_save_iff m : mNull m = false -> (exists b, message_save c m = Ok b) <-> (forall p, In p (mParts m) -> part_fits c (zlen nul) p).
Proof.
  intros NM. unfold message_save. rewrite NM. destruct MK as (EN & _). rewrite EN. split.
  - intros (b & H). apply bind_ok in H as (bs & H & _). intros p Hp. apply part_save_iff. apply (proj1 (mapM_total _ _) (ex_intro _ bs H) p Hp).
  - intros H. destruct (proj2 (mapM_total (part_save c) (mParts m))) as (bs & E); [intros p Hp; apply part_save_iff; apply H; exact Hp|]. rewrite E. cbn [bind]. eexists. reflexivity.
Qed.
Lemma parts_len ps : forall bs, mapM (part_save c) ps = Ok bs -> zlen (concat bs) = sum (map (part_len c (zlen nul)) ps).
Proof.
  induction ps as [|p ps IH]; intros bs H; [inversion H; reflexivity|]. cbn [mapM] in H. apply bind_ok in H as (y & Hy & H). apply bind_ok in H as (ys & Hys & H). inversion H; subst bs.
  cbn [concat map sum fold_right]. rewrite zlen_app, (part_save_len p y Hy), (IH ys Hys). reflexivity.
Qed.
Lemma message_save_len m b : message_save c m = Ok b -> zlen b = msg_len c (zlen nul) m.
Proof.
  unfold message_save, msg_len. destruct (mNull m); [intros H; inversion H; reflexivity|]. destruct MK as (EN & _). rewrite EN. intros H. apply bind_ok in H as (bs & H & H2). apply ok_inj in H2. subst b. rewrite zlen_app, (parts_len _ _ H). reflexivity.
Qed.

Lemma sum_msg_nonneg ms : 0 <= sum (map (msg_len c (zlen nul)) ms).
Proof.
  assert (P1 : forall p, 0 <= part_len c (zlen nul) p).
  { intros [s|t d]; cbn [part_len]; [|pose proof (zlen_nonneg d); pose proof (zlen_nonneg nul); lia]. induction s as [|x s IH]; cbn [map sum fold_right]; [lia|]. assert (0 <= char_len c x) by (unfold char_len; destruct (c_char c x); [apply zlen_nonneg|lia]). unfold sum in IH. lia. }
  assert (P2 : forall ps, 0 <= sum (map (part_len c (zlen nul)) ps)).
  { induction ps as [|p ps IH]; cbn [map sum fold_right]; [lia|]. specialize (P1 p). unfold sum in IH. lia. }
  induction ms as [|m ms IH]; cbn [map sum fold_right]; [lia|]. assert (0 <= msg_len c (zlen nul) m) by (unfold msg_len; destruct (mNull m); [lia|]; specialize (P2 (mParts m)); pose proof (zlen_nonneg nul); lia). unfold sum in IH. lia.
Qed.

(** the message loop *)
Lemma fold_len e il ms : forall inf0 dat0 inf dat, foldM (add_message c e il) (inf0, dat0) ms = Ok (inf, dat) ->
  zlen inf = zlen inf0 + zlen ms * (4 + il) /\ zlen dat = zlen dat0 + sum (map (msg_len c (zlen nul)) ms).
Proof.
  induction ms as [|m ms IH]; intros inf0 dat0 inf dat H.
  - inversion H; subst. cbn [map sum fold_right]. change (zlen (@nil message)) with 0. lia.
  - cbn [foldM] in H. apply bind_ok in H as ([inf1 dat1] & H1 & H). apply IH in H as [-> ->]. unfold add_message in H1. apply bind_ok in H1 as (g & G & H1). apply guard_ok in G. apply Z.eqb_eq in G.
    apply bind_ok in H1 as (o & Ho & H1). apply bind_ok in H1 as (b & Hb & H1). apply ok_inj in H1. inversion H1; subst inf1 dat1. apply pack_e_inv in Ho as [_ ->].
    rewrite !zlen_app, zlen_enc, zlen_cons. cbn [map sum fold_right]. fold (sum (map (msg_len c (zlen nul)) ms)). split; [lia|].
    assert (zlen b = msg_len c (zlen nul) m); [|lia]. destruct (mNull m) eqn:NM; [|apply message_save_len; exact Hb]. inversion Hb. unfold msg_len. rewrite NM. reflexivity.
Qed.
Lemma fold_total e il ms : (forall m, In m ms -> zlen (mInfo m) = il) ->
  (forall m p, In m ms -> mNull m = false -> In p (mParts m) -> part_fits c (zlen nul) p) ->
  forall inf0 dat0, zlen dat0 + sum (map (msg_len c (zlen nul)) ms) < 4294967296 -> exists r, foldM (add_message c e il) (inf0, dat0) ms = Ok r.
Proof.
  induction ms as [|m ms IH]; intros HI HP inf0 dat0 HS; [eexists; reflexivity|]. cbn [foldM].
  cbn [map sum fold_right] in HS. fold (sum (map (msg_len c (zlen nul)) ms)) in HS. pose proof (sum_msg_nonneg ms) as P1. pose proof (sum_msg_nonneg [m]) as P2. cbn [map sum fold_right] in P2. pose proof (zlen_nonneg dat0).
  assert (EB : exists b, (if mNull m then Ok [] else message_save c m) = Ok b /\ zlen b = msg_len c (zlen nul) m).
  { destruct (mNull m) eqn:NM; [exists []; split; [reflexivity|unfold msg_len; rewrite NM; reflexivity]|]. destruct (proj2 (message_save_iff m NM)) as (b & Hb); [intros p Hp; apply (HP m p (or_introl eq_refl) NM Hp)|]. exists b. split; [exact Hb|apply message_save_len; exact Hb]. }
  destruct EB as (b & EB & LB).
  assert (ST : exists inf1, add_message c e il (inf0, dat0) m = Ok (inf1, dat0 ++ b)).
  { unfold add_message. rewrite (HI m (or_introl eq_refl)), Z.eqb_refl. cbn [guard bind]. rewrite pack_e_ok by (p256; destruct (mNull m); lia). cbn [bind]. rewrite EB. cbn [bind]. eexists. reflexivity. }
  destruct ST as (inf1 & ->). cbn [bind]. apply IH.
  - intros m' Hm. apply HI. right. exact Hm.
  - intros m' p Hm. apply HP. right. exact Hm.
  - rewrite zlen_app. lia.
Qed.
End PARTS.

(** ** The whole file *)
Lemma up_round n : n + (- n) mod 32 = up 32 n.
Proof. unfold up. Z.to_euclidean_division_equations. lia. Qed.
Lemma zlen_pad32 h x : h + zlen (pad32 h x) = up 32 (h + zlen x).
Proof. unfold pad32. rewrite zlen_app, zlen_zeros by (apply Z.mod_pos_bound; lia). rewrite <- up_round. lia. Qed.
Lemma ic_up b : ic_of b = up 2 (zlen (bInstructions b)).
Proof. unfold ic_of, up. Z.to_euclidean_division_equations. lia. Qed.
Lemma lc_up b : lc_of b = up 8 (zlen (bLabels b)).
Proof. unfold lc_of, up. Z.to_euclidean_division_equations. lia. Qed.
Lemma zlen_flw b : Forall (fun i => zlen i = 8) (bInstructions b) ->
  16 + zlen (flw_body b) = up 32 (16 + 8 * up 2 (zlen (bInstructions b)) + 2 * up 8 (zlen (bLabels b)) + zlen (bLabels b)).
Proof.
  intros F. unfold flw_body. rewrite zlen_pad32. f_equal. rewrite !zlen_app, zlen_concat8, !zlen_concat_es by exact F. pose proof (Z.mod_pos_bound (zlen (bInstructions b)) 2 ltac:(lia)). pose proof (Z.mod_pos_bound (- zlen (bLabels b)) 8 ltac:(lia)).
  rewrite !zlen_zeros by (unfold lc_of; lia). rewrite <- ic_up, <- lc_up. unfold ic_of. lia.
Qed.
Lemma zlen_fli b : zlen (fli_body b) = 8 * zlen (bScripts b).
Proof. unfold fli_body. induction (bScripts b) as [|p l IH]; [reflexivity|]. cbn [map concat]. rewrite zlen_app, IH, zlen_fields, zlen_cons. cbn [fold_right fst]. lia. Qed.
Lemma hasflw_match {A} b (u v : A) : (if hasflw b then u else v) = match bInstructions b, bLabels b with [], [] => v | _, _ => u end.
Proof.
  unfold hasflw. destruct (bInstructions b); destruct (bLabels b); reflexivity.
Qed.
Lemma hasfli_match {A} b (u v : A) : (if hasfli b then u else v) = match bScripts b with [] => v | _ => u end.
Proof. unfold hasfli. destruct (bScripts b); reflexivity. Qed.
Lemma zlen_sec_fli b : zlen (sec_fli b) = if hasfli b then 16 + zlen (fli_body b) else 0.
Proof. unfold sec_fli. destruct (hasfli b); [|reflexivity]. rewrite !zlen_app, zlen_fields. change (zlen (asc "FLI1")) with 4. change (zlen (zeros 4)) with 4. cbn [fold_right fst]. lia. Qed.
Lemma il_info b : il_of b = info_len b.
Proof. reflexivity. Qed.
Lemma body_size sj b ens dat (nul : bytes) : zlen nul = unit_len (bEncoding b) ->
  Forall (fun i => zlen i = 8) (bInstructions b) ->
  zlen (concat (map (entry (bEndian b)) ens)) = zlen (bMessages b) * (4 + info_len b) ->
  zlen dat = zlen nul + sum (map (msg_len (full_codec sj (bEncoding b) (bEndian b)) (zlen nul)) (bMessages b)) ->
  32 + zlen (body_of b ens dat) = file_size sj b.
Proof.
  intros LN FI L1 L2. unfold body_of, file_size. rewrite !zlen_app, zlen_sec_inf, zlen_sec_dat, zlen_sec_flw, zlen_sec_fli, zlen_fli. unfold inf_body. rewrite !zlen_pad32, (zlen_flw b FI), L1, L2, hasflw_match, hasfli_match, LN.
  rewrite !Z.add_assoc. reflexivity.
Qed.

Lemma unit_marks sj x e nul : (x = ShiftJis -> c_char sj 0 = Ok [0] /\ c_char sj 26 = Ok [26]) -> encode (full_codec sj x e) [0] = Ok nul -> zlen nul = unit_len x.
Proof.
  intros HS EN. destruct x; cbn [full_codec unit_len] in *; try (inversion EN; reflexivity).
  - unfold encode in EN. cbn [mapM c_char] in EN. unfold utf16_char in EN. cbn [surrogateb Z.leb Z.ltb bind] in EN. apply ok_inj in EN. rewrite <- EN. destruct e; reflexivity.
  - destruct (HS eq_refl) as [H0 H26]. rewrite (encode_single _ _ _ H0) in EN. inversion EN; reflexivity.
Qed.
Lemma nul_exists sj x e : (x = ShiftJis -> c_char sj 0 = Ok [0] /\ c_char sj 26 = Ok [26]) -> exists nul, encode (full_codec sj x e) [0] = Ok nul.
Proof.
  intros HS. destruct x; cbn [full_codec]; try (eexists; reflexivity). destruct (HS eq_refl) as [H0 _]. exists [0]. apply encode_single. exact H0.
Qed.

Lemma u32_is v : u32 v <-> is_u 32 v.
Proof. reflexivity. Qed.
Lemma u16_is v : u16 v <-> is_u 16 v.
Proof. reflexivity. Qed.
Lemma s8_is v : signed 1 v <-> is_s 8 v.
Proof. reflexivity. Qed.
Lemma s16_is v : signed 2 v <-> is_s 16 v.
Proof. reflexivity. Qed.

Theorem save_size sj b data : (bEncoding b = ShiftJis -> c_char sj 0 = Ok [0] /\ c_char sj 26 = Ok [26]) ->
  bmg_save sj b = Ok data -> zlen data = file_size sj b.
Proof.
  intros SJ H. apply save_shape in H as (nul & ens & x & EN & EF & F & FI & _ & _ & _ & _ & _ & _ & _ & ->).
  destruct (marks_of sj _ _ nul SJ EN) as (esc & MK & _). pose proof (unit_marks sj _ _ _ SJ EN) as U. apply (fold_len _ nul esc MK) in EF as [L1 L2].
  rewrite !zlen_app, zlen_fields. change (zlen (asc "MESGbmg1")) with 8. change (zlen (zeros 3)) with 3. cbn [fold_right fst].
  rewrite <- (body_size sj b ens (nul ++ x) nul U FI); [lia|rewrite L1; change (zlen (@nil Z)) with 0; rewrite il_info; lia|exact L2].
Qed.

Theorem save_fits sj b data : (bEncoding b = ShiftJis -> c_char sj 0 = Ok [0] /\ c_char sj 26 = Ok [26]) ->
  bmg_save sj b = Ok data -> fits sj b.
Proof.
  intros SJ H. pose proof (save_size sj b data SJ H) as SZ.
  apply save_shape in H as (nul & ens & x & EN & EF & F & FI & FL & FS & (Q1 & Q2 & Q3 & Q4) & Q5 & (Q6 & Q7 & Q8) & (Q9 & Q10) & (Q11 & Q12 & Q13 & Q14) & E).
  destruct (marks_of sj _ _ nul SJ EN) as (esc & MK & _). pose proof (unit_marks sj _ _ _ SJ EN) as U.
  assert (SZ2 : 32 + zlen (body_of b ens (nul ++ x)) = file_size sj b).
  { rewrite <- SZ, E. rewrite !zlen_app, zlen_fields. change (zlen (asc "MESGbmg1")) with 8. change (zlen (zeros 3)) with 3. cbn [fold_right fst]. lia. }
  unfold fits. rewrite <- ic_up, <- lc_up.
  split. { intros m Hm. clear - F Hm. induction F as [|en m' ens ms (_ & P & _) _ IH]; [destruct Hm|]. destruct Hm as [->|Hm]; [exact P|apply IH; exact Hm]. }
  split. { intros m p Hm NM Hp. rewrite <- U. refine (proj1 (message_save_iff _ nul esc MK m NM) _ p Hp).
           clear - F Hm NM. induction F as [|en m' ens ms (_ & _ & _ & P) _ IH]; [destruct Hm|]. destruct Hm as [->|Hm]; [|apply IH; exact Hm]. rewrite NM in P. destruct P as (_ & r & P & _). exists r. exact P. }
  rewrite Forall_forall in FI, FL, FS.
  split; [exact FI|]. split; [exact FL|]. split; [exact FS|].
  split; [exact Q2|]. split; [exact Q3|]. split; [exact Q7|]. split; [exact Q8|]. split; [exact Q10|]. split; [exact Q4|]. split; [exact Q12|]. split; [exact Q13|]. split; [exact Q14|].
  apply u32_is. rewrite <- up_round, <- SZ2. exact Q11.
Qed.

Lemma pack_es_ok e n v : signed n v -> pack_es e n v = Ok (es e n v).
Proof. intros H. unfold pack_es. unfold signed in H. replace (_ && _) with true by lia. reflexivity. Qed.
Lemma pack_fields_ok e fs : Forall (fun f => 0 <= snd f < 256 ^ Z.of_nat (fst f)) fs -> pack_fields e fs = Ok (fields_bytes e fs).
Proof. induction 1 as [|[n v] r R _ IH]; [reflexivity|]. cbn [pack_fields fst snd] in *. rewrite pack_e_ok by exact R. cbn [bind]. rewrite IH. reflexivity. Qed.
Lemma up_ge n : 0 <= n -> n <= up 32 n.
Proof. intros H. unfold up. Z.to_euclidean_division_equations. lia. Qed.

Ltac fall := repeat match goal with |- Forall _ (_ :: _) => apply Forall_cons; cbn [fst snd] | |- Forall _ [] => apply Forall_nil end.
Theorem fits_save sj b : (bEncoding b = ShiftJis -> c_char sj 0 = Ok [0] /\ c_char sj 26 = Ok [26]) ->
  fits sj b -> exists data, bmg_save sj b = Ok data.
Proof.
  intros SJ (HI & HP & FI & FL & FS & C1 & C2 & C3 & C4 & C5 & C6 & C7 & C8 & C9 & C10).
  set (e := bEndian b) in *. destruct (nul_exists sj (bEncoding b) e SJ) as (nul & EN). destruct (marks_of sj _ _ nul SJ EN) as (esc & MK & _). pose proof (unit_marks sj _ _ _ SJ EN) as U.
  rewrite <- ic_up in C3. rewrite <- lc_up in C4.
  assert (FI' : Forall (fun i => zlen i = 8) (bInstructions b)) by (apply Forall_forall; exact FI).
  set (c := full_codec sj (bEncoding b) e) in *.
  pose proof (sum_msg_nonneg c nul (bMessages b)) as SP. pose proof (zlen_nonneg (bMessages b)) as P1.
  assert (I0 : 0 <= info_len b) by (unfold info_len; destruct (bMessages b); [lia|apply zlen_nonneg]).
  assert (SIZE : up 32 (16 + zlen (bMessages b) * (4 + info_len b)) < 4294967296 /\ up 32 (8 + zlen nul + sum (map (msg_len c (zlen nul)) (bMessages b))) < 4294967296).
  { unfold is_u in C10. change (2 ^ 32) with 4294967296 in C10.
    assert (file_size sj b <= up 32 (file_size sj b)) by (unfold up; Z.to_euclidean_division_equations; lia).
    assert (F0 : 32 + up 32 (16 + zlen (bMessages b) * (4 + info_len b)) + up 32 (8 + zlen nul + sum (map (msg_len c (zlen nul)) (bMessages b))) <= file_size sj b).
    { unfold file_size. fold e. fold c. rewrite <- U. match goal with |- _ <= _ + ?y + ?z => assert (0 <= y); [|assert (0 <= z)] end; [| |lia].
      - destruct (bInstructions b), (bLabels b); try lia; apply Z.mul_nonneg_nonneg; try lia; apply Z.div_pos; try lia; unfold up; rewrite !zlen_cons || idtac;
          repeat match goal with |- context [zlen ?l] => lazymatch goal with H : 0 <= zlen l |- _ => fail | _ => pose proof (zlen_nonneg l) end end; change (zlen (@nil bytes)) with 0; change (zlen (@nil (Z * Z))) with 0; Z.to_euclidean_division_equations; lia.
      - destruct (bScripts b); [lia|]. rewrite zlen_cons. pose proof (zlen_nonneg l). lia. }
    assert (0 <= up 32 (16 + zlen (bMessages b) * (4 + info_len b))) by (unfold up; apply Z.mul_nonneg_nonneg; [apply Z.div_pos; nia|lia]).
    assert (0 <= up 32 (8 + zlen nul + sum (map (msg_len c (zlen nul)) (bMessages b)))) by (unfold up; pose proof (zlen_nonneg nul); apply Z.mul_nonneg_nonneg; [apply Z.div_pos; lia|lia]).
    lia. }
  destruct SIZE as [S1 S2]. pose proof (zlen_nonneg nul) as N0.
  destruct (fold_total c nul esc MK e (info_len b) (bMessages b) HI) with (inf0 := @nil Z) (dat0 := nul) as ([inf dat] & EM).
  { intros m p Hm NM Hp. rewrite U. apply (HP m p Hm NM Hp). }
  { pose proof (up_ge (8 + zlen nul + sum (map (msg_len c (zlen nul)) (bMessages b)))). lia. }
  pose proof (fold_len c nul esc MK e (info_len b) _ _ _ _ _ EM) as [L1 L2]. change (zlen (@nil Z)) with 0 in L1.
  unfold bmg_save. fold e. fold c. rewrite EN. cbn [bind]. change (match bMessages b with [] => 0 | m :: _ => zlen (mInfo m) end) with (info_len b). rewrite EM. cbn [bind].
  rewrite (mapM_map _ (fun i => i)) by (intros i Hi; rewrite (FI i Hi), Z.eqb_refl; reflexivity). cbn [bind]. rewrite map_id.
  rewrite (mapM_map _ (fun p : Z * Z => es e 2 (snd p))) by (intros p Hp; apply pack_es_ok; apply (FL p Hp)). cbn [bind].
  rewrite (mapM_map _ (fun p : Z * Z => es e 1 (fst p))) by (intros p Hp; apply pack_es_ok; apply (FL p Hp)). cbn [bind].
  rewrite (mapM_map _ (fun p : Z * Z => fields_bytes e [(4%nat, fst p); (4%nat, snd p)])) by (intros p Hp; apply pack_fields_ok; destruct (FS p Hp); fall; assumption). cbn [bind].
  fold (pad32 16 inf) (pad32 8 dat).
  assert (FW : 16 + zlen (flw_body b) < 4294967296 /\ 0 <= 16 + zlen (flw_body b)).
  { split; [|pose proof (zlen_nonneg (flw_body b)); lia]. rewrite (zlen_flw b FI'), <- ic_up, <- lc_up. unfold is_u in C3, C4. change (2 ^ 16) with 65536 in *. unfold up. pose proof (zlen_nonneg (bLabels b)).
    assert (zlen (bLabels b) <= lc_of b) by (unfold lc_of; pose proof (Z.mod_pos_bound (- zlen (bLabels b)) 8); lia). Z.to_euclidean_division_equations. lia. }
  rewrite pack_fields_ok.
  2:{ fall; [|exact C1|exact C2|exact C6]; p256; rewrite zlen_pad32, L1; replace (16 + (0 + zlen (bMessages b) * (4 + info_len b))) with (16 + zlen (bMessages b) * (4 + info_len b)) by lia; split; [unfold up; apply Z.mul_nonneg_nonneg; [apply Z.div_pos; nia|lia]|exact S1]. }
  cbn [bind]. rewrite pack_fields_ok.
  2:{ fall; p256; rewrite zlen_pad32, L2; replace (8 + (zlen nul + sum (map (msg_len c (zlen nul)) (bMessages b)))) with (8 + zlen nul + sum (map (msg_len c (zlen nul)) (bMessages b))) by lia; split; [unfold up; apply Z.mul_nonneg_nonneg; [apply Z.div_pos; lia|lia]|exact S2]. }
  cbn [bind]. fold (ic_of b) (lc_of b).
  match goal with |- context [(4%nat, 16 + zlen ?y)] => change y with (flw_body b) end.
  rewrite pack_fields_ok by (fall; [p256; lia|exact C3|exact C4]). cbn [bind].
  change (concat (map (fun p : Z * Z => fields_bytes e [(4%nat, fst p); (4%nat, snd p)]) (bScripts b))) with (fli_body b). fold (fli_len b).
  rewrite pack_fields_ok.
  2:{ assert (0 <= fli_len b < 4294967296) by (unfold fli_len; rewrite zlen_fli; unfold is_u in C5; change (2 ^ 16) with 65536 in *; Z.to_euclidean_division_equations; lia).
      fall; [p256; lia|exact C5|p256; lia]. }
  cbn [bind].
  match goal with |- context [Ok (asc "MESGbmg1" ++ _ ++ zeros 3 ++ ?y)] => set (body := y) end.
  assert (SB : 32 + zlen body = file_size sj b).
  { subst body. rewrite !zlen_app.
    match goal with |- context [if ?h then asc "FLW1" ++ _ else []] => change h with (hasflw b) end. match goal with |- context [if ?h then asc "FLI1" ++ _ else []] => change h with (hasfli b) end.
    pose proof (zlen_sec_flw b) as Z1. unfold sec_flw in Z1. fold e in Z1. rewrite Z1. pose proof (zlen_sec_fli b) as Z2. unfold sec_fli in Z2. fold e in Z2. rewrite Z2.
    rewrite !zlen_fields. change (zlen (asc "INF1")) with 4. change (zlen (asc "DAT1")) with 4. cbn [fold_right fst]. pose proof (zlen_pad32 16 inf) as Z3. rewrite L1 in Z3. pose proof (zlen_pad32 8 dat) as Z4. rewrite L2 in Z4.
    rewrite (zlen_flw b FI'), zlen_fli, hasflw_match, hasfli_match. unfold file_size. fold e. fold c. rewrite <- U.
    replace (16 + (0 + zlen (bMessages b) * (4 + info_len b))) with (16 + zlen (bMessages b) * (4 + info_len b)) in Z3 by lia.
    replace (8 + (zlen nul + sum (map (msg_len c (zlen nul)) (bMessages b)))) with (8 + zlen nul + sum (map (msg_len c (zlen nul)) (bMessages b))) in Z4 by lia. lia. }
  rewrite pack_fields_ok; [cbn [bind]; eexists; reflexivity|].
  rewrite SB, up_round. unfold is_u in C10. change (2 ^ 32) with 4294967296 in C10.
  fall; [exact C10| | |exact C7|exact C8|exact C9]; p256.
  - repeat match goal with |- context [if ?h then 1 else 0] => destruct h end; lia.
  - destruct (bEncoding b); cbn; lia.
Qed.

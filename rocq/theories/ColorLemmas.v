(** * Proofs about color.py *)
From Verif Require Import PyBase PyLemmas PyTac ColorModel.

Definition chan5 (v : Z) : Prop := 0 <= v < 32.
Definition chan8 (v : Z) : Prop := 0 <= v < 256.
Definition color5 (c : color) : Prop := chan5 (cr c) /\ chan5 (cg c) /\ chan5 (cb c).
Definition valid51 (c : color) : Prop := color5 c /\ (ca c = 0 \/ ca c = 1).

Lemma land_31 x : Z.land x 0x1F = x mod 32.
Proof. exact (land_mask x 5 ltac:(lia)). Qed.
Lemma land_255 x : Z.land x 0xFF = x mod 256.
Proof. exact (land_mask x 8 ltac:(lia)). Qed.
Lemma land_1 x : Z.land x 1 = x mod 2.
Proof. exact (land_mask x 1 ltac:(lia)). Qed.
Lemma shr x n : 0 <= n -> Z.shiftr x n = x / 2 ^ n.
Proof. apply Z.shiftr_div_pow2. Qed.

Lemma packTuple_add r g b a : packTuple r g b a = r mod 32 + 32 * (g mod 32) + 1024 * (b mod 32) + 32768 * a.
Proof.
  unfold packTuple. rewrite !land_31.
  rewrite (lor_add (r mod 32) (g mod 32) 5) by (try (change (2 ^ 5) with 32); lia). change (2 ^ 5) with 32.
  rewrite (lor_add _ (b mod 32) 10) by (try (change (2 ^ 10) with 1024); lia). change (2 ^ 10) with 1024.
  rewrite (lor_add _ a 15) by (try (change (2 ^ 15) with 32768); lia). reflexivity.
Qed.
Lemma pack_add r g b a : pack r g b a = r mod 32 + 32 * (g mod 32) + 1024 * (b mod 32) + 32768 * (a mod 2).
Proof. unfold pack. rewrite land_1. apply packTuple_add. Qed.
Lemma unpack_div v : unpack v = C4 (v mod 32) (v / 32 mod 32) (v / 1024 mod 32) (v / 32768 mod 2).
Proof. unfold unpack. rewrite !land_31, land_1, !shr by lia. reflexivity. Qed.

Lemma unpack_pack r g b a : unpack (pack r g b a) = C4 (r mod 32) (g mod 32) (b mod 32) (a mod 2).
Proof. rewrite pack_add, unpack_div. f_equal; lia. Qed.
Lemma unpack_pack_valid c : valid51 c -> unpack (pack (cr c) (cg c) (cb c) (ca c)) = c.
Proof.
  intros ((Hr & Hg & Hb) & Ha). rewrite unpack_pack. destruct c as [r g b a]; cbn [cr cg cb ca] in *. unfold chan5 in *.
  rewrite !Z.mod_small by lia. reflexivity.
Qed.
Lemma pack_unpack v : 0 <= v < 65536 -> let c := unpack v in pack (cr c) (cg c) (cb c) (ca c) = v /\ valid51 c.
Proof. intros H. cbv zeta. rewrite unpack_div. cbn [cr cg cb ca]. rewrite pack_add. unfold valid51, color5, chan5. cbn [cr cg cb ca]. lia. Qed.
Lemma pack_range r g b a : 0 <= pack r g b a < 65536.
Proof. rewrite pack_add. lia. Qed.

(** channel expansion *)
Lemma exp5_ok v : chan5 v -> chan8 (exp5 v) /\ con5 (exp5 v) = v.
Proof.
  intros H. assert (S : ((0 <=? exp5 v) && (exp5 v <? 256) && (con5 (exp5 v) =? v)) = true).
  { revert v H. apply (sweep 32 (fun v => (0 <=? exp5 v) && (exp5 v <? 256) && (con5 (exp5 v) =? v))). vm_compute. reflexivity. }
  rewrite !andb_true_iff in S. destruct S as [[A B] C]. apply Z.leb_le in A. apply Z.ltb_lt in B. apply Z.eqb_eq in C. unfold chan8. lia.
Qed.
Lemma exp5_mono v w : chan5 v -> chan5 w -> v < w -> exp5 v < exp5 w.
Proof.
  intros Hv Hw L. assert (S : forallb (fun w => negb (v <? w) || (exp5 v <? exp5 w)) (range_z 0 32) = true).
  { revert v Hv L. intros v Hv _. revert v Hv.
    apply (sweep 32 (fun v => forallb (fun w => negb (v <? w) || (exp5 v <? exp5 w)) (range_z 0 32))). vm_compute. reflexivity. }
  rewrite forallb_forall in S. specialize (S w). rewrite in_range_z in S. specialize (S ltac:(unfold chan5 in Hw; lia)).
  apply orb_true_iff in S as [S|S]; [apply negb_true_iff, Z.ltb_ge in S; lia|apply Z.ltb_lt, S].
Qed.
Lemma con5_range x : chan8 x -> chan5 (con5 x).
Proof.
  intros H. assert (S : ((0 <=? con5 x) && (con5 x <? 32)) = true).
  { revert x H. apply (sweep 256 (fun x => (0 <=? con5 x) && (con5 x <? 32))). vm_compute. reflexivity. }
  apply andb_true_iff in S as [A B]. apply Z.leb_le in A. apply Z.ltb_lt in B. unfold chan5; lia.
Qed.
Lemma con5_nearest x v : chan8 x -> chan5 v -> Z.abs (exp5 (con5 x) - x) <= Z.abs (exp5 v - x).
Proof.
  intros Hx Hv. assert (S : forallb (fun v => Z.abs (exp5 (con5 x) - x) <=? Z.abs (exp5 v - x)) (range_z 0 32) = true).
  { revert x Hx. apply (sweep 256 (fun x => forallb (fun v => Z.abs (exp5 (con5 x) - x) <=? Z.abs (exp5 v - x)) (range_z 0 32))).
    vm_compute. reflexivity. }
  rewrite forallb_forall in S. specialize (S v). rewrite in_range_z in S. specialize (S ltac:(unfold chan5 in Hv; lia)). apply Z.leb_le, S.
Qed.

(** palettes *)
Lemma palette_load_save p : Forall valid51 p -> exists d, savePalette p = Ok d /\ loadPalette d = Ok p /\ zlen d = 2 * zlen p.
Proof.
  intros F. rewrite Forall_forall in F. set (w := fun c => pack (cr c) (cg c) (cb c) (ca c)).
  exists (concat (map (fun c => le 2 (w c)) p)).
  assert (L : zlen (concat (map (fun c => le 2 (w c)) p)) = zlen p * 2) by (apply zlen_concat_map; intros; zg).
  split; [|split; [|lia]].
  - unfold savePalette. rewrite (mapM_map _ (fun c => le 2 (w c))); [reflexivity|].
    intros c _. apply pack_u_ok. apply pack_range.
  - unfold loadPalette. rewrite L, Z.div_mul by lia. rewrite length_zlen.
    rewrite (mapM_table _ w).
    + cbn [bind]. f_equal. rewrite map_map. rewrite <- (map_id p) at 2. apply map_ext_in. intros c Hc. apply unpack_pack_valid, F, Hc.
    + intros l1 x l2 E. destruct (concat_at (fun c => le 2 (w c)) 2 l1 x l2) as (EC & L1 & _); [intros; zg|].
      rewrite E, EC. pose proof (pack_range (cr x) (cg x) (cb x) (ca x)). fold (w x) in H. pose proof (zlen_nonneg l1).
      rdalls. reflexivity.
Qed.

Fixpoint pairs (d : bytes) : list Z :=
  match d with a :: b :: r => a + 256 * b :: pairs r | _ => [] end.
Lemma pairs_load d : is_bytes d -> zlen d mod 2 = 0 ->
  d = concat (map (le 2) (pairs d)) /\ zlen d = 2 * zlen (pairs d) /\ Forall (fun v => 0 <= v < 65536) (pairs d).
Proof.
  intros HB. remember (length d) as n eqn:En. revert d HB En. induction n as [n IH] using lt_wf_ind. intros d HB En HM.
  destruct d as [|a [|b r]]; cbn [pairs].
  - repeat split; constructor.
  - change (zlen [a]) with 1 in HM. cbn in HM. discriminate.
  - inversion HB as [|? ? Ha HB1]; subst. inversion HB1 as [|? ? Hb HB2]; subst. unfold is_byte in *.
    rewrite !zlen_cons in HM. destruct (IH (length r)) with (d := r) as (E & L & F); [cbn [length]; lia|assumption|reflexivity|lia|].
    split; [|split; [rewrite !zlen_cons; lia|constructor; [lia|assumption]]].
    cbn [map concat le app]. rewrite E at 1. f_equal; [lia|]. f_equal. lia.
Qed.
Lemma palette_save_load d : is_bytes d -> zlen d mod 2 = 0 -> exists p, loadPalette d = Ok p /\ Forall valid51 p /\ savePalette p = Ok d.
Proof.
  intros HB HM. destruct (pairs_load d HB HM) as (E & L & F). rewrite Forall_forall in F. exists (map unpack (pairs d)). split; [|split].
  - unfold loadPalette. rewrite L, Z.mul_comm, Z.div_mul, length_zlen by lia. rewrite (mapM_table _ (fun v => v)).
    + cbn [bind]. rewrite map_id. reflexivity.
    + intros l1 x l2 Ex. destruct (concat_at (le 2) 2 l1 x l2) as (EC & L1 & _); [intros; zg|].
      rewrite Ex in E. rewrite E, EC. pose proof (zlen_nonneg l1).
      assert (0 <= x < 65536) by (apply F; rewrite Ex; apply in_or_app; right; left; reflexivity). rdalls. reflexivity.
  - rewrite Forall_map, Forall_forall. intros v Hv. apply pack_unpack, F, Hv.
  - unfold savePalette. rewrite (mapM_map _ (fun c => le 2 (pack (cr c) (cg c) (cb c) (ca c)))) by (intros c _; apply pack_u_ok, pack_range).
    cbn [bind]. f_equal. rewrite map_map. rewrite E at 2. f_equal. apply map_ext_in. intros v Hv. f_equal. apply pack_unpack, F, Hv.
Qed.

(** ** convert *)
(** a value of a given format; byte values are bytes, INT_16 is 16 bits *)
Definition wf (f : colorFormat) (x : cval) : Prop :=
  match f, x with
  | INT_16, VInt v => 0 <= v < 65536
  | BYTES_2, VBytes a b => is_byte a /\ is_byte b
  | RGB5A1, VTup c => color5 c /\ (ca c = 0 \/ ca c = 1)
  | RGB5A5, VTup c => color5 c /\ chan5 (ca c)
  | RGBA255, VTup c => chan8 (cr c) /\ chan8 (cg c) /\ chan8 (cb c) /\ chan8 (ca c)
  | _, _ => False
  end.
(** precision order: the first three carry the same information *)
Definition level (f : colorFormat) : Z :=
  match f with INT_16 | BYTES_2 | RGB5A1 => 0 | RGB5A5 => 1 | RGBA255 => 2 end.

Lemma fin_ok to_ v : 0 <= v < 65536 -> to_ = INT_16 \/ to_ = BYTES_2 ->
  fin to_ v = Ok (match to_ with INT_16 => VInt v | _ => VBytes (v mod 256) (v / 256) end).
Proof.
  intros Hv [-> | ->]; cbn [fin]; [reflexivity|]. rewrite land_255, shr by lia. change (2 ^ 8) with 256. unfold to_bytes.
  assert (F : forallb byteb [v mod 256; v / 256] = true) by (apply forallb_byteb; repeat constructor; unfold is_byte; lia).
  rewrite F. reflexivity.
Qed.
Lemma convert_int_ok v to_ : 0 <= v < 65536 ->
  convert_int v to_ = Ok (match to_ with
    | INT_16 => VInt v
    | BYTES_2 => VBytes (v mod 256) (v / 256)
    | RGB5A1 => VTup (C4 (v mod 32) (v / 32 mod 32) (v / 1024 mod 32) (v / 32768))
    | RGB5A5 => VTup (C4 (v mod 32) (v / 32 mod 32) (v / 1024 mod 32) (if v / 32768 =? 0 then 0 else 31))
    | RGBA255 => VTup (C4 (exp5 (v mod 32)) (exp5 (v / 32 mod 32)) (exp5 (v / 1024 mod 32)) (if v / 32768 =? 0 then 0 else 255))
    end).
Proof.
  intros Hv. unfold convert_int. destruct to_; [reflexivity|apply (fin_ok BYTES_2); auto|..];
  rewrite !land_31, !shr by lia; change (2 ^ 5) with 32; change (2 ^ 10) with 1024; change (2 ^ 15) with 32768;
  unfold truthy; [reflexivity|..]; destruct (v / 32768 =? 0); reflexivity.
Qed.
Lemma chan5_mod v : chan5 (v mod 32).
Proof. unfold chan5. lia. Qed.

(** every conversion of a well-formed value succeeds with a well-formed value *)
Lemma convert_wf x f t : wf f x -> exists y, convert x f t = Ok y /\ wf t y.
Proof.
  intros H.
  assert (INT : forall v, 0 <= v < 65536 -> exists y, convert_int v t = Ok y /\ wf t y).
  { intros v Hv. rewrite convert_int_ok by assumption. eexists; split; [reflexivity|].
    pose proof (exp5_ok _ (chan5_mod v)) as [E1 _]. pose proof (exp5_ok _ (chan5_mod (v / 32))) as [E2 _]. pose proof (exp5_ok _ (chan5_mod (v / 1024))) as [E3 _].
    destruct t; cbn [wf]; unfold is_byte, color5, chan5; cbn [cr cg cb ca]; try lia.
    - destruct (v / 32768 =? 0); lia.
    - unfold chan8 in *. repeat split; try lia; destruct (v / 32768 =? 0); lia. }
  assert (FIN : forall r g b a, 0 <= a <= 1 -> t = INT_16 \/ t = BYTES_2 -> exists y, fin t (packTuple r g b a) = Ok y /\ wf t y).
  { intros r g b a Ha Ht. rewrite packTuple_add. rewrite fin_ok by (try assumption; lia). eexists; split; [reflexivity|].
    destruct Ht as [-> | ->]; cbn [wf]; unfold is_byte; lia. }
  destruct f; destruct x as [v|b0 b1|c]; cbn [wf] in H; try contradiction; cbn [convert].
  - apply INT, H.
  - destruct H as [H0 H1]. unfold is_byte in *. rewrite Z.lor_comm, (lor_add b0 b1 8) by (try (change (2 ^ 8) with 256); lia). apply INT. change (2 ^ 8) with 256. lia.
  - destruct H as [(Hr & Hg & Hb) Ha].
    destruct (exp5_ok _ Hr) as [E1 _]. destruct (exp5_ok _ Hg) as [E2 _]. destruct (exp5_ok _ Hb) as [E3 _].
    destruct t; try (apply FIN; [lia|auto]); eexists; (split; [reflexivity|]); cbn [wf]; unfold color5; cbn [cr cg cb ca]; repeat split; try assumption;
    unfold truthy, chan5, chan8 in *; destruct (ca c =? 0); cbn [negb]; lia.
  - destruct H as [(Hr & Hg & Hb) Ha].
    destruct (exp5_ok _ Hr) as [E1 _]. destruct (exp5_ok _ Hg) as [E2 _]. destruct (exp5_ok _ Hb) as [E3 _]. destruct (exp5_ok _ Ha) as [E4 _].
    destruct t; try (apply FIN; [destruct (16 <=? ca c); lia|auto]); eexists; (split; [reflexivity|]); cbn [wf]; unfold color5; cbn [cr cg cb ca]; repeat split;
    unfold chan5, chan8 in *; try lia; destruct (16 <=? ca c); lia.
  - destruct H as (Hr & Hg & Hb & Ha).
    pose proof (con5_range _ Hr) as E1. pose proof (con5_range _ Hg) as E2. pose proof (con5_range _ Hb) as E3. pose proof (con5_range _ Ha) as E4.
    destruct t; try (apply FIN; [destruct (128 <=? ca c); lia|auto]); eexists; (split; [reflexivity|]); cbn [wf]; unfold color5; cbn [cr cg cb ca]; repeat split;
    unfold chan5, chan8 in *; try lia; destruct (128 <=? ca c); lia.
Qed.
Lemma packTuple_small r g b a : chan5 r -> chan5 g -> chan5 b -> packTuple r g b a = r + 32 * g + 1024 * b + 32768 * a.
Proof. unfold chan5. intros. rewrite packTuple_add, !Z.mod_small by lia. reflexivity. Qed.

(** converting to a format that carries at least as much and back is the identity *)
Lemma convert_lossless x f t : wf f x -> level f <= level t ->
  exists y, convert x f t = Ok y /\ convert y t f = Ok x.
Proof.
  intros H LV.
  assert (B : forall v, 0 <= v < 65536 -> Z.lor (Z.shiftl (v / 256) 8) (v mod 256) = v).
  { intros v Hv. rewrite Z.lor_comm, (lor_add (v mod 256) (v / 256) 8) by (try (change (2 ^ 8) with 256); lia). change (2 ^ 8) with 256. lia. }
  assert (E : forall v, con5 (exp5 (v mod 32)) = v mod 32) by (intros; apply exp5_ok, chan5_mod).
  assert (INT : forall v, 0 <= v < 65536 -> exists y, convert_int v t = Ok y /\ forall f', f' = INT_16 \/ f' = BYTES_2 ->
     convert y t f' = Ok (match f' with INT_16 => VInt v | _ => VBytes (v mod 256) (v / 256) end)).
  { intros v Hv. rewrite convert_int_ok by assumption. eexists; split; [reflexivity|]. intros f' Hf.
    assert (FV : forall w, w = v -> fin f' w = Ok match f' with INT_16 => VInt v | _ => VBytes (v mod 256) (v / 256) end)
      by (intros w ->; apply fin_ok; assumption).
    assert (AL : forall (k : Z), (if v / 32768 =? 0 then 0 else 1) = v / 32768) by (intros; destruct (Z.eqb_spec (v / 32768) 0); lia).
    destruct t; cbn [convert cr cg cb ca].
    - rewrite convert_int_ok by assumption. destruct Hf as [-> | ->]; reflexivity.
    - rewrite B by assumption. rewrite convert_int_ok by assumption. destruct Hf as [-> | ->]; reflexivity.
    - destruct Hf as [-> | ->]; apply FV; rewrite packTuple_small by apply chan5_mod; lia.
    - destruct Hf as [-> | ->]; apply FV; rewrite packTuple_small by apply chan5_mod; destruct (Z.eqb_spec (v / 32768) 0); cbn [Z.leb Z.compare Pos.compare Pos.compare_cont]; lia.
    - destruct Hf as [-> | ->]; apply FV; rewrite !E, packTuple_small by apply chan5_mod; destruct (Z.eqb_spec (v / 32768) 0); cbn [Z.leb Z.compare Pos.compare Pos.compare_cont]; lia. }
  destruct f; destruct x as [v|b0 b1|c]; cbn [wf] in H; try contradiction; cbn [convert].
  - destruct (INT v H) as (y & E1 & E2). exists y. split; [exact E1|]. apply (E2 INT_16). auto.
  - destruct H as [H0 H1]. unfold is_byte in *. rewrite Z.lor_comm, (lor_add b0 b1 8) by (try (change (2 ^ 8) with 256); lia). change (2 ^ 8) with 256.
    destruct (INT (b0 + 256 * b1)) as (y & E1 & E2); [lia|]. exists y. split; [exact E1|]. rewrite (E2 BYTES_2) by auto. do 2 f_equal; lia.
  - destruct H as [(Hr & Hg & Hb) Ha]. destruct c as [r g b a]; cbn [cr cg cb ca] in *.
    destruct (exp5_ok _ Hr) as [_ E1]. destruct (exp5_ok _ Hg) as [_ E2]. destruct (exp5_ok _ Hb) as [_ E3]. unfold chan5 in *.
    assert (TUP : forall v, v = r + 32 * g + 1024 * b + 32768 * a -> convert_int v RGB5A1 = Ok (VTup (C4 r g b a))).
    { intros v ->. rewrite convert_int_ok by lia. do 2 f_equal. f_equal; lia. }
    destruct t; cbn [convert cr cg cb ca]; try (eexists; split; [reflexivity|]; cbn [convert cr cg cb ca]).
    + apply TUP, packTuple_small; assumption.
    + rewrite packTuple_small by assumption. rewrite fin_ok by (auto; lia). eexists; split; [reflexivity|]. cbn [convert]. rewrite B by lia. apply TUP. reflexivity.
    + reflexivity.
    + destruct Ha as [-> | ->]; reflexivity.
    + rewrite E1, E2, E3. destruct Ha as [-> | ->]; reflexivity.
  - destruct t; cbn [level] in LV; try lia.
    + eexists; split; reflexivity.
    + destruct H as [(Hr & Hg & Hb) Ha]. destruct c as [r g b a]; cbn [cr cg cb ca] in *.
      destruct (exp5_ok _ Hr) as [_ E1]. destruct (exp5_ok _ Hg) as [_ E2]. destruct (exp5_ok _ Hb) as [_ E3]. destruct (exp5_ok _ Ha) as [_ E4].
      eexists; split; [reflexivity|]. cbn [convert cr cg cb ca]. rewrite E1, E2, E3, E4. reflexivity.
  - destruct t; cbn [level] in LV; try lia. eexists; split; reflexivity.
Qed.
(** the deprecated helpers and the lookup tables agree with convert *)
Lemma helpers_agree v : 0 <= v < 65536 ->
  convert (VInt v) INT_16 RGB5A1 = Ok (VTup (unpack v)) /\ convert (VInt v) INT_16 RGBA255 = Ok (VTup (unpack255 v)) /\
  lut_unpacked v = unpack v /\ lut_unpacked255 v = unpack255 v.
Proof.
  intros Hv. cbn [convert]. rewrite !convert_int_ok by assumption. unfold unpack255, lut_unpacked255. rewrite unpack_div.
  change (lut_unpacked v) with (unpack v). rewrite unpack_div. cbn [cr cg cb ca].
  assert (A : v / 32768 mod 2 = v / 32768) by lia. rewrite A. unfold truthy.
  repeat split; destruct (v / 32768 =? 0); reflexivity.
Qed.
Lemma word4_add a b c d : chan8 b -> chan8 c -> chan8 d -> word4 a b c d = 2 ^ 24 * a + 2 ^ 16 * b + 2 ^ 8 * c + d.
Proof.
  unfold chan8, word4. intros Hb Hc Hd.
  rewrite Z.lor_comm, (Z.lor_comm _ (Z.shiftl c 8)), Z.lor_assoc.
  rewrite (lor_add d c 8) by (try (change (2 ^ 8) with 256); lia). change (2 ^ 8) with 256.
  rewrite (Z.lor_comm (Z.shiftl a 24)), Z.lor_assoc.
  rewrite (lor_add (d + 256 * c) b 16) by (try (change (2 ^ 16) with 65536); lia). change (2 ^ 16) with 65536.
  rewrite (lor_add (d + 256 * c + 65536 * b) a 24) by (try (change (2 ^ 24) with 16777216); lia). lia.
Qed.
Lemma luts_words v : 0 <= v < 65536 -> let c := unpack255 v in
  lut_rgba v = 2 ^ 24 * cr c + 2 ^ 16 * cg c + 2 ^ 8 * cb c + ca c /\
  lut_argb v = 2 ^ 24 * ca c + 2 ^ 16 * cr c + 2 ^ 8 * cg c + cb c /\
  lut_bgra v = 2 ^ 24 * cb c + 2 ^ 16 * cg c + 2 ^ 8 * cr c + ca c /\
  lut_abgr v = 2 ^ 24 * ca c + 2 ^ 16 * cb c + 2 ^ 8 * cg c + cr c.
Proof.
  intros Hv. destruct (helpers_agree v Hv) as (_ & _ & _ & E). cbv zeta. unfold lut_rgba, lut_argb, lut_bgra, lut_abgr. rewrite E.
  assert (W : chan8 (cr (unpack255 v)) /\ chan8 (cg (unpack255 v)) /\ chan8 (cb (unpack255 v)) /\ chan8 (ca (unpack255 v))).
  { unfold unpack255. rewrite unpack_div. cbn [cr cg cb ca]. repeat split; try (apply exp5_ok, chan5_mod); destruct (truthy _); lia. }
  destruct W as (W1 & W2 & W3 & W4). rewrite !word4_add by assumption. auto.
Qed.

(** ** lossy conversions and the older functions *)
Lemma fin_bytes v : 0 <= v < 65536 -> fin BYTES_2 v = Ok (VBytes (v mod 256) (v / 256)).
Proof. intros H. exact (convert_int_ok v BYTES_2 H). Qed.
Lemma convert_down c : wf RGBA255 (VTup c) ->
  let c' := C4 (con5 (cr c)) (con5 (cg c)) (con5 (cb c)) (if 128 <=? ca c then 1 else 0) in
  let v := cr c' + 32 * cg c' + 1024 * cb c' + 32768 * ca c' in
  convert (VTup c) RGBA255 RGB5A5 = Ok (VTup (C4 (cr c') (cg c') (cb c') (con5 (ca c)))) /\
  convert (VTup c) RGBA255 RGB5A1 = Ok (VTup c') /\ convert (VTup c) RGBA255 INT_16 = Ok (VInt v) /\
  convert (VTup c) RGBA255 BYTES_2 = Ok (VBytes (v mod 256) (v / 256)).
Proof.
  cbn [wf]. intros H. cbv zeta. cbn [cr cg cb ca convert]. split; [reflexivity|]. split; [reflexivity|].
  assert (R : chan5 (con5 (cr c)) /\ chan5 (con5 (cg c)) /\ chan5 (con5 (cb c))) by (repeat split; apply con5_range; apply H).
  destruct R as (R1 & R2 & R3). rewrite packTuple_small by assumption. split; [reflexivity|]. apply fin_bytes. unfold chan5 in *. destruct (128 <=? ca c); lia.
Qed.
Lemma alpha_down c : wf RGB5A5 (VTup c) ->
  convert (VTup c) RGB5A5 RGB5A1 = Ok (VTup (C4 (cr c) (cg c) (cb c) (if 16 <=? ca c then 1 else 0))) /\
  convert (VTup c) RGB5A5 INT_16 = Ok (VInt (cr c + 32 * cg c + 1024 * cb c + 32768 * (if 16 <=? ca c then 1 else 0))).
Proof.
  cbn [wf]. intros [(R1 & R2 & R3) _]. cbn [convert fin]. split; [reflexivity|]. rewrite packTuple_small by assumption. reflexivity.
Qed.
Lemma older_helpers c d b0 b1 : wf RGBA255 (VTup c) -> wf RGB5A1 (VTup d) -> is_byte b0 -> is_byte b1 ->
  convert (VTup c) RGBA255 RGB5A1 = Ok (VTup (contract (cr c) (cg c) (cb c) (ca c))) /\
  convert (VTup c) RGBA255 INT_16 = Ok (VInt (pack255 (cr c) (cg c) (cb c) (ca c))) /\
  convert (VTup d) RGB5A1 RGBA255 = Ok (VTup (expand (cr d) (cg d) (cb d) (ca d))) /\
  (exists x y, save (cr d) (cg d) (cb d) (ca d) = Ok [x; y] /\ convert (VTup d) RGB5A1 BYTES_2 = Ok (VBytes x y)) /\
  (exists e, load [b0; b1] = Ok e /\ convert (VBytes b0 b1) BYTES_2 RGB5A1 = Ok (VTup e)).
Proof.
  intros HC HD H0 H1. destruct (convert_down c HC) as (_ & D1 & D2 & _). cbn [cr cg cb ca] in *.
  assert (TH : (if ca c <? 128 then 0 else 1) = if 128 <=? ca c then 1 else 0) by (destruct (ca c <? 128) eqn:E; destruct (128 <=? ca c) eqn:E2; lia).
  split; [rewrite D1; unfold contract; rewrite TH; reflexivity|]. split.
  { rewrite D2. unfold pack255. rewrite TH, pack_add. cbn [wf] in HC. destruct HC as (C1 & C2 & C3 & _). apply con5_range in C1, C2, C3. unfold chan5 in *. do 2 f_equal. destruct (128 <=? ca c); lia. }
  split; [reflexivity|]. cbn [wf] in HD. destruct HD as [(R1 & R2 & R3) RA]. assert (RA' : 0 <= ca d <= 1) by lia. split.
  - set (v := cr d + 32 * cg d + 1024 * cb d + 32768 * ca d). assert (V : 0 <= v < 65536) by (unfold v, chan5 in *; lia). exists (v mod 256), (v / 256). split.
    + unfold save. rewrite pack_add. replace (cr d mod 32 + _ + _ + _) with v by (unfold v, chan5 in *; lia). pose proof (fin_bytes v V) as F. unfold fin in F. destruct (to_bytes _) as [l|]; [|discriminate]. cbn [bind] in F |- *. destruct l as [|x [|y [|]]]; try discriminate. injection F as -> ->. reflexivity.
    + cbn [convert]. rewrite packTuple_small by assumption. apply fin_bytes, V.
  - unfold load. change (get [b0; b1] 1) with (@Ok Z b1). change (get [b0; b1] 0) with (@Ok Z b0). cbn [bind]. eexists. split; [reflexivity|]. cbn [convert].
    assert (V : 0 <= Z.lor (Z.shiftl b1 8) b0 < 65536). { unfold is_byte in *. rewrite Z.lor_comm, (lor_add b0 b1 8) by (try (change (2 ^ 8) with 256); lia). change (2 ^ 8) with 256. lia. }
    rewrite convert_int_ok by exact V. rewrite unpack_div. do 3 f_equal. lia.
Qed.

(** * Proofs about the model of model.py *)
From Coq Require Import String.
From Verif Require Import PyBase PyLemmas PyTac AtLemmas CommonModel CommonLemmas InfoBlockLemmas WaveModel WaveLemmas ColorModel SbnkModel TexModel TexLemmas TexBlock RomSpec SeqRead LzLemmas HeaderProps NsbmdModel.

(** the class an ID stands for and the number of words that follow *)
Definition class_of (id : Z) : command := match command_by_id param_counts id with None => Unknown | Some p => Known (fst p) end.
Definition args_of (id : Z) : Z := match command_by_id param_counts id with None => 0 | Some p => snd p end.
Definition sum_args (ids : bytes) : Z := fold_right (fun id s => args_of id + s) 0 ids.
Lemma args_of_nonneg id : 0 <= args_of id.
Proof.
  unfold args_of. assert (H : Forall (fun p : Z * Z => 0 <= snd p) param_counts) by (unfold param_counts; repeat constructor; cbn; lia).
  revert H. generalize param_counts. induction l as [|p l IH]; cbn [command_by_id]; intros F; [lia|]. inversion F; subst. destruct (_ =? _); [assumption|apply IH; assumption].
Qed.
Lemma sum_args_nonneg ids : 0 <= sum_args ids.
Proof. induction ids as [|x r IH]; cbn [sum_args fold_right]; [lia|]. pose proof (args_of_nonneg x). unfold sum_args in IH. lia. Qed.
Lemma dl_group_eq ids : forall i, dl_group ids i = (map class_of ids, i + 4 * sum_args ids).
Proof.
  induction ids as [|id r IH]; intros i; cbn [dl_group map sum_args fold_right].
  - f_equal. lia.
  - unfold class_of at 1, args_of at 1. destruct (command_by_id param_counts id) as [p|]; rewrite IH; f_equal; unfold sum_args; lia.
Qed.
Lemma dl_loop_more fuel : forall data i k, dl_loop fuel data i <> Err OutOfFuel -> dl_loop (fuel + k) data i = dl_loop fuel data i.
Proof.
  induction fuel as [|fuel IH]; intros data i k H; [exfalso; apply H; reflexivity|]. cbn [Nat.add dl_loop] in *. destruct (i <? zlen data); [|reflexivity]. rewrite dl_group_eq in *.
  rewrite IH; [reflexivity|]. intros E. apply H. rewrite E. reflexivity.
Qed.
Lemma dl_loop_ok fuel : forall data i, 0 <= i -> Z.max 0 (zlen data - i) < Z.of_nat fuel -> exists c, dl_loop fuel data i = Ok c.
Proof.
  induction fuel as [|fuel IH]; intros data i P L; cbn [dl_loop]; [lia|].
  destruct (Z.ltb_spec i (zlen data)); [|eexists; reflexivity]. rewrite dl_group_eq. pose proof (sum_args_nonneg (slice data i (i + 4))).
  destruct (IH data (i + 4 + 4 * sum_args (slice data i (i + 4)))) as [c ->]; try lia. eexists. reflexivity.
Qed.
Lemma dl_loop_pre fuel : forall pre data i, 0 <= i -> dl_loop fuel (pre ++ data) (zlen pre + i) = dl_loop fuel data i.
Proof.
  induction fuel as [|fuel IH]; intros pre data i P; [reflexivity|]. cbn [dl_loop]. rewrite zlen_app. replace (zlen pre + i <? zlen pre + zlen data) with (i <? zlen data) by (apply Bool.eq_iff_eq_true; rewrite !Z.ltb_lt; lia).
  destruct (i <? zlen data); [|reflexivity]. pose proof (zlen_nonneg pre). rewrite slice_skip by lia. replace (zlen pre + i - zlen pre) with i by lia. replace (zlen pre + i + 4 - zlen pre) with (i + 4) by lia. rewrite !dl_group_eq.
  pose proof (sum_args_nonneg (slice data i (i + 4))). replace (zlen pre + i + 4 + 4 * sum_args (slice data i (i + 4))) with (zlen pre + (i + 4 + 4 * sum_args (slice data i (i + 4)))) by lia. rewrite IH by lia. reflexivity.
Qed.
Lemma parse_ok data : exists c, parseDisplayList data = Ok c.
Proof. apply dl_loop_ok; unfold zlen; lia. Qed.
Lemma parse_fuel data fuel : zlen data < Z.of_nat fuel -> dl_loop fuel data 0 = parseDisplayList data.
Proof.
  intros L. unfold parseDisplayList. replace fuel with (S (length data) + (fuel - S (length data)))%nat by (unfold zlen in L; lia). apply dl_loop_more.
  destruct (parse_ok data) as [c E]. unfold parseDisplayList in E. rewrite E. discriminate.
Qed.
Lemma parse_nil : parseDisplayList [] = Ok [].
Proof. reflexivity. Qed.
(** a group of at most four IDs at the end, or four IDs with something after *)
Lemma parse_last ids rest : ids <> [] -> zlen ids <= 4 -> (rest = [] \/ zlen ids = 4) -> zlen rest <= 4 * sum_args ids ->
  parseDisplayList (ids ++ rest) = Ok (map class_of ids).
Proof.
  intros NE L4 F LR. unfold parseDisplayList. cbn [dl_loop]. pose proof (zlen_nonneg ids). destruct ids as [|x r]; [congruence|]. set (ids := x :: r) in *. assert (0 < zlen ids) by (unfold ids; rewrite zlen_cons; pose proof (zlen_nonneg r); lia).
  replace (0 <? zlen (ids ++ rest)) with true by (symmetry; apply Z.ltb_lt; rewrite zlen_app; pose proof (zlen_nonneg rest); lia).
  assert (E : slice (ids ++ rest) 0 (0 + 4) = ids). { destruct F as [->|E4]; [rewrite app_nil_r; apply slice_hit_all; lia|apply slice_hit; lia]. }
  rewrite E, dl_group_eq. assert (Q : dl_loop (length (ids ++ rest)) (ids ++ rest) (0 + 4 + 4 * sum_args ids) = Ok []).
  { assert (ND : length (ids ++ rest) <> O) by (unfold ids; cbn [app length]; lia). destruct (length (ids ++ rest)); [congruence|]. cbn [dl_loop].
    replace (_ <? zlen (ids ++ rest)) with false; [reflexivity|]. symmetry. apply Z.ltb_ge. rewrite zlen_app. destruct F as [->|E4]; [rewrite zlen_nil in *; pose proof (sum_args_nonneg ids)|]; lia. }
  rewrite Q. cbn [bind]. rewrite app_nil_r. reflexivity.
Qed.
Lemma parse_group ids args rest : zlen ids = 4 -> zlen args = 4 * sum_args ids ->
  parseDisplayList (ids ++ args ++ rest) = (r <- parseDisplayList rest ;; Ok (map class_of ids ++ r)).
Proof.
  intros L4 LA. unfold parseDisplayList at 1. cbn [dl_loop]. pose proof (zlen_nonneg args). pose proof (zlen_nonneg rest).
  replace (0 <? zlen (ids ++ args ++ rest)) with true by (symmetry; apply Z.ltb_lt; rewrite !zlen_app; lia).
  rewrite slice_hit, dl_group_eq by lia. rewrite app_assoc. replace (0 + 4 + 4 * sum_args ids) with (zlen (ids ++ args) + 0) by (rewrite zlen_app; lia).
  rewrite dl_loop_pre by lia. rewrite parse_fuel; [reflexivity|]. change (Z.of_nat (length ((ids ++ args) ++ rest))) with (zlen ((ids ++ args) ++ rest)). rewrite !zlen_app. lia.
Qed.
Lemma parse_any data : data = [] \/ exists ids rest r, zlen rest < zlen data /\ parseDisplayList rest = Ok r /\ parseDisplayList data = Ok (map class_of ids ++ r) /\
  ids <> [] /\ (exists a, data = ids ++ a ++ rest).
Proof.
  destruct data as [|x d]; [left; reflexivity|right]. set (data := x :: d).
  set (ids := firstn 4 data). set (n := Z.to_nat (4 * sum_args ids)). exists ids, (skipn n (skipn 4 data)).
  destruct (parse_ok (skipn n (skipn 4 data))) as [r Er]. exists r. assert (NE : ids <> []) by (unfold ids, data; cbn; discriminate).
  assert (SP : data = ids ++ firstn n (skipn 4 data) ++ skipn n (skipn 4 data)) by (rewrite firstn_skipn; unfold ids; rewrite firstn_skipn; reflexivity).
  assert (LD : 0 < zlen data) by (unfold data; rewrite zlen_cons; pose proof (zlen_nonneg d); lia). pose proof (sum_args_nonneg ids).
  split; [rewrite !zlen_skipn; lia|]. split; [exact Er|]. split; [|split; [exact NE|eexists; exact SP]].
  assert (LI : zlen ids = Z.min 4 (zlen data)) by (unfold ids; rewrite zlen_firstn; lia).
  destruct (Z.le_gt_cases (zlen data) (4 + 4 * sum_args ids)) as [C|C].
  - assert (Q : skipn n (skipn 4 data) = []) by (apply zlen_0; rewrite !zlen_skipn; lia). rewrite Q in *. rewrite parse_nil in Er. injection Er as <-. rewrite app_nil_r in *. rewrite SP at 1. apply parse_last; try lia; try assumption.
    + destruct (Z.le_gt_cases 4 (zlen data)); [right; lia|left]. apply zlen_0. rewrite zlen_firstn, zlen_skipn. lia.
    + rewrite zlen_firstn. lia.
  - rewrite SP at 1. rewrite parse_group, Er; [reflexivity|lia|]. rewrite zlen_firstn, zlen_skipn. lia.
Qed.

(** ** files *)
Lemma block_read x block y m : 8 <= zlen block -> unpack_u 4 block 4 = Ok (zlen block) ->
  read_block (x ++ block ++ y) m (zlen x) =
    (if beq (slice block 0 4) (asc "MDL0") then names <- parse_mdl0 block ;; Ok {| nMDL0 := Some block; nModels := Some names; nTex := nTex m |}
     else if beq (slice block 0 4) (asc "TEX0") then _ <- guard (prefixb (asc "TEX0") block) AssertionError ;; t <- readTEX0 block ;; Ok {| nMDL0 := nMDL0 m; nModels := nModels m; nTex := t |}
     else Err ValueError).
Proof.
  intros L U. unfold read_block. pose proof (zlen_nonneg x). rewrite rd_skip, unpack_u_skip by lia. rewrite Z.sub_diag, rd_app_l, rd_slice by lia. cbn [bind].
  replace (zlen x + 4 - zlen x) with 4 by lia. rewrite unpack_u_app_l by (p256; lia). rewrite U. cbn [bind]. rewrite slice_mid by lia. reflexivity.
Qed.
Lemma tex0_head t f : saveTEX0 t = Ok f -> slice f 0 4 = asc "TEX0" /\ 8 <= zlen f /\ unpack_u 4 f 4 = Ok (zlen f).
Proof.
  intros H. unfold saveTEX0 in H. apply bind_ok in H as ([[[es td] c1] c2] & _ & H). apply bind_ok in H as (tb & _ & H). apply bind_ok in H as ([ps pd] & _ & H). apply bind_ok in H as (pb & _ & H).
  apply bind_ok in H as (hh & Hh & H). apply ok_inj in H. inv_pack Hh. subst f. rewrite <- !app_assoc. split; [apply slice_hit; reflexivity|]. split; [rewrite zlen_app; change (zlen (asc "TEX0")) with 4; zg|].
  rewrite unpack_u_skip by (change (zlen (asc "TEX0")) with 4; lia). change (4 - zlen (asc "TEX0")) with 0. rewrite unpack_u_hit by (p256; lia). f_equal. rewrite zlen_app. change (zlen (asc "TEX0")) with 4. zg.
Qed.
Lemma nsbmd_roundtrip m mdl names f post : tex0_good (nTex m) -> nMDL0 m = Some mdl -> parse_mdl0 mdl = Ok names -> unpack_u 4 mdl 4 = Ok (zlen mdl) -> nsbmd_save m = Ok f ->
  nsbmd_load (f ++ post) = Ok {| nMDL0 := Some mdl; nModels := Some names; nTex := tex0_loaded (nTex m) |}.
Proof.
  intros G M N U H. unfold nsbmd_save in H. rewrite M in H. apply bind_ok in H as (tex & Ht & H). apply bind_ok in H as (o1 & H1 & H). apply bind_ok in H as (o2 & H2 & H). apply bind_ok in H as (h & Hh & H). apply ok_inj in H.
  apply pack_u_inv in H1 as [_ ->]. apply pack_u_inv in H2 as [R2 ->]. apply std_pack_inv in Hh as (V1 & V2 & V3 & ->). p256.
  destruct (tex0_roundtrip (nTex m) tex [] G Ht) as [RT PT]. rewrite app_nil_r in RT, PT. destruct (tex0_head _ _ Ht) as (XH & XL & XU).
  assert (PM : slice mdl 0 4 = asc "MDL0").
  { unfold parse_mdl0 in N. apply bind_ok in N as (u & E & _). apply guard_ok in E. apply prefix_slice; [reflexivity|exact E]. }
  assert (LM : 8 <= zlen mdl) by (apply unpack_u_lt in U; lia).
  subst f. unfold nsbmd_load. rewrite <- !app_assoc. set (S := std_bytes _ _ _ _) in *.
  replace (prefixb (asc "BMD0") _) with true by (unfold S, std_bytes; rewrite <- !app_assoc, prefixb_app; reflexivity). cbn [guard bind]. unfold S at 1.
  rewrite std_unpack_hit by (reflexivity || lia). cbn [bind hVersion hBlocks Z.eqb Pos.eqb guard].
  pose proof (zlen_std (asc "BMD0") 2 (0x18 + zlen mdl + zlen tex) 2) as LS. change (zlen (asc "BMD0") + 12) with 16 in LS. fold S in LS. clearbody S.
  assert (W : words (S ++ le 4 24 ++ le 4 (24 + zlen mdl) ++ mdl ++ tex ++ post) 16 2 = Ok [24; 24 + zlen mdl]).
  { unfold words. change (range_z 0 (Z.to_nat 2)) with [0; 1]. cbn [mapM]. rewrite !unpack_u_skip by lia. rewrite LS. rdalls. reflexivity. }
  rewrite W. cbn [bind foldM].
  replace 24 with (zlen (S ++ le 4 24 ++ le 4 (24 + zlen mdl))) at 3 by (rewrite !zlen_app, !zlen_le; lia).
  replace (S ++ le 4 24 ++ le 4 (24 + zlen mdl) ++ mdl ++ tex ++ post) with ((S ++ le 4 24 ++ le 4 (24 + zlen mdl)) ++ mdl ++ (tex ++ post)) at 1 by (rewrite <- !app_assoc; reflexivity).
  rewrite block_read, PM by assumption. change (beq (asc "MDL0") (asc "MDL0")) with true. cbv iota. rewrite N. cbn [bind].
  replace (24 + zlen mdl) with (zlen (S ++ le 4 24 ++ le 4 (24 + zlen mdl) ++ mdl)) at 2 by (rewrite !zlen_app, !zlen_le; lia).
  replace (S ++ le 4 24 ++ le 4 (24 + zlen mdl) ++ mdl ++ tex ++ post) with ((S ++ le 4 24 ++ le 4 (24 + zlen mdl) ++ mdl) ++ tex ++ post) by (rewrite <- !app_assoc; reflexivity).
  rewrite block_read, XH by assumption. change (beq (asc "TEX0") (asc "MDL0")) with false. change (beq (asc "TEX0") (asc "TEX0")) with true. cbv iota. rewrite PT. cbn [guard bind]. rewrite RT. reflexivity.
Qed.

(** ** tables *)
Lemma words_of data off n f : 0 <= off -> 0 <= n -> off + 4 * n <= zlen data -> (forall i, 0 <= i < n -> f i = unle (slice data (off + 4 * i) (off + 4 * i + 4))) ->
  words data off n = Ok (map f (range_z 0 (Z.to_nat n))).
Proof.
  intros P N L F. unfold words. apply mapM_map. intros i Hi. apply in_range_z in Hi. rewrite unpack_word by lia. rewrite F by lia. reflexivity.
Qed.
Lemma skip_pairs_ok data off n : 0 <= off -> 0 <= n -> off + 4 * n <= zlen data -> skip_pairs data off n = Ok tt.
Proof.
  intros P N L. unfold skip_pairs. rewrite (mapM_map _ (fun i => unle (slice data (off + 4 * i + 2) (off + 4 * i + 2 + 2)))); [reflexivity|].
  intros i Hi. apply in_range_z in Hi. rewrite !unpack_word by lia. reflexivity.
Qed.
Lemma read_table_at es b x y : saveInfoBlock es 4 = Ok b -> Forall name_fits es -> read_table (x ++ b ++ y) (zlen x) = Ok (map (fun e => unle (ieData e)) es, map name_of es, zlen x + zlen b).
Proof.
  intros H Hn. apply saveInfo_shape in H as [(H1 & H2 & H3 & F1 & F2 & F3 & H4) E].
  pose proof (zlen_nonneg b) as Hsz. pose proof (zlen_nonneg es) as P0. rewrite Forall_forall in F1, F2, F3, Hn.
  assert (LU : zlen (concat (map unk_bytes es)) = zlen es * 4) by (apply zlen_concat_map; intros; unfold unk_bytes; zg).
  assert (LD : zlen (concat (map ieData es)) = zlen es * 4) by (apply zlen_concat_map; intros; apply F2; assumption).
  assert (LN : zlen (concat (map name_bytes es)) = zlen es * 16) by (apply zlen_concat_map; intros; apply zlen_name_bytes, Hn; assumption).
  assert (LB : zlen b = 16 + 24 * zlen es). { rewrite E. zg. }
  set (szb := zlen b) in *. clearbody szb.
  set (U := concat (map unk_bytes es)) in *. set (D := concat (map ieData es)) in *. set (N := concat (map name_bytes es)) in *.
  rewrite E. rewrite <- !app_assoc. unfold read_table. cbv zeta.
  rdalls. change (8 =? 8) with true. change (383 =? 383) with true. cbn [guard bind].
  rewrite skip_pairs_ok by zg. cbn [bind]. rdalls. change (4 =? 4) with true. cbn [guard bind].
  match goal with |- context [words ?d _ _] => set (DATA := d) end.
  assert (W : words DATA (zlen x + 4 + 8 + 4 * zlen es + 4) (zlen es) = Ok (map (fun e => unle (ieData e)) es)).
  { unfold words. rewrite length_zlen. apply mapM_table. intros l1 e l2 Ex. rewrite ?(Z.add_0_l (zlen l1)). pose proof (zlen_nonneg l1).
    destruct (concat_at ieData 4 l1 e l2) as (ED & LD1 & LDx); [intros; apply F2; rewrite Ex; assumption|]. rewrite <- Ex in ED. change (D = concat (map ieData l1) ++ ieData e ++ concat (map ieData l2)) in ED.
    assert (Q : rd DATA (zlen x + 4 + 8 + 4 * zlen es + 4 + 4 * zlen l1) 4 = Ok (ieData e)). { unfold DATA. rewrite ED. rewrite <- !app_assoc. clearbody U N D. rdalls. reflexivity. }
    unfold unpack_u, unpack_e. change (Z.of_nat 4) with 4. rewrite Q. reflexivity. }
  rewrite W. cbn [bind].
  assert (T : table_names DATA (zlen x + 4 + 8 + 4 * zlen es + 4 + 4 * zlen es) (zlen es) = map name_of es).
  { unfold table_names. assert (Q : mapM (fun i => Ok (rstrip 0 (slice DATA (zlen x + 4 + 8 + 4 * zlen es + 4 + 4 * zlen es + 16 * i) (zlen x + 4 + 8 + 4 * zlen es + 4 + 4 * zlen es + 16 * i + 16)))) (range_z 0 (Z.to_nat (zlen es))) = Ok (map name_of es)).
    { rewrite length_zlen. apply mapM_table. intros l1 e l2 Ex. rewrite ?(Z.add_0_l (zlen l1)). pose proof (zlen_nonneg l1).
      assert (Inx : In e es) by (rewrite Ex; apply in_or_app; right; left; reflexivity).
      destruct (concat_at name_bytes 16 l1 e l2) as (EN & LN1 & LNx); [intros; apply zlen_name_bytes, Hn; rewrite Ex; assumption|]. rewrite <- Ex in EN. change (N = concat (map name_bytes l1) ++ name_bytes e ++ concat (map name_bytes l2)) in EN.
      match goal with |- context [slice _ ?i (?i + 16)] => set (o2 := i) end.
      assert (R4 : slice DATA o2 (o2 + 16) = name_bytes e). { unfold DATA, o2. rewrite EN. rewrite <- !app_assoc. clearbody U N D. rdalls. reflexivity. }
      rewrite R4. unfold name_bytes, rep. rewrite rstrip_app_rep by apply Hn, Inx. reflexivity. }
    rewrite (mapM_map _ (fun i => rstrip 0 (slice DATA (zlen x + 4 + 8 + 4 * zlen es + 4 + 4 * zlen es + 16 * i) (zlen x + 4 + 8 + 4 * zlen es + 4 + 4 * zlen es + 16 * i + 16)))) in Q by reflexivity. injection Q as Q. exact Q. }
  rewrite T. f_equal. f_equal. lia.
Qed.
Lemma mdl0_table data ws names o : prefixb (asc "MDL0") data = true -> read_table data 8 = Ok (ws, names, o) ->
  parse_mdl0 data = (_ <- mapM (read_model data) ws ;; Ok names).
Proof.
  intros P H. unfold read_table in H. cbv zeta in H. change (8 + 1) with 9 in H. change (8 + 2) with 10 in H. change (8 + 4) with 12 in H. change (8 + 4 + 8) with 20 in H.
  unfold parse_mdl0. rewrite P. cbn [guard bind]. cbv zeta. repeat (apply bind_ok in H as (? & ?E & H)).
  repeat match goal with E : guard _ _ = Ok _ |- _ => apply guard_ok in E end.
  injection H as <- <- _.
  rewrite E. cbn [bind]. rewrite E0. cbn [bind]. rewrite E1. cbn [bind]. rewrite E2. cbn [bind]. rewrite E3. cbn [bind]. rewrite E4. cbn [bind]. rewrite E5, E6. cbn [guard bind].
  change (12 + 8) with 20 in *. rewrite E7. cbn [bind]. rewrite E8. cbn [bind]. rewrite E9. cbn [bind]. rewrite E11. cbn [bind]. reflexivity.
Qed.
Lemma read_polygon_ok data base p : 0 <= base + p -> base + p + 16 <= zlen data -> exists c, read_polygon data base p = Ok c.
Proof. intros P L. unfold read_polygon. rewrite !unpack_word by lia. cbn [bind]. apply parse_ok. Qed.
Lemma read_model_ok data off mo po m t p q bm bt bp bq : 0 <= off -> off + 64 <= zlen data -> unpack_u 4 data (off + 8) = Ok mo -> unpack_u 4 data (off + 12) = Ok po ->
  saveInfoBlock m 4 = Ok bm -> saveInfoBlock t 4 = Ok bt -> saveInfoBlock p 4 = Ok bp -> saveInfoBlock q 4 = Ok bq ->
  Forall name_fits m -> Forall name_fits t -> Forall name_fits p -> Forall name_fits q ->
  at_ data (off + mo + 4) (bm ++ bt ++ bp) -> at_ data (off + po) bq ->
  Forall (fun e => 0 <= off + po + unle (ieData e) /\ off + po + unle (ieData e) + 16 <= zlen data) q ->
  read_model data off = Ok tt.
Proof.
  intros P L U1 U2 S1 S2 S3 S4 N1 N2 N3 N4 A B F. unfold read_model. rewrite rd_slice by lia. cbn [bind]. rewrite U1. cbn [bind]. rewrite U2. cbn [bind].
  assert (RT : forall o es b, at_ data o b -> saveInfoBlock es 4 = Ok b -> Forall name_fits es -> read_table data o = Ok (map (fun e => unle (ieData e)) es, map name_of es, o + zlen b)).
  { intros o es b AT SV NF. apply at_split in AT as (x & y & -> & <-). apply read_table_at; assumption. }
  apply at_app in A as [A1 A2]. apply at_app in A2 as [A2 A3].
  rewrite (RT _ _ _ A1 S1 N1). cbn [bind]. rewrite (RT _ _ _ A2 S2 N2). cbn [bind]. rewrite (RT _ _ _ A3 S3 N3). cbn [bind]. rewrite (RT _ _ _ B S4 N4). cbn [bind].
  assert (Q : exists r, mapM (read_polygon data (off + po)) (map (fun e => unle (ieData e)) q) = Ok r).
  { clear - F. induction q as [|e q IH]; cbn [map mapM]; [eexists; reflexivity|]. inversion F as [|? ? [F1 F2] F3]; subst. destruct (read_polygon_ok data (off + po) (unle (ieData e)) F1 F2) as [c ->]. cbn [bind]. destruct (IH F3) as [r ->]. eexists. reflexivity. }
  destruct Q as [r ->]. reflexivity.
Qed.
(** what a load leaves in the attributes *)
Lemma blocks_invariant data offs : forall m m', foldM (read_block data) m offs = Ok m' ->
  (nMDL0 m = None /\ nModels m = None \/ exists d n, nMDL0 m = Some d /\ nModels m = Some n /\ parse_mdl0 d = Ok n) ->
  (nMDL0 m' = None /\ nModels m' = None \/ exists d n, nMDL0 m' = Some d /\ nModels m' = Some n /\ parse_mdl0 d = Ok n).
Proof.
  induction offs as [|o offs IH]; intros m m' H I; cbn [foldM] in H; [injection H as <-; exact I|].
  apply bind_ok in H as (m1 & H1 & H). apply (IH m1 m' H). unfold read_block in H1. repeat (apply bind_ok in H1 as (? & _ & H1)). destruct (beq _ _).
  - apply bind_ok in H1 as (n & E & H1). injection H1 as <-. right. eexists. eexists. cbn. split; [reflexivity|]. split; [reflexivity|exact E].
  - destruct (beq _ _); [|discriminate]. apply bind_ok in H1 as (? & _ & H1). apply bind_ok in H1 as (? & _ & H1). injection H1 as <-. exact I.
Qed.
Definition has_names (x : tex0) : Prop := Forall (fun p => exists n, fst p = Some n) (xTextures x) /\ Forall (fun p => exists n, fst p = Some n) (xPalettes x).
Lemma loadInfo_named data off e es : loadInfoBlock data off e = Ok es -> Forall (fun e => exists n, ieName e = Some n) es.
Proof.
  intros H. unfold loadInfoBlock in H. cbv zeta in H. repeat (apply bind_ok in H as (? & _ & H)). apply mapM_Forall2 in H. induction H as [|i e0 l l' Q F IH]; constructor; [|exact IH].
  unfold loadInfoEntry in Q. apply bind_ok in Q as (? & _ & Q). apply bind_ok in Q as (? & _ & Q). injection Q as <-. cbn. eexists. reflexivity.
Qed.
Lemma readTEX0_named data x : readTEX0 data = Ok x -> has_names x.
Proof.
  intros H. unfold readTEX0 in H. do 17 (apply bind_ok in H as (? & _ & H)). apply bind_ok in H as (es & E1 & H). apply bind_ok in H as (ts & E2 & H). apply bind_ok in H as (ps & E3 & H).
  apply bind_ok in H as (pts & E4 & H). cbv zeta in H. apply bind_ok in H as (pals & E5 & H). injection H as <-. split; cbn [xTextures xPalettes].
  - apply loadInfo_named in E1. apply mapM_Forall2 in E2. induction E2 as [|e t l l' Q F IH]; [constructor|]. inversion E1 as [|? ? [n N] E1']; subst. constructor; [|apply IH, E1'].
    unfold read_texture in Q. do 4 (apply bind_ok in Q as (? & _ & Q)). cbv zeta in Q. match type of Q with (let (_, _) := ?c in _) = _ => destruct c as [d1 d2] end. injection Q as <-. cbn [fst]. exists n. exact N.
  - apply loadInfo_named in E3. apply mapM_Forall2 in E4. apply mapM_Forall2 in E5. clear E1 E2. revert E5. generalize pts at 1. intros pts'. intros E5. revert pals E5.
    set (st := sort_by _ _). clearbody st. induction E4 as [|e t l l' Q F IH]; intros pals E5; inversion E5 as [|? p ? pr Q2 F2]; subst; [constructor|]. inversion E3 as [|? ? [n N] E3']; subst. constructor; [|apply IH; assumption].
    unfold read_pt in Q. do 3 (apply bind_ok in Q as (? & _ & Q)). injection Q as <-. unfold read_palette in Q2. do 3 (apply bind_ok in Q2 as (? & _ & Q2)). cbn [fst] in Q2. apply bind_ok in Q2 as (? & _ & Q2). injection Q2 as <-. cbn [fst]. exists n. exact N.
Qed.
Lemma nsbmd_named data m : nsbmd_load data = Ok m -> has_names (nTex m).
Proof.
  intros H. unfold nsbmd_load in H. do 4 (apply bind_ok in H as (? & _ & H)). assert (I : has_names (nTex nsbmd_new)) by (split; apply Forall_nil). revert H I. generalize nsbmd_new. revert x2 m.
  induction x2 as [|o offs IH]; intros m m0 H I; cbn [foldM] in H; [injection H as <-; exact I|]. apply bind_ok in H as (m1 & H1 & H). apply (IH m m1 H).
  unfold read_block in H1. do 2 (apply bind_ok in H1 as (? & _ & H1)). cbv zeta in H1. destruct (beq _ _).
  - apply bind_ok in H1 as (? & _ & H1). injection H1 as <-. exact I.
  - destruct (beq _ _); [|discriminate]. apply bind_ok in H1 as (? & _ & H1). apply bind_ok in H1 as (t & E & H1). injection H1 as <-. cbn [nTex]. apply (readTEX0_named _ _ E).
Qed.
Lemma tex0_loaded_named x : has_names x -> tex0_loaded x = x.
Proof.
  intros [N1 N2]. destruct x as [a b c d e g ts ps]. unfold tex0_loaded. cbn in *. f_equal.
  - rewrite <- (map_id ts) at 2. apply map_ext_in. intros [o t] I. rewrite Forall_forall in N1. destruct (N1 _ I) as [n E]. cbn in E. subst. reflexivity.
  - rewrite <- (map_id ps) at 2. apply map_ext_in. intros [o t] I. rewrite Forall_forall in N2. destruct (N2 _ I) as [n E]. cbn in E. subst. reflexivity.
Qed.

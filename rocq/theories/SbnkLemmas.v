From Coq Require Import String.
From Verif Require Import PyBase PyLemmas PyTac CodeLemmas Gfx2DLemmas WaveModel WaveLemmas SeqTotal SsarLemmas SbnkModel.

(** ** notes *)
Definition note_fits (n : note) : Prop :=
  0 <= nWave n < 65536 /\ 0 <= nArch n < 65536 /\ 0 <= nPitch n < 256 /\ 0 <= nAttack n < 256 /\ 0 <= nDecay n < 256 /\
  0 <= nSustain n < 256 /\ 0 <= nRelease n < 256 /\ 0 <= nPan n < 256.
Definition noteT_fits (n : note) : Prop := note_fits n /\ 0 <= nType n < 65536.
Definition note_bytes (n : note) : bytes :=
  le 2 (nWave n) ++ le 2 (nArch n) ++ le 1 (nPitch n) ++ le 1 (nAttack n) ++ le 1 (nDecay n) ++ le 1 (nSustain n) ++ le 1 (nRelease n) ++ le 1 (nPan n).
Definition noteT_bytes (n : note) : bytes := le 2 (nType n) ++ note_bytes n.
Lemma zlen_note n : zlen (note_bytes n) = 10.
Proof. unfold note_bytes. rewrite !zlen_app, !zlen_le. reflexivity. Qed.
Lemma zlen_noteT n : zlen (noteT_bytes n) = 12.
Proof. unfold noteT_bytes. rewrite !zlen_app, zlen_note, !zlen_le. reflexivity. Qed.
Lemma note_save_ok n : note_fits n -> note_save n = Ok (note_bytes n).
Proof. intros (H1 & H2 & H3 & H4 & H5 & H6 & H7 & H8). unfold note_save. do_pack. reflexivity. Qed.
Lemma note_save_inv n d : note_save n = Ok d -> note_fits n /\ d = note_bytes n.
Proof.
  intros H. assert (F : note_fits n). { unfold note_save in H. inv_pack H. unfold note_fits. repeat split; lia. }
  rewrite note_save_ok in H by exact F. split; [exact F|congruence].
Qed.
Lemma noteT_save_ok n : noteT_fits n -> note_saveWithType n = Ok (noteT_bytes n).
Proof. intros [F T]. unfold note_saveWithType. rewrite pack_u_ok by (p256; lia). cbn [bind]. rewrite note_save_ok by exact F. reflexivity. Qed.
Lemma noteT_save_inv n d : note_saveWithType n = Ok d -> noteT_fits n /\ d = noteT_bytes n.
Proof.
  unfold note_saveWithType. intros H. apply bind_ok in H as (t & T & H). apply pack_u_inv in T as [T ->]. apply bind_ok in H as (d' & D & H).
  apply note_save_inv in D as [F ->]. p256. split; [split; [exact F|lia]|]. apply ok_inj in H. rewrite <- H. reflexivity.
Qed.
Lemma note_read_hit n pre post type : note_fits n ->
  note_read (pre ++ note_bytes n ++ post) (zlen pre) type =
  Ok {| nWave := nWave n; nArch := nArch n; nPitch := nPitch n; nAttack := nAttack n; nDecay := nDecay n;
        nSustain := nSustain n; nRelease := nRelease n; nPan := nPan n; nType := type |}.
Proof.
  intros (H1 & H2 & H3 & H4 & H5 & H6 & H7 & H8). pose proof (zlen_nonneg pre). unfold note_read, note_bytes. rewrite <- !app_assoc. rdalls. reflexivity.
Qed.
Lemma note_fromData_hit n post type : note_fits n -> type = nType n -> note_fromData (note_bytes n ++ post) type = Ok n.
Proof. intros F ->. unfold note_fromData. rewrite (note_read_hit n [] post) by exact F. destruct n; reflexivity. Qed.
Lemma noteT_fromData_hit n post : noteT_fits n -> note_fromDataWithType (noteT_bytes n ++ post) = Ok n.
Proof.
  intros [F T]. unfold note_fromDataWithType, noteT_bytes. rewrite <- app_assoc. rewrite unpack_u_hit by (p256; lia). cbn [bind].
  change 2 with (zlen (le 2 (nType n))). rewrite note_read_hit by exact F. destruct n; reflexivity.
Qed.

(** ** instruments *)
Definition body_fits (b : ibody) : Prop :=
  match b with
  | Single n => note_fits n /\ 1 <= nType n < 16
  | Ranged f ns => 0 <= f < 256 /\ 0 <= f + zlen ns - 1 < 256 /\ Forall noteT_fits ns
  | Regional rs => zlen rs <= 8 /\ Forall (fun r => is_byte (fst r) /\ noteT_fits (snd r)) rs
  end.
(** a regional instrument is readable again when it has a region and only the
    first region may end at pitch 0 *)
Definition body_good (b : ibody) : Prop :=
  match b with
  | Regional rs => match rs with [] => False | _ :: r => Forall (fun x => fst x <> 0) r end
  | _ => True
  end.
Definition body_bytes (b : ibody) : bytes :=
  match b with
  | Single n => note_bytes n
  | Ranged f ns => le 1 f ++ le 1 (f + zlen ns - 1) ++ concat (map noteT_bytes ns)
  | Regional rs => map fst rs ++ zeros (8 - zlen rs) ++ concat (map (fun r => noteT_bytes (snd r)) rs)
  end.
Lemma body_save_ok b : body_fits b -> body_save b = Ok (body_type b, body_bytes b).
Proof.
  intros F. unfold body_save. destruct b as [n|f ns|rs]; cbn [body_fits body_bytes] in *.
  - rewrite note_save_ok by apply F. reflexivity.
  - destruct F as (F1 & F2 & F3). unfold range_save. do_pack. cbn [bind]. rewrite (mapM_map _ noteT_bytes); [cbn [bind]; reflexivity|].
    intros x Hx. apply noteT_save_ok. rewrite Forall_forall in F3. apply F3, Hx.
  - destruct F as [F1 F2]. unfold regional_save. rewrite guard_true by lia. cbn [bind].
    rewrite (mapM_map _ (fun r => noteT_bytes (snd r))); [reflexivity|]. intros x Hx. rewrite Forall_forall in F2. destruct (F2 _ Hx) as [B T].
    rewrite guard_true by (apply byteb_true, B). cbn [bind]. apply noteT_save_ok, T.
Qed.
Lemma too_many rs : 8 < zlen rs -> body_save (Regional rs) = Err ValueError.
Proof. intros H. unfold body_save, regional_save. replace (zlen rs <=? 8) with false by lia. reflexivity. Qed.
Lemma body_save_inv b t d : body_save b = Ok (t, d) -> (match b with Single n => 1 <= nType n < 16 | _ => True end) -> body_fits b /\ t = body_type b /\ d = body_bytes b.
Proof.
  intros H T. assert (F : body_fits b).
  { unfold body_save in H. apply bind_ok in H as (d' & D & H). destruct b as [n|f ns|rs]; cbn [body_fits].
    - apply note_save_inv in D as [F _]. split; [exact F|exact T].
    - unfold range_save in D. apply bind_ok in D as (h & Hh & D). inv_pack Hh. apply bind_ok in D as (ds & Hds & D).
      apply (mapM_inv _ noteT_fits noteT_bytes) in Hds as [Hds _]; [|intros; apply noteT_save_inv; assumption]. repeat split; try lia. exact Hds.
    - unfold regional_save in D. apply bind_ok in D as (? & G & D). apply guard_ok in G. apply bind_ok in D as (ds & Hds & D).
      apply (mapM_inv _ (fun r : Z * note => is_byte (fst r) /\ noteT_fits (snd r)) (fun r => noteT_bytes (snd r))) in Hds as [Hds _].
      + split; [lia|exact Hds].
      + intros r0 y0 Hx. apply bind_ok in Hx as (? & G2 & Hx). apply guard_ok in G2. apply byteb_true in G2. apply noteT_save_inv in Hx as [Hx ->]. split; [split; assumption|reflexivity]. }
  rewrite body_save_ok in H by exact F. split; [exact F|]. split; congruence.
Qed.
Lemma zlen_body b : body_fits b -> zlen (body_bytes b) = match b with Single _ => 10 | Ranged _ ns => 2 + 12 * zlen ns | Regional rs => 8 + 12 * zlen rs end.
Proof.
  destruct b as [n|f ns|rs]; cbn [body_fits body_bytes].
  - intros _. apply zlen_note.
  - intros _. rewrite !zlen_app, !zlen_le, (zlen_concat_map _ _ 12) by (intros; apply zlen_noteT). lia.
  - intros [H _]. pose proof (zlen_nonneg rs). rewrite !zlen_app, zlen_map, zlen_zeros, (zlen_concat_map _ _ 12) by (lia || (intros; apply zlen_noteT)). lia.
Qed.

Lemma notes_at ns : Forall noteT_fits ns -> forall pre post l1 x l2, ns = l1 ++ x :: l2 ->
  slice (pre ++ concat (map noteT_bytes ns) ++ post) (zlen pre + 12 * zlen l1) (zlen pre + 12 * zlen l1 + 12) = noteT_bytes x.
Proof.
  intros F pre post l1 x l2 E. destruct (concat_at noteT_bytes 12 l1 x l2) as (E1 & E2 & E3); [intros; apply zlen_noteT|].
  rewrite E, E1. pose proof (zlen_nonneg pre). pose proof (zlen_nonneg l1). rewrite <- !app_assoc.
  rewrite slice_skip by lia. rewrite slice_skip by lia. apply slice_hit; lia.
Qed.
Lemma range_hit f ns pre post : body_fits (Ranged f ns) ->
  range_fromData (pre ++ body_bytes (Ranged f ns) ++ post) (zlen pre) = Ok (Ranged f ns, 2 + 12 * zlen ns).
Proof.
  intros (F1 & F2 & F3). pose proof (zlen_nonneg pre). pose proof (zlen_nonneg ns). unfold range_fromData. cbn [body_bytes]. rewrite <- !app_assoc.
  set (T := concat (map noteT_bytes ns)). rewrite !(unpack_u_skip _ pre) by lia. rewrite unpack_u_hit by (p256; lia). cbn [bind]. rewrite unpack_u_skip by (rewrite zlen_le; lia). rewrite unpack_u_hit by (rewrite ?zlen_le; p256; lia). cbn [bind].
  replace (Z.to_nat (f + zlen ns - 1 - f + 1)) with (length ns) by (unfold zlen; lia).
  rewrite (mapM_table _ (fun x => x) ns); [rewrite map_id; reflexivity|]. intros l1 x l2 E. cbv zeta. rewrite Z.add_0_l.
  set (P := pre ++ le 1 f ++ le 1 (f + zlen ns - 1)).
  replace (pre ++ le 1 f ++ le 1 (f + zlen ns - 1) ++ T ++ post) with (P ++ T ++ post) by (unfold P; rewrite <- !app_assoc; reflexivity).
  replace (zlen pre + 2) with (zlen P) by (unfold P; rewrite !zlen_app, !zlen_le; lia). unfold T. rewrite (notes_at ns F3 P post l1 x l2 E).
  rewrite <- (app_nil_r (noteT_bytes x)). apply noteT_fromData_hit. rewrite Forall_forall in F3. apply F3. rewrite E. apply in_or_app. right. left. reflexivity.
Qed.
Lemma regions_loop_hit start data zs : (zs = [] \/ exists z, zs = 0 :: z) -> forall rs k,
  (0 < k -> Forall (fun x => fst x <> 0) rs) -> (k = 0 -> match rs with [] => False | _ :: r => Forall (fun x => fst x <> 0) r end) -> 0 <= k ->
  (forall l1 x l2, rs = l1 ++ x :: l2 -> note_fromDataWithType (slice data (start + 8 + 12 * (k + zlen l1)) (start + 8 + 12 * (k + zlen l1) + 12)) = Ok (snd x)) ->
  regions_loop data start k (map fst rs ++ zs) = Ok rs.
Proof.
  intros Hz. induction rs as [|[e n] rs IH]; intros k G1 G0 K R; cbn [map app regions_loop fst].
  - assert (k <> 0) by (intros ->; exact (G0 eq_refl)). destruct Hz as [->|[z ->]]; cbn [regions_loop]; [reflexivity|].
    replace (k =? 0) with false by lia. reflexivity.
  - replace ((e =? 0) && negb (k =? 0))%bool with false.
    2:{ symmetry. destruct (Z.eqb_spec k 0); cbn [negb]; [apply andb_false_r|]. assert (0 < k) as Hk by lia. specialize (G1 Hk). inversion G1 as [|? ? G]. cbn [fst] in G.
        destruct (Z.eqb_spec e 0); [contradiction|reflexivity]. }
    cbv zeta. pose proof (R [] (e, n) rs eq_refl) as R0. change (zlen (@nil (Z * note))) with 0 in R0. rewrite Z.add_0_r in R0. rewrite R0. cbn [bind snd].
    rewrite IH; [reflexivity| | | |].
    + intros _. destruct (Z.eq_dec k 0) as [->|N]; [exact (G0 eq_refl)|]. assert (0 < k) as Hk by lia. specialize (G1 Hk). inversion G1; assumption.
    + lia.
    + lia.
    + intros l1 x l2 ->. specialize (R ((e, n) :: l1) x l2 eq_refl). rewrite zlen_cons in R. replace (k + 1 + zlen l1) with (k + (1 + zlen l1)) by lia. exact R.
Qed.
Lemma regional_hit rs pre post : body_fits (Regional rs) -> body_good (Regional rs) ->
  regional_fromData (pre ++ body_bytes (Regional rs) ++ post) (zlen pre) = Ok (Regional rs, 8 + 12 * zlen rs).
Proof.
  intros [F1 F2] G. cbn [body_good] in G. pose proof (zlen_nonneg pre) as P1. pose proof (zlen_nonneg rs) as P2. unfold regional_fromData. cbn [body_bytes].
  rewrite (app_assoc (map fst rs)). set (E := map fst rs ++ zeros (8 - zlen rs)).
  assert (LE : zlen E = 8) by (unfold E; rewrite zlen_app, zlen_map, zlen_zeros by lia; lia).
  rewrite <- (map_map snd noteT_bytes). set (ns := map snd rs). set (T := concat (map noteT_bytes ns)). rewrite <- !app_assoc.
  rewrite rd_skip by lia. rewrite rd_hit by lia. cbn [bind].
  assert (FN : Forall noteT_fits ns) by (unfold ns; apply Forall_forall; intros x Hx; apply in_map_iff in Hx as (r & <- & Hr); rewrite Forall_forall in F2; apply F2, Hr).
  replace (pre ++ E ++ T ++ post) with ((pre ++ E) ++ T ++ post) by (rewrite <- !app_assoc; reflexivity).
  assert (R : regions_loop ((pre ++ E) ++ T ++ post) (zlen pre) 0 E = Ok rs).
  { unfold E at 2. apply regions_loop_hit.
    - destruct (Z.eq_dec (zlen rs) 8) as [e|e]; [left; rewrite e; reflexivity|]. right. exists (zeros (8 - zlen rs - 1)).
      replace (8 - zlen rs) with (1 + (8 - zlen rs - 1)) at 1 by lia. unfold zeros. apply rep_succ. lia.
    - lia.
    - intros _. exact G.
    - lia.
    - intros l1 x l2 Ex. rewrite Z.add_0_l. replace (zlen pre + 8) with (zlen (pre ++ E)) by (rewrite zlen_app; lia).
      assert (EN : ns = map snd l1 ++ snd x :: map snd l2) by (unfold ns; rewrite Ex, map_app; reflexivity).
      replace (zlen l1) with (zlen (map snd l1)) by apply zlen_map. unfold T. rewrite (notes_at ns FN _ _ _ _ _ EN).
      rewrite <- (app_nil_r (noteT_bytes _)). apply noteT_fromData_hit. rewrite Forall_forall in FN. apply FN. rewrite EN. apply in_or_app. right. left. reflexivity. }
  rewrite R. reflexivity.
Qed.
Lemma make_hit b pre post : body_fits b -> body_good b ->
  makeInstrumentAt (pre ++ body_bytes b ++ post) (body_type b) (zlen pre) =
  Ok (Some {| iBody := b; iKey := zlen pre; iMerge := zlen pre |}, zlen (body_bytes b)).
Proof.
  intros F G. rewrite zlen_body by exact F. unfold makeInstrumentAt. destruct b as [n|f ns|rs]; cbn [body_type].
  - destruct F as [F T]. replace (nType n =? 0) with false by lia. replace (nType n <? 16) with true by lia. unfold single_fromData. cbn [body_bytes].
    pose proof (zlen_nonneg pre). rewrite slice_skip by lia. rewrite slice_hit by (rewrite ?zlen_note; lia). rewrite <- (app_nil_r (note_bytes n)), note_fromData_hit by (exact F || reflexivity). reflexivity.
  - cbn [Z.eqb Z.ltb Z.compare Pos.compare Pos.compare_cont Pos.eqb]. rewrite range_hit by exact F. reflexivity.
  - cbn [Z.eqb Z.ltb Z.compare Pos.compare Pos.compare_cont Pos.eqb]. rewrite regional_hit by assumption. reflexivity.
Qed.
(** and what is read is always readable again *)
Lemma regions_loop_good data start : forall ends k rs, regions_loop data start k ends = Ok rs -> 0 <= k ->
  (0 < k -> Forall (fun x => fst x <> 0) rs) /\ (k = 0 -> ends <> [] -> match rs with [] => False | _ :: r => Forall (fun x => fst x <> 0) r end).
Proof.
  induction ends as [|e ends IH]; intros k rs H K; cbn [regions_loop] in H.
  - injection H as <-. split; [constructor|congruence].
  - destruct ((e =? 0) && negb (k =? 0))%bool eqn:Q.
    + injection H as <-. split; [constructor|]. intros ->. rewrite Z.eqb_refl, andb_false_r in Q. discriminate.
    + apply bind_ok in H as (n & _ & H). apply bind_ok in H as (rest & Hr & H). injection H as <-. destruct (IH (k + 1) rest Hr) as [I1 _]; [lia|]. assert (0 < k + 1) as Hk by lia. specialize (I1 Hk).
      split; [|intros _ _; exact I1]. intros Hk'. constructor; [|exact I1]. cbn [fst]. intros ->. replace (k =? 0) with false in Q by lia. discriminate.
Qed.
Lemma rd_nonempty d o x : rd d o 8 = Ok x -> x <> [].
Proof.
  intros H ->. unfold rd in H. apply bind_ok in H as (a & E & H). apply ok_inj in H. assert (L : zlen (firstn (Z.to_nat 8) (skipn (Z.to_nat a) d)) = 0) by (rewrite H; reflexivity).
  rewrite zlen_firstn, zlen_skipn in L. unfold struct_off in E. destruct (Z.ltb_spec o 0); [destruct (Z.ltb_spec 0 (o + 8)), (Z.ltb_spec (o + zlen d) 0); try discriminate; cbn [orb] in E|destruct (Z.ltb_spec (zlen d) (o + 8)); try discriminate];
  injection E as <-; lia.
Qed.
Lemma make_good data t o i n : makeInstrumentAt data t o = Ok (Some i, n) -> body_good (iBody i).
Proof.
  unfold makeInstrumentAt. destruct (t =? 0); [discriminate|]. intros H. apply bind_ok in H as ([b m] & E & H). injection H as <- <-. cbn [iBody].
  destruct (t <? 16); [unfold single_fromData in E; apply bind_ok in E as (? & _ & E); injection E as <- <-; exact I|].
  destruct (t =? 16); [unfold range_fromData in E; repeat (apply bind_ok in E as (? & _ & E)); injection E as <- <-; exact I|].
  destruct (t =? 17); [|discriminate]. unfold regional_fromData in E. apply bind_ok in E as (ends & R & E). apply bind_ok in E as (rs & L & E). injection E as <- <-.
  cbn [body_good]. destruct (regions_loop_good _ _ _ _ _ L) as [_ Q]; [lia|]. apply Q; [reflexivity|]. eapply rd_nonempty, R.
Qed.

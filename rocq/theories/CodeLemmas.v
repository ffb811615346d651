From Verif Require Import PyBase PyLemmas PyTac LzModel CodeLzLemmas CodeModel.
From Coq Require Import Permutation Sorted.

(** ** What the theorems talk about *)

Definition u32 (x : Z) : Prop := 0 <= x < 2 ^ 32.
(** the fields fit the table format *)
Definition ov_ok (x : Z * overlay) : Prop :=
  u32 (fst x) /\ u32 (oRamAddress (snd x)) /\ u32 (oRamSize (snd x)) /\ u32 (oBssSize (snd x)) /\
  u32 (oSiStart (snd x)) /\ u32 (oSiEnd (snd x)) /\ u32 (oFileID (snd x)) /\
  0 <= oCompressedSize (snd x) < 2 ^ 24 /\ 0 <= oFlags (snd x) < 256.
Definition with_data (ov : overlay) (d : bytes) : overlay :=
  {| oData := d; oRamAddress := oRamAddress ov; oRamSize := oRamSize ov; oBssSize := oBssSize ov;
     oSiStart := oSiStart ov; oSiEnd := oSiEnd ov; oFileID := oFileID ov;
     oCompressedSize := oCompressedSize ov; oFlags := oFlags ov |}.
(** an overlay whose data comes from the callback, decompressed when bit 0 of the flags is set *)
Definition reload (cb : Z -> Z -> res bytes) (x : Z * overlay) : res (Z * overlay) :=
  raw <- cb (fst x) (oFileID (snd x)) ;;
  d <- (if Z.odd (oFlags (snd x)) then code_decompress raw else Ok raw) ;;
  Ok (fst x, with_data (snd x) d).
Definition wanted (ids : option (Z -> bool)) (x : Z * overlay) : bool :=
  match ids with None => true | Some f => f (fst x) end.
Definition ascending (t : list (Z * overlay)) : Prop := StronglySorted (fun a b => fst a < fst b) t.

(** ** Sorting *)
Lemma insert_perm {V} (x : Z * V) l : Permutation (x :: l) (insert_key x l).
Proof.
  induction l as [|y l IH]; cbn [insert_key]; [reflexivity|]. destruct (fst x <=? fst y); [reflexivity|].
  rewrite perm_swap, IH. reflexivity.
Qed.
Lemma sort_perm {V} (l : list (Z * V)) : Permutation l (sort_keys l).
Proof. induction l as [|x l IH]; cbn [sort_keys]; [reflexivity|]. rewrite <- insert_perm, <- IH. reflexivity. Qed.
Lemma insert_sorted {V} (x : Z * V) l :
  StronglySorted (fun a b => fst a < fst b) l -> ~ In (fst x) (map fst l) ->
  StronglySorted (fun a b => fst a < fst b) (insert_key x l).
Proof.
  induction 1 as [|y l S IH F]; cbn [insert_key map In]; intros N; [repeat constructor|].
  destruct (Z.leb_spec (fst x) (fst y)).
  - constructor; [constructor; assumption|]. assert (fst x < fst y) by (assert (fst y <> fst x) by tauto; lia).
    constructor; [assumption|]. eapply Forall_impl; [|exact F]. cbn. lia.
  - constructor; [apply IH; tauto|]. apply (Permutation_Forall (insert_perm x l)). constructor; [lia|assumption].
Qed.
Lemma sort_sorted {V} (l : list (Z * V)) : NoDup (map fst l) -> StronglySorted (fun a b => fst a < fst b) (sort_keys l).
Proof.
  induction l as [|x l IH]; cbn [sort_keys map]; intros N; [constructor|]. inversion N; subst.
  apply insert_sorted; [apply IH; assumption|]. intros H. apply H1.
  apply (Permutation_in (fst x) (Permutation_map fst (Permutation_sym (sort_perm l)))). exact H.
Qed.
Lemma sorted_insert {V} (x : Z * V) l : Forall (fun y => fst x < fst y) l -> insert_key x l = x :: l.
Proof. destruct l as [|y l]; intros F; [reflexivity|]. inversion F; subst. cbn [insert_key]. replace (fst x <=? fst y) with true by lia. reflexivity. Qed.
Lemma sort_id {V} (l : list (Z * V)) : StronglySorted (fun a b => fst a < fst b) l -> sort_keys l = l.
Proof. induction 1 as [|x l S IH F]; cbn [sort_keys]; [reflexivity|]. rewrite IH. apply sorted_insert, F. Qed.
Lemma sorted_nodup {V} (l : list (Z * V)) : StronglySorted (fun a b => fst a < fst b) l -> NoDup (map fst l).
Proof.
  induction 1 as [|x l S IH F]; cbn [map]; constructor; [|assumption]. rewrite in_map_iff. intros (y & E & Hy).
  rewrite Forall_forall in F. specialize (F y Hy). lia.
Qed.
Lemma dset_new {V} (d : list (Z * V)) k v : ~ In k (map fst d) -> dset d k v = d ++ [(k, v)].
Proof.
  induction d as [|[k' v'] d IH]; cbn [dset map In fst app]; intros N; [reflexivity|].
  replace (k' =? k) with false by lia. rewrite IH by tauto. reflexivity.
Qed.

(** ** Rows *)
Definition row_id (b : bytes) : Z := unle (slice b 0 4).
Definition row_load (cb : Z -> Z -> res bytes) (b : bytes) : res (Z * overlay) :=
  let w k := unle (slice b (4 * k) (4 * k + 4)) in
  fileData <- cb (w 0) (w 6) ;;
  ov <- overlay_new fileData (w 1) (w 2) (w 3) (w 4) (w 5) (w 6) (Z.land (w 7) 0xFFFFFF) (Z.shiftr (w 7) 24) ;;
  Ok (w 0, ov).
Definition step (cb : Z -> Z -> res bytes) (ids : option (Z -> bool)) (ovs : list (Z * overlay)) (b : bytes) : res (list (Z * overlay)) :=
  if match ids with None => false | Some f => negb (f (row_id b)) end then Ok ovs
  else x <- row_load cb b ;; Ok (dset ovs (fst x) (snd x)).

Lemma load_ov_step t cb ids ovs i : load_ov t cb ids ovs i = (b <- rd t i 32 ;; step cb ids ovs b).
Proof.
  unfold load_ov, step, row_load, row_id. destruct (rd t i 32) as [b|]; cbn [bind]; [|reflexivity].
  change (4 * 0) with 0. change (0 + 4) with 4.
  destruct (match ids with Some f => _ | None => _ end); [reflexivity|].
  destruct (cb _ _); cbn [bind]; [|reflexivity]. destruct (overlay_new _ _ _ _ _ _ _ _ _); reflexivity.
Qed.

Lemma load_rows rows : forall pre cb ids ovs, Forall (fun b => zlen b = 32) rows -> zlen pre mod 32 = 0 ->
  foldM (load_ov (pre ++ concat rows) cb ids) ovs
    (map (fun n => 32 * n) (range_z (zlen pre / 32) (length rows))) = foldM (step cb ids) ovs rows.
Proof.
  induction rows as [|b rows IH]; intros pre cb ids ovs F M; cbn [length range_z map foldM concat]; [reflexivity|].
  inversion F; subst. rewrite load_ov_step.
  replace (32 * (zlen pre / 32)) with (zlen pre) by lia. rewrite rd_skip by lia. rewrite rd_hit by lia. cbn [bind].
  destruct (step cb ids ovs b); cbn [bind]; [|reflexivity].
  specialize (IH (pre ++ b) cb ids a H2). rewrite <- app_assoc in IH.
  replace (zlen (pre ++ b) / 32) with (zlen pre / 32 + 1) in IH by (rewrite zlen_app; lia).
  apply IH. rewrite zlen_app. lia.
Qed.
Lemma load_table rows cb ids : Forall (fun b => zlen b = 32) rows ->
  loadOverlayTable (concat rows) cb ids = foldM (step cb ids) [] rows.
Proof.
  intros F. unfold loadOverlayTable. rewrite (zlen_concat_const _ 32 F).
  replace (Z.to_nat ((zlen rows * 32 + 31) / 32)) with (length rows) by (unfold zlen; lia).
  apply (load_rows rows [] cb ids [] F). reflexivity.
Qed.

Definition row (x : Z * overlay) : bytes :=
  le 4 (fst x) ++ le 4 (oRamAddress (snd x)) ++ le 4 (oRamSize (snd x)) ++ le 4 (oBssSize (snd x)) ++
  le 4 (oSiStart (snd x)) ++ le 4 (oSiEnd (snd x)) ++ le 4 (oFileID (snd x)) ++
  le 4 (oCompressedSize (snd x) + 2 ^ 24 * oFlags (snd x)).
Lemma zlen_row x : zlen (row x) = 32.
Proof. unfold row. autorewrite with zl. reflexivity. Qed.
Lemma save_ov_row x : ov_ok x -> save_ov x = Ok (row x).
Proof.
  destruct x as [i ov]. unfold ov_ok, u32, save_ov, row. cbn [fst snd]. intros H. decompose [and] H. clear H.
  rewrite lor_add by lia. do_pack. reflexivity.
Qed.
Lemma row_w x k v l1 l2 : row x = l1 ++ le 4 v ++ l2 -> zlen l1 = 4 * k -> 0 <= v < 2 ^ 32 -> unle (slice (row x) (4 * k) (4 * k + 4)) = v.
Proof. intros E L Hv. rewrite E, slice_mid; [apply unle_le_id; p256; lia|lia|rewrite zlen_le; lia]. Qed.
Lemma flags_compressed_odd fl : flags_compressed fl = Z.odd fl.
Proof.
  unfold flags_compressed. change 1 with (2 ^ 1 - 1) at 1. rewrite land_mask by lia. change (2 ^ 1) with 2. rewrite Zmod_odd.
  destruct (Z.odd fl); reflexivity.
Qed.
Lemma row_load_row cb x : ov_ok x -> row_load cb (row x) = reload cb x.
Proof.
  intros H. unfold ov_ok, u32 in H. decompose [and] H. clear H. unfold row_load.
  assert (W0 : unle (slice (row x) (4 * 0) (4 * 0 + 4)) = fst x) by (eapply (row_w x 0 _ []); [reflexivity|reflexivity|lia]).
  assert (W1 : unle (slice (row x) (4 * 1) (4 * 1 + 4)) = oRamAddress (snd x)).
  { eapply (row_w x 1 _ (le 4 (fst x))); [reflexivity|autorewrite with zl; reflexivity|lia]. }
  assert (W2 : unle (slice (row x) (4 * 2) (4 * 2 + 4)) = oRamSize (snd x)).
  { eapply (row_w x 2 _ (le 4 (fst x) ++ le 4 (oRamAddress (snd x)))); [rewrite <- !app_assoc; reflexivity|autorewrite with zl; reflexivity|lia]. }
  assert (W3 : unle (slice (row x) (4 * 3) (4 * 3 + 4)) = oBssSize (snd x)).
  { eapply (row_w x 3 _ (le 4 (fst x) ++ le 4 (oRamAddress (snd x)) ++ le 4 (oRamSize (snd x)))); [rewrite <- !app_assoc; reflexivity|autorewrite with zl; reflexivity|lia]. }
  assert (W4 : unle (slice (row x) (4 * 4) (4 * 4 + 4)) = oSiStart (snd x)).
  { eapply (row_w x 4 _ (le 4 (fst x) ++ le 4 (oRamAddress (snd x)) ++ le 4 (oRamSize (snd x)) ++ le 4 (oBssSize (snd x)))); [rewrite <- !app_assoc; reflexivity|autorewrite with zl; reflexivity|lia]. }
  assert (W5 : unle (slice (row x) (4 * 5) (4 * 5 + 4)) = oSiEnd (snd x)).
  { eapply (row_w x 5 _ (le 4 (fst x) ++ le 4 (oRamAddress (snd x)) ++ le 4 (oRamSize (snd x)) ++ le 4 (oBssSize (snd x)) ++ le 4 (oSiStart (snd x)))); [rewrite <- !app_assoc; reflexivity|autorewrite with zl; reflexivity|lia]. }
  assert (W6 : unle (slice (row x) (4 * 6) (4 * 6 + 4)) = oFileID (snd x)).
  { eapply (row_w x 6 _ (le 4 (fst x) ++ le 4 (oRamAddress (snd x)) ++ le 4 (oRamSize (snd x)) ++ le 4 (oBssSize (snd x)) ++ le 4 (oSiStart (snd x)) ++ le 4 (oSiEnd (snd x)))); [rewrite <- !app_assoc; reflexivity|autorewrite with zl; reflexivity|lia]. }
  assert (W7 : unle (slice (row x) (4 * 7) (4 * 7 + 4)) = oCompressedSize (snd x) + 2 ^ 24 * oFlags (snd x)).
  { eapply (row_w x 7 _ (le 4 (fst x) ++ le 4 (oRamAddress (snd x)) ++ le 4 (oRamSize (snd x)) ++ le 4 (oBssSize (snd x)) ++ le 4 (oSiStart (snd x)) ++ le 4 (oSiEnd (snd x)) ++ le 4 (oFileID (snd x))) []); [rewrite <- !app_assoc, app_nil_r; reflexivity|autorewrite with zl; reflexivity|lia]. }
  rewrite W0, W1, W2, W3, W4, W5, W6, W7. clear W0 W1 W2 W3 W4 W5 W6 W7.
  change 0xFFFFFF with (2 ^ 24 - 1). rewrite land_mask by lia. rewrite Z.shiftr_div_pow2 by lia.
  replace ((oCompressedSize (snd x) + 2 ^ 24 * oFlags (snd x)) mod 2 ^ 24) with (oCompressedSize (snd x)) by lia.
  replace ((oCompressedSize (snd x) + 2 ^ 24 * oFlags (snd x)) / 2 ^ 24) with (oFlags (snd x)) by lia.
  unfold reload, overlay_new, with_data. rewrite flags_compressed_odd. destruct (cb _ _); cbn [bind]; [|reflexivity].
  destruct (if Z.odd _ then _ else _); reflexivity.
Qed.
Lemma row_id_row x : ov_ok x -> row_id (row x) = fst x.
Proof.
  intros H. unfold ov_ok, u32 in H. unfold row_id. change (slice (row x) 0 4) with (slice (row x) (4 * 0) (4 * 0 + 4)).
  eapply (row_w x 0 _ []); [reflexivity|reflexivity|tauto].
Qed.

Lemma reload_fst cb x y : reload cb x = Ok y -> fst y = fst x.
Proof. unfold reload. intros H. inv_bind. subst. reflexivity. Qed.
Lemma fold_reload cb ids t : forall acc, Forall ov_ok t -> NoDup (map fst t) -> (forall x, In x t -> ~ In (fst x) (map fst acc)) ->
  foldM (step cb ids) acc (map row t) = (r <- mapM (reload cb) (filter (wanted ids) t) ;; Ok (acc ++ r)).
Proof.
  induction t as [|x t IH]; intros acc F N D; cbn [map foldM filter mapM].
  - cbn [mapM bind]. rewrite app_nil_r. reflexivity.
  - inversion F; inversion N; subst. unfold step at 1. rewrite row_id_row by assumption.
    assert (DN : forall y, In y t -> ~ In (fst y) (map fst acc)) by (intros; apply D; right; assumption).
    unfold wanted at 1. destruct ids as [f|]; [destruct (f (fst x)); cbn [negb]|].
    2:{ cbn [bind]. rewrite IH by assumption. reflexivity. }
    all: rewrite row_load_row by assumption; cbn [mapM]; destruct (reload cb x) as [y|] eqn:E; cbn [bind]; [|reflexivity];
      apply reload_fst in E; rewrite E, dset_new by (apply D; left; reflexivity); rewrite <- E, <- surjective_pairing;
      rewrite IH; [destruct (mapM _ _); cbn [bind]; [rewrite <- app_assoc|]; reflexivity|assumption|assumption|];
      intros z Hz; rewrite map_app, in_app_iff; cbn [map In]; intros [H|[H|[]]]; [exact (DN z Hz H)|];
      apply H5; rewrite E in H; rewrite H; apply in_map; assumption.
Qed.

Lemma overlay_table_roundtrip t cb ids : NoDup (map fst t) -> Forall ov_ok t ->
  exists d t', Permutation t t' /\ ascending t' /\ saveOverlayTable t = Ok d /\ zlen d = 32 * zlen t /\
    loadOverlayTable d cb ids = mapM (reload cb) (filter (wanted ids) t').
Proof.
  intros N F. exists (concat (map row (sort_keys t))), (sort_keys t).
  assert (F' : Forall ov_ok (sort_keys t)) by (eapply Permutation_Forall; [apply sort_perm|assumption]).
  assert (R : Forall (fun b => zlen b = 32) (map row (sort_keys t))) by (apply Forall_map, Forall_forall; intros; apply zlen_row).
  split; [apply sort_perm|]. split; [apply sort_sorted, N|]. split; [|split].
  - unfold saveOverlayTable. erewrite mapM_map; [reflexivity|]. intros x Hx. apply save_ov_row. rewrite Forall_forall in F'. auto.
  - rewrite (zlen_concat_const _ 32 R), zlen_map. unfold zlen. rewrite <- (Permutation_length (sort_perm t)). lia.
  - rewrite load_table by assumption. rewrite fold_reload; [|assumption| |intros; intros []].
    + destruct (mapM _ _); reflexivity.
    + apply sorted_nodup, sort_sorted, N.
Qed.

(** the callback supplies the stored form of each overlay's own data *)
Lemma overlay_table_same t cb : NoDup (map fst t) -> Forall ov_ok t ->
  (forall id ov, In (id, ov) t -> exists raw, cb id (oFileID ov) = Ok raw /\
     if Z.odd (oFlags ov) then code_decompress raw = Ok (oData ov) else raw = oData ov) ->
  exists d t', Permutation t t' /\ ascending t' /\ saveOverlayTable t = Ok d /\ loadOverlayTable d cb None = Ok t'.
Proof.
  intros N F C. destruct (overlay_table_roundtrip t cb None N F) as (d & t' & P & A & S & _ & L).
  exists d, t'. split; [assumption|]. split; [assumption|]. split; [assumption|]. rewrite L.
  replace (filter (wanted None) t') with t'.
  2:{ clear. induction t' as [|x l IH]; cbn [filter wanted]; [reflexivity|]. rewrite <- IH. reflexivity. }
  rewrite <- (map_id t') at 2. apply mapM_map. intros [id ov] Hx.
  destruct (C id ov) as (raw & E & H); [eapply Permutation_in; [symmetry; eassumption|assumption]|].
  unfold reload. cbn [fst snd]. rewrite E. cbn [bind]. destruct (Z.odd (oFlags ov)); [rewrite H|subst raw]; cbn [bind]; destruct ov; reflexivity.
Qed.

(** *** the other direction *)
Lemma rows_of d n : zlen d = 32 * Z.of_nat n -> exists rows : list bytes, d = concat rows /\ Forall (fun b => zlen b = 32) rows /\ length rows = n.
Proof.
  revert d. induction n as [|n IH]; intros d L.
  - exists []. apply zlen_0 in L as ->. auto.
  - destruct (IH (skipn 32 d)) as (rows & E & F & Hn); [rewrite zlen_skipn; lia|].
    exists (firstn 32 d :: rows). cbn [concat length]. rewrite <- E, firstn_skipn, Hn. split; [reflexivity|]. split; [|reflexivity].
    constructor; [rewrite zlen_firstn; lia|assumption].
Qed.
Lemma le_slice b i : is_bytes b -> 0 <= i -> i + 4 <= zlen b -> le 4 (unle (slice b i (i + 4))) = slice b i (i + 4).
Proof.
  intros H Hi L. apply le_unle_n; [apply is_bytes_slice, H|]. assert (Q : zlen (slice b i (i + 4)) = 4) by (rewrite zlen_slice; lia).
  unfold zlen in Q. lia.
Qed.
Lemma unle_slice4 b i : is_bytes b -> 0 <= i -> i + 4 <= zlen b -> 0 <= unle (slice b i (i + 4)) < 2 ^ 32.
Proof.
  intros H Hi L. pose proof (unle_range _ (is_bytes_slice b i (i + 4) H)) as R.
  rewrite zlen_slice in R by lia. replace (256 ^ (i + 4 - i)) with (2 ^ 32) in R; [exact R|]. replace (i + 4 - i) with 4 by lia. reflexivity.
Qed.
Lemma row_save cb b x : is_bytes b -> zlen b = 32 -> row_load cb b = Ok x -> ov_ok x /\ row x = b /\ fst x = row_id b.
Proof.
  intros HB L H. unfold row_load, overlay_new in H. inv_bind. subst. cbn [fst snd].
  set (w k := unle (slice b (4 * k) (4 * k + 4))) in *.
  assert (R : forall k, 0 <= k < 8 -> 0 <= w k < 2 ^ 32) by (intros; apply unle_slice4; [assumption|lia|lia]).
  assert (T : Z.land (w 7) 0xFFFFFF = w 7 mod 2 ^ 24) by (apply (land_mask (w 7) 24); lia).
  assert (S : Z.shiftr (w 7) 24 = w 7 / 2 ^ 24) by (apply Z.shiftr_div_pow2; lia).
  pose proof (R 7 ltac:(lia)) as R7.
  split; [|split].
  - unfold ov_ok, u32. cbn [fst snd oRamAddress oRamSize oBssSize oSiStart oSiEnd oFileID oCompressedSize oFlags].
    change (unle (slice b (4 * 7) (4 * 7 + 4))) with (w 7).
    rewrite T, S. repeat apply conj; try (apply unle_slice4; [assumption|lia|lia]); clear - R7; lia.
  - unfold row. cbn [fst snd oRamAddress oRamSize oBssSize oSiStart oSiEnd oFileID oCompressedSize oFlags].
    change (unle (slice b (4 * 7) (4 * 7 + 4))) with (w 7).
    rewrite T, S. replace (w 7 mod 2 ^ 24 + 2 ^ 24 * (w 7 / 2 ^ 24)) with (w 7) by (clear; lia).
    unfold w. rewrite !le_slice by (assumption || lia).
    repeat match goal with |- context [4 * ?k] => let v := eval vm_compute in (4 * k) in change (4 * k) with v end.
    repeat match goal with |- context [?a + 4] => let v := eval vm_compute in (a + 4) in change (a + 4) with v end.
    rewrite !slice_app_eq by lia. apply slice_hit_all; lia.

  - reflexivity.
Qed.
Lemma resave_fold cb rows : forall acc t,
  Forall (fun b => zlen b = 32) rows -> Forall is_bytes rows ->
  StronglySorted (fun a b => row_id a < row_id b) rows ->
  Forall ov_ok acc -> ascending acc -> (forall x b, In x acc -> In b rows -> fst x < row_id b) ->
  foldM (step cb None) acc rows = Ok t ->
  ascending t /\ Forall ov_ok t /\ map row t = map row acc ++ rows.
Proof.
  induction rows as [|b rows IH]; intros acc t L B S O A D H; cbn [foldM] in H.
  - injection H as <-. rewrite app_nil_r. auto.
  - inversion L; inversion B; inversion S; subst. unfold step at 1 in H. apply bind_ok in H as (s & Hs & H).
    apply bind_ok in Hs as (x & Hx & E). injection E as <-.
    destruct (row_save cb b x) as (Ox & Rx & Ix); [assumption|assumption|assumption|].
    rewrite dset_new in H.
    2:{ rewrite in_map_iff. intros (y & E & Hy). specialize (D y b Hy (or_introl eq_refl)). lia. }
    rewrite <- surjective_pairing in H.
    destruct (IH (acc ++ [x]) t) as (A' & O' & M); [assumption|assumption|assumption| | | |assumption|].
    + apply Forall_app. split; [assumption|constructor; [assumption|constructor]].
    + clear - A D Ix. unfold ascending in *. induction A as [|y acc A IH F]; cbn [app]; [repeat constructor|]. constructor.
      * apply IH. intros z b' Hz Hb'. apply D; [right; assumption|assumption].
      * apply Forall_app. split; [assumption|]. constructor; [|constructor]. rewrite Ix. apply D; left; reflexivity.
    + intros y b' Hy Hb'. apply in_app_or in Hy as [Hy|[->|[]]]; [apply D; [assumption|right; assumption]|].
      rewrite Ix. match goal with F : Forall (fun b0 => row_id b < row_id b0) rows |- _ => rewrite Forall_forall in F; apply F; assumption end.
    + split; [assumption|]. split; [assumption|]. rewrite M, map_app, <- app_assoc. cbn [map app]. rewrite Rx. reflexivity.
Qed.
Lemma rd_short d o : 0 <= o -> zlen d < o + 32 -> rd d o 32 = Err StructError.
Proof. intros. unfold rd, struct_off. replace (o <? 0) with false by lia. replace (zlen d <? o + 32) with true by lia. reflexivity. Qed.
Lemma load_table_mod32 d cb ids t : loadOverlayTable d cb ids = Ok t -> zlen d mod 32 = 0.
Proof.
  unfold loadOverlayTable. intros H. pose proof (zlen_nonneg d) as P.
  destruct (Z.eq_dec (zlen d mod 32) 0) as [|NZ]; [assumption|exfalso].
  replace (Z.to_nat ((zlen d + 31) / 32)) with (S (Z.to_nat (zlen d / 32))) in H by lia.
  rewrite range_z_snoc, map_app, foldM_app in H. apply bind_ok in H as (s & _ & H). cbn [map foldM] in H.
  rewrite load_ov_step, rd_short in H by lia. discriminate.
Qed.
Lemma overlay_table_resave d cb t : is_bytes d -> loadOverlayTable d cb None = Ok t ->
  (forall i j, 0 <= i < j -> 32 * j < zlen d -> unle (slice d (32 * i) (32 * i + 4)) < unle (slice d (32 * j) (32 * j + 4))) ->
  saveOverlayTable t = Ok d.
Proof.
  intros B H S. pose proof (load_table_mod32 d cb None t H) as M. pose proof (zlen_nonneg d) as P.
  destruct (rows_of d (Z.to_nat (zlen d / 32))) as (rows & E & F & Ln); [lia|].
  rewrite E, load_table in H by assumption.
  assert (FB : Forall is_bytes rows).
  { rewrite E in B. clear - B. induction rows as [|b rows IH]; [constructor|]. cbn [concat] in B. apply is_bytes_app in B as [B1 B2]. constructor; auto. }
  assert (SR : StronglySorted (fun a b => row_id a < row_id b) rows).
  { assert (AT : forall r1 b r2, rows = r1 ++ b :: r2 -> unle (slice d (32 * zlen r1) (32 * zlen r1 + 4)) = row_id b /\ 32 * zlen r1 < zlen d).
    { intros r1 b r2 Er. rewrite E, Er, concat_app. cbn [concat]. rewrite Er in F. apply Forall_app in F as [F1 F2]. inversion F2; subst.
      pose proof (zlen_nonneg r1). pose proof (zlen_nonneg (concat r2)). rewrite slice_skip by (rewrite (zlen_concat_const _ 32 F1); lia). rewrite !(zlen_concat_const _ 32 F1), slice_app_l by lia.
      unfold row_id. rewrite !zlen_app, (zlen_concat_const _ 32 F1). split; [f_equal; f_equal; lia|lia]. }
    assert (G : forall r2 r1, rows = r1 ++ r2 -> StronglySorted (fun a b => row_id a < row_id b) r2).
    { induction r2 as [|b r2 IH]; intros r1 Er; constructor.
      - apply (IH (r1 ++ [b])). rewrite <- app_assoc. exact Er.
      - apply Forall_forall. intros c Hc. apply in_split in Hc as (u & v & ->).
        destruct (AT r1 b _ Er) as [A1 _]. destruct (AT (r1 ++ b :: u) c v) as [A2 A3]; [rewrite <- app_assoc; exact Er|].
        rewrite <- A1, <- A2. apply S; [|exact A3]. rewrite zlen_app, zlen_cons. pose proof (zlen_nonneg r1). pose proof (zlen_nonneg u). lia. }
    apply (G rows []). reflexivity. }
  destruct (resave_fold cb rows [] t F FB SR) as (A & O & MR); [constructor|constructor|intros ? ? []|assumption|].
  unfold saveOverlayTable. rewrite sort_id by exact A. erewrite mapM_map; [|intros x Hx; apply save_ov_row; rewrite Forall_forall in O; auto].
  cbn [bind]. change (map (fun x : Z * overlay => row x) t) with (map row t). rewrite MR. cbn [map app]. rewrite E. reflexivity.
Qed.

(** ** Overlay flags and [Overlay.save] *)
Lemma testbit_1 n : Z.testbit 1 n = (n =? 0).
Proof. destruct (Z.eqb_spec n 0) as [->|]; [reflexivity|]. destruct (Z.lt_ge_cases n 0); [apply Z.testbit_neg_r; lia|]. apply Z.bits_above_log2; [lia|]. change (Z.log2 1) with 0. lia. Qed.
Lemma testbit_2 n : Z.testbit 2 n = (n =? 1).
Proof.
  destruct (Z.lt_ge_cases n 1) as [L|L]; [destruct (Z.eqb_spec n 1); [lia|]; destruct (Z.eq_dec n 0) as [->|]; [reflexivity|apply Z.testbit_neg_r; lia]|].
  change 2 with (2 * 1). rewrite <- (Z.succ_pred n), Z.testbit_even_succ by lia. rewrite testbit_1. destruct (Z.eqb_spec (Z.pred n) 0); destruct (Z.eqb_spec (Z.succ (Z.pred n)) 1); try reflexivity; lia.
Qed.
Lemma getter0 fl : flags_compressed fl = Z.testbit fl 0.
Proof. apply (land_bit fl 0). lia. Qed.
Lemma getter1 fl : flags_verifyHash fl = Z.testbit fl 1.
Proof. apply (land_bit fl 1). lia. Qed.
Lemma setter0 v fl n : 0 <= n -> Z.testbit (set_compressed v fl) n = if n =? 0 then v else Z.testbit fl n.
Proof.
  intros Hn. unfold set_compressed. destruct v; [rewrite Z.lor_spec|rewrite Z.land_spec, Z.lnot_spec by lia];
    rewrite testbit_1; destruct (n =? 0); cbn [negb]; rewrite ?orb_true_r, ?orb_false_r, ?andb_true_r, ?andb_false_r; reflexivity.
Qed.
Lemma setter1 v fl n : 0 <= n -> Z.testbit (set_verifyHash v fl) n = if n =? 1 then v else Z.testbit fl n.
Proof.
  intros Hn. unfold set_verifyHash. destruct v; [rewrite Z.lor_spec|rewrite Z.land_spec, Z.lnot_spec by lia];
    rewrite testbit_2; destruct (n =? 1); cbn [negb]; rewrite ?orb_true_r, ?orb_false_r, ?andb_true_r, ?andb_false_r; reflexivity.
Qed.
Lemma flags_independent v fl :
  flags_compressed (set_compressed v fl) = v /\ flags_verifyHash (set_verifyHash v fl) = v /\
  (forall n, 0 <= n -> n <> 0 -> Z.testbit (set_compressed v fl) n = Z.testbit fl n) /\
  (forall n, 0 <= n -> n <> 1 -> Z.testbit (set_verifyHash v fl) n = Z.testbit fl n) /\
  flags_verifyHash (set_compressed v fl) = flags_verifyHash fl /\
  flags_compressed (set_verifyHash v fl) = flags_compressed fl /\
  (forall k, 1 <= k -> 0 <= fl < 2 ^ k -> 0 <= set_compressed v fl < 2 ^ k).
Proof.
  rewrite !getter0, !getter1, !setter0, !setter1 by lia. cbn [Z.eqb].
  split; [reflexivity|]. split; [reflexivity|]. split; [|split; [|split; [reflexivity|split; [reflexivity|]]]].
  - intros n Hn N. rewrite setter0 by assumption. destruct (Z.eqb_spec n 0); [lia|reflexivity].
  - intros n Hn N. rewrite setter1 by assumption. destruct (Z.eqb_spec n 1); [lia|reflexivity].
  - intros k Hk H. unfold set_compressed. destruct v.
    + split; [apply Z.lor_nonneg; lia|]. assert (2 ^ 1 <= 2 ^ k) by (apply Z.pow_le_mono_r; lia). change (2 ^ 1) with 2 in *.
      destruct (Z.eq_dec fl 0) as [->|]; [change (Z.lor 0 1) with 1; lia|].
      assert (P : 0 < Z.lor fl 1) by (pose proof (Z.lor_nonneg fl 1); assert (Z.lor fl 1 <> 0) by (rewrite Z.lor_eq_0_iff; lia); lia).
      apply Z.log2_lt_pow2; [assumption|]. rewrite Z.log2_lor by lia. change (Z.log2 1) with 0. apply Z.max_lub_lt; [|lia]. apply Z.log2_lt_pow2; lia.
    + split; [apply Z.land_nonneg; lia|]. destruct (Z.eq_dec (Z.land fl (Z.lnot 1)) 0) as [->|]; [lia|].
      apply Z.le_lt_trans with fl; [|lia]. change (Z.land fl (Z.lnot 1)) with (Z.ldiff fl (Z.ones 1)). rewrite Z.ldiff_ones_r, Z.shiftl_mul_pow2, Z.shiftr_div_pow2 by lia. change (2 ^ 1) with 2. clear. lia.
Qed.

(** ** Main code files *)
Definition sec_row (s : section) : bytes := le 4 (sRam s) ++ le 4 (zlen (sData s)) ++ le 4 (sBss s).
Definition sdata (l : list section) : bytes := concat (map sData l).

(** a well-formed code file: the implicit section first, then the explicit ones
    (those with data before those without), all of them multiples of 4 bytes long,
    32-bit addresses, the code settings block inside the section data *)
Record mcf_ok (m : mcf) (s0 : section) (ne em : list section) (cso : Z) : Prop := {
  ok_secs : mSections m = s0 :: ne ++ em;
  ok_s0 : sImplicit s0 = true /\ sRam s0 = mRam m /\ sBss s0 = 0 /\ zlen (sData s0) mod 4 = 0;
  ok_ne : Forall (fun s => sImplicit s = false /\ 0 < zlen (sData s) /\ zlen (sData s) mod 4 = 0) ne;
  ok_em : Forall (fun s => sImplicit s = false /\ sData s = []) em;
  ok_u32 : Forall (fun s => u32 (sRam s) /\ u32 (sBss s)) (ne ++ em);
  ok_cso : mCso m = Some cso /\ 0 <= cso /\ cso + 0x18 <= zlen (sdata (mSections m));
  ok_ram : 0 <= mRam m /\ mRam m + zlen (sdata (mSections m)) + 12 * zlen (ne ++ em) < 2 ^ 32 }.

(** [ptr] (the codeSettingsPointerAddress argument) leads to [cso] in [d]: either
    it is the address just after a pointer to the block, or it is not available
    and the magic number of the block is found at the right place *)
Definition locates (d : bytes) (ram cso : Z) (ptr : option Z) : Prop :=
  (exists p, ptr = Some p /\ p <> 0 /\ unpack_u 4 d (p - ram - 4) = Ok (ram + cso)) \/
  ((ptr = None \/ ptr = Some 0) /\ (cso + 0x1C) mod 4 = 0 /\ 0 <= cso + 0x1C < 0x8000 /\
   slice d (cso + 0x1C) (cso + 0x24) = [0x21; 0x06; 0xC0; 0xDE; 0xDE; 0xC0; 0x06; 0x21] /\
   forall i, 0 <= i < cso + 0x1C -> i mod 4 = 0 ->
     slice d i (i + 8) <> [0x21; 0x06; 0xC0; 0xDE; 0xDE; 0xC0; 0x06; 0x21]).

Definition same_layout (a b : section) : Prop :=
  sRam a = sRam b /\ sBss a = sBss b /\ sImplicit a = sImplicit b /\ zlen (sData a) = zlen (sData b).
(** the bytes of the code settings block that [save] rewrites *)
Definition settings_word (cso i : Z) : Prop := cso <= i < cso + 12 \/ cso + 0x14 <= i < cso + 0x18.

(** *** Overwriting bytes *)
Definition patch (d : bytes) (o : Z) (w : bytes) : bytes :=
  firstn (Z.to_nat o) d ++ w ++ skipn (Z.to_nat (o + zlen w)) d.
Lemma put_patch d o w : 0 <= o -> o + zlen w <= zlen d -> put d o w = Ok (patch d o w).
Proof. intros. unfold put. rewrite struct_off_in by lia. reflexivity. Qed.
Lemma zlen_patch d o w : 0 <= o -> o + zlen w <= zlen d -> zlen (patch d o w) = zlen d.
Proof. intros. unfold patch. pose proof (zlen_nonneg w). rewrite !zlen_app, zlen_firstn, zlen_skipn. lia. Qed.
Lemma patch_split d o w : 0 <= o -> o + zlen w <= zlen d ->
  exists a b c, d = a ++ b ++ c /\ zlen a = o /\ zlen b = zlen w /\ patch d o w = a ++ w ++ c.
Proof.
  intros. pose proof (zlen_nonneg w). exists (firstn (Z.to_nat o) d), (firstn (Z.to_nat (zlen w)) (skipn (Z.to_nat o) d)), (skipn (Z.to_nat (o + zlen w)) d).
  split; [|split; [|split]].
  - replace (Z.to_nat (o + zlen w)) with (Z.to_nat o + Z.to_nat (zlen w))%nat by lia. rewrite <- skipn_skipn_, firstn_skipn, firstn_skipn. reflexivity.
  - rewrite zlen_firstn. lia.
  - rewrite zlen_firstn, zlen_skipn. lia.
  - reflexivity.
Qed.
Lemma patch_mid a b c w o : zlen a = o -> zlen b = zlen w -> patch (a ++ b ++ c) o w = a ++ w ++ c.
Proof.
  intros <- L. unfold patch. rewrite length_zlen, firstn_app_exact by reflexivity. f_equal. f_equal.
  rewrite app_assoc, skipn_app_exact; [reflexivity|]. rewrite app_length. unfold zlen in *. lia.
Qed.
Lemma slice_patch_hit d o w : 0 <= o -> o + zlen w <= zlen d -> slice (patch d o w) o (o + zlen w) = w.
Proof. intros. destruct (patch_split d o w) as (a & b & c & E & La & Lb & ->); [assumption|assumption|]. apply slice_mid; lia. Qed.
Lemma slice_patch_before d o w i j : 0 <= i -> 0 <= j <= o -> o + zlen w <= zlen d -> slice (patch d o w) i j = slice d i j.
Proof. intros. destruct (patch_split d o w) as (a & b & c & -> & La & Lb & ->); [lia|assumption|]. rewrite !slice_app_l by lia. reflexivity. Qed.
Lemma get_patch_out d o w i : 0 <= o -> o + zlen w <= zlen d -> 0 <= i < o \/ o + zlen w <= i -> get (patch d o w) i = get d i.
Proof.
  intros H1 H2 Hi. destruct (patch_split d o w) as (a & b & c & -> & La & Lb & ->); [lia|assumption|]. pose proof (zlen_nonneg w).
  unfold get. replace (i <? 0) with false by lia. replace (nth_error (a ++ w ++ c) (Z.to_nat i)) with (nth_error (a ++ b ++ c) (Z.to_nat i)); [reflexivity|].
  destruct Hi as [Hi|Hi].
  - rewrite !nth_error_app1 by (unfold zlen in *; lia). reflexivity.
  - rewrite !(nth_error_app2 a) by (unfold zlen in *; lia). rewrite !nth_error_app2 by (unfold zlen in *; lia). f_equal. unfold zlen in *. lia.
Qed.
Lemma patch_app_l a b o w : 0 <= o -> o + zlen w <= zlen a -> patch (a ++ b) o w = patch a o w ++ b.
Proof.
  intros. destruct (patch_split a o w) as (x & y & z & -> & Lx & Ly & ->); [lia|assumption|].
  rewrite <- !app_assoc. apply patch_mid; assumption.
Qed.
Lemma patch_patch d o w1 w2 p : p = o + zlen w1 -> 0 <= o -> o + zlen w1 + zlen w2 <= zlen d ->
  patch (patch d o w1) p w2 = patch d o (w1 ++ w2).
Proof.
  intros -> H1 H2. pose proof (zlen_nonneg w1). pose proof (zlen_nonneg w2).
  destruct (patch_split d o (w1 ++ w2)) as (a & b & c & E & La & Lb & ->); [lia|rewrite zlen_app; lia|].
  rewrite zlen_app in Lb. set (b1 := firstn (Z.to_nat (zlen w1)) b). set (b2 := skipn (Z.to_nat (zlen w1)) b).
  assert (EB : b = b1 ++ b2) by (symmetry; apply firstn_skipn).
  assert (L1 : zlen b1 = zlen w1) by (unfold b1; rewrite zlen_firstn; lia).
  assert (L2 : zlen b2 = zlen w2) by (unfold b2; rewrite zlen_skipn; lia).
  rewrite E, EB, <- app_assoc. rewrite patch_mid by assumption. rewrite app_assoc. rewrite patch_mid; [|rewrite zlen_app; lia|assumption].
  rewrite <- !app_assoc. reflexivity.
Qed.

(** *** Reading the copy table *)
Fixpoint cut (B : bytes) (off : Z) (l : list section) : list section :=
  match l with
  | [] => []
  | s :: r => {| sData := slice B off (off + zlen (sData s)); sRam := sRam s; sBss := sBss s; sImplicit := false |}
              :: cut B (off + zlen (sData s)) r
  end.
Lemma cut_layout l : forall B off, Forall (fun s => sImplicit s = false) l -> 0 <= off -> off + zlen (sdata l) <= zlen B ->
  Forall2 same_layout (cut B off l) l /\ sdata (cut B off l) = slice B off (off + zlen (sdata l)).
Proof.
  induction l as [|s l IH]; intros B off F Ho L; cbn [cut].
  - split; [constructor|]. unfold sdata. cbn. rewrite slice_nil; [reflexivity|]. change (zlen (@nil Z)) with 0. lia.
  - inversion F; subst. assert (ES : sdata (s :: l) = sData s ++ sdata l) by reflexivity. rewrite ES, zlen_app in *.
    pose proof (zlen_nonneg (sData s)). pose proof (zlen_nonneg (sdata l)).
    destruct (IH B (off + zlen (sData s))) as [I1 I2]; [assumption|lia|lia|]. split.
    + constructor; [|assumption]. unfold same_layout. cbn [sRam sBss sImplicit sData]. rewrite zlen_slice by lia. repeat split; [congruence|lia].
    + unfold sdata in *. cbn [map concat sData]. rewrite I2, slice_app_eq by lia. f_equal. lia.
Qed.
Lemma cut_same l : forall pre B, Forall (fun s => sImplicit s = false) l -> B = pre ++ sdata l -> cut B (zlen pre) l = l.
Proof.
  induction l as [|s l IH]; intros pre B F E; cbn [cut]; [reflexivity|]. inversion F; subst.
  change (sdata (s :: l)) with (sData s ++ sdata l). f_equal.
  - rewrite slice_mid by reflexivity. destruct s as [a1 a2 a3 a4]; cbn [sRam sBss sData sImplicit] in *; congruence.
  - rewrite <- zlen_app. apply IH; [assumption|]. rewrite <- app_assoc. reflexivity.
Qed.

Lemma copy_table_ok l : forall fuel data B pre tend db,
  data = B ++ pre ++ concat (map sec_row l) ->
  tend = zlen data -> 0 <= db -> db + zlen (sdata l) <= zlen B ->
  Forall (fun s => u32 (sRam s) /\ u32 (sBss s) /\ u32 (zlen (sData s))) l -> (length l < fuel)%nat ->
  copy_table fuel data (zlen B + zlen pre) tend db = Ok (cut B db l).
Proof.
  induction l as [|s l IH]; intros fuel data B pre tend db E -> Hd HL F Hf; (destruct fuel as [|fuel]; [cbn in Hf; lia|]); cbn [copy_table cut].
  - rewrite E. cbn [map concat]. rewrite app_nil_r, zlen_app. rewrite Z.ltb_irrefl. reflexivity.
  - cbn [map concat] in E. assert (LR : zlen (sec_row s) = 12) by (unfold sec_row; autorewrite with zl; reflexivity).
    pose proof (zlen_nonneg (concat (map sec_row l))). pose proof (zlen_nonneg B). pose proof (zlen_nonneg pre).
    assert (zlen data = zlen B + zlen pre + 12 + zlen (concat (map sec_row l))) by (rewrite E, !zlen_app; lia).
    replace (zlen B + zlen pre <? zlen data) with true by lia.
    apply Forall_cons_iff in F as [(U1 & U2 & U3) F]. unfold u32 in *.
    assert (U : unpack3 data (zlen B + zlen pre) = Ok (sRam s, zlen (sData s), sBss s)).
    { unfold unpack3. rewrite E. rewrite rd_skip by lia. rewrite rd_skip by lia. rewrite rd_hit by lia. cbn [bind]. unfold sec_row.
      rewrite slice_hit by (autorewrite with zl; reflexivity). rewrite slice_mid by (autorewrite with zl; reflexivity).
      rewrite (app_assoc (le 4 (sRam s))). rewrite <- (app_nil_r (le 4 (sBss s))). rewrite slice_mid by (autorewrite with zl; reflexivity).
      rewrite !unle_le_id by (p256; lia). reflexivity. }
    rewrite U. cbn [bind].
    change (sdata (s :: l)) with (sData s ++ sdata l) in HL. rewrite zlen_app in HL.
    pose proof (zlen_nonneg (sData s)). pose proof (zlen_nonneg (sdata l)).
    specialize (IH fuel data B (pre ++ sec_row s) (zlen data) (db + zlen (sData s))).
    replace (zlen B + zlen pre + 12) with (zlen B + zlen (pre ++ sec_row s)) by (rewrite zlen_app; lia).
    rewrite IH; [|rewrite E, <- !app_assoc; reflexivity|reflexivity|lia|lia|assumption|cbn in Hf; lia]. cbn [bind].
    rewrite E. rewrite slice_app_l by lia. reflexivity.
Qed.

(** *** Finding the settings *)
Lemma search_magic_ok n : forall d i cso,
  i mod 4 = 0 -> i <= cso + 28 < i + 4 * Z.of_nat n -> (cso + 28) mod 4 = 0 ->
  slice d (cso + 28) (cso + 36) = cs_magic ->
  (forall j, i <= j < cso + 28 -> j mod 4 = 0 -> slice d j (j + 8) <> cs_magic) ->
  search_magic n d i = Some cso.
Proof.
  induction n as [|n IH]; intros d i cso Hi Hc Hm HS HN; [lia|]. cbn [search_magic].
  destruct (Z.eq_dec i (cso + 28)) as [->|NE].
  - replace (cso + 28 + 8) with (cso + 36) by lia. rewrite HS. replace (beq cs_magic cs_magic) with true by reflexivity. f_equal. lia.
  - destruct (beq (slice d i (i + 8)) cs_magic) eqn:E.
    + apply beq_eq in E. exfalso. apply (HN i); [lia|assumption|exact E].
    + apply IH; [lia|lia|assumption|assumption|]. intros j Hj. apply HN. lia.
Qed.
Lemma find_cso_ok d ram cso ptr : locates d ram cso ptr -> 0 <= cso -> cso + 24 <= zlen d -> find_cso ram d ptr = Ok (Some cso).
Proof.
  intros [(p & -> & Hp & Hu)|(Hp & Hm & Hr & HS & HN)] H0 HL; unfold find_cso.
  - replace (p =? 0) with false by lia. unfold cso_from_pointer. rewrite Hu. replace (ram + cso - ram) with cso by lia.
    replace ((0 <=? cso) && (cso <? zlen d - 4)) with true by lia. reflexivity.
  - replace (match ptr with Some p => _ | None => _ end) with (@None Z) by (destruct Hp as [->| ->]; reflexivity).
    unfold search_cso. rewrite (search_magic_ok _ d 0 cso); [reflexivity|reflexivity|lia|assumption|assumption|exact HN].
Qed.

(** *** Loading what has the right shape *)
Lemma load_shape m s0 ne em cso B ptr d0 :
  mcf_ok m s0 ne em cso -> zlen B = zlen (sdata (mSections m)) ->
  slice B cso (cso + 12) = le 4 (mRam m + zlen B) ++ le 4 (mRam m + zlen B + 12 * zlen (ne ++ em)) ++ le 4 (mRam m + zlen (sData s0)) ->
  code_decompress d0 = Ok (B ++ concat (map sec_row (ne ++ em))) ->
  locates (B ++ concat (map sec_row (ne ++ em))) (mRam m) cso ptr ->
  mcf_new d0 (mRam m) ptr = Ok {| mSections := {| sData := slice B 0 (zlen (sData s0)); sRam := mRam m; sBss := 0; sImplicit := true |}
                                   :: cut B (zlen (sData s0)) (ne ++ em); mRam := mRam m; mCso := Some cso |}.
Proof.
  intros K LB HW HD HP. destruct K as [K1 K2 K3 K4 K5 K6 K7]. rewrite K1 in *.
  set (l := ne ++ em) in *. set (data := B ++ concat (map sec_row l)) in *.
  change (sdata (s0 :: l)) with (sData s0 ++ sdata l) in *. rewrite zlen_app in *. rewrite LB in *.
  pose proof (zlen_nonneg (sData s0)). pose proof (zlen_nonneg (sdata l)). pose proof (zlen_nonneg l). pose proof (zlen_nonneg (concat (map sec_row l))).
  assert (LT : zlen (concat (map sec_row l)) = zlen l * 12) by (apply zlen_concat_map; intros; unfold sec_row; autorewrite with zl; reflexivity).
  assert (LD : zlen data = zlen B + zlen l * 12) by (unfold data; rewrite zlen_app; lia).
  unfold mcf_new. rewrite HD. cbn [bind]. rewrite (find_cso_ok _ _ cso) by (assumption || lia). cbn [bind].
  assert (U : unpack3 data cso = Ok (mRam m + (zlen (sData s0) + zlen (sdata l)), mRam m + (zlen (sData s0) + zlen (sdata l)) + 12 * zlen l, mRam m + zlen (sData s0))).
  { unfold unpack3. rewrite (rd_slice data cso 12) by lia. cbn [bind]. unfold data. rewrite slice_app_l by lia. rewrite HW.
    rewrite slice_hit by (autorewrite with zl; reflexivity). rewrite slice_mid by (autorewrite with zl; reflexivity).
    rewrite (app_assoc (le 4 _)). rewrite <- (app_nil_r (le 4 (mRam m + zlen (sData s0)))). rewrite slice_mid by (autorewrite with zl; reflexivity).
    rewrite !unle_le_id by (p256; lia). reflexivity. }
  rewrite U. cbn [bind].
  replace (mRam m + zlen (sData s0) - mRam m) with (zlen (sData s0)) by lia.
  replace (mRam m + (zlen (sData s0) + zlen (sdata l)) - mRam m) with (zlen B + zlen (@nil Z)) by (change (zlen (@nil Z)) with 0; lia).
  rewrite (copy_table_ok l _ data B [] (mRam m + (zlen (sData s0) + zlen (sdata l)) + 12 * zlen l - mRam m) (zlen (sData s0)));
    [|reflexivity|lia|lia|lia| |unfold zlen in *; lia].
  - cbn [bind]. unfold data. rewrite slice_app_l by lia. reflexivity.
  - assert (FL : Forall (fun s => u32 (zlen (sData s))) l).
    { apply Forall_forall. intros s Hs. apply in_split in Hs as (x & y & E). rewrite E in *. unfold sdata in *. rewrite map_app, concat_app in *. cbn [map concat] in *.
      rewrite !zlen_app in *. unfold u32. pose proof (zlen_nonneg (sData s)). pose proof (zlen_nonneg (concat (map sData x))). pose proof (zlen_nonneg (concat (map sData y))). lia. }
    rewrite Forall_forall in *. intros s Hs. specialize (K5 s Hs). specialize (FL s Hs). tauto.
Qed.

(** *** Saving *)
Lemma fold_body l : forall acc, zlen acc mod 4 = 0 -> Forall (fun s => zlen (sData s) mod 4 = 0) l ->
  fold_left (fun d s => pad_to 4 0 (d ++ sData s)) l acc = acc ++ sdata l.
Proof.
  induction l as [|s l IH]; intros acc Ha F; cbn [fold_left]; [unfold sdata; cbn; rewrite app_nil_r; reflexivity|].
  inversion F; subst. assert (Hb : zlen (acc ++ sData s) mod 4 = 0) by (rewrite zlen_app; lia).
  assert (EP : pad_to 4 0 (acc ++ sData s) = acc ++ sData s).
  { unfold pad_to. replace (- zlen (acc ++ sData s) mod 4) with 0 by lia. cbn. rewrite <- app_assoc, app_nil_r. reflexivity. }
  rewrite EP, IH by assumption. rewrite <- app_assoc. reflexivity.
Qed.
Lemma filter_all {A} (f : A -> bool) l : Forall (fun x => f x = true) l -> filter f l = l.
Proof. induction 1 as [|x l H _ IH]; cbn [filter]; [reflexivity|]. rewrite H, IH. reflexivity. Qed.
Lemma filter_none {A} (f : A -> bool) l : Forall (fun x => f x = false) l -> filter f l = [].
Proof. induction 1 as [|x l H _ IH]; cbn [filter]; [reflexivity|]. rewrite H, IH. reflexivity. Qed.
Lemma save_sec_ok s : u32 (sRam s) -> u32 (sBss s) -> u32 (zlen (sData s)) -> save_sec s = Ok (sec_row s).
Proof. unfold u32, save_sec, sec_row. intros. do_pack. reflexivity. Qed.

Lemma setInt_patch d o v : 0 <= v < 2 ^ 32 -> 0 <= o -> o + 4 <= zlen d -> setInt d o v = Ok (patch d o (le 4 v)).
Proof. intros. unfold setInt. rewrite pack_u_ok by (p256; lia). cbn [bind]. apply put_patch; rewrite ?zlen_le; lia. Qed.

(** the section data after the three words at [cso] were set *)
Definition settled (m : mcf) (s0 : section) (n cso : Z) : bytes :=
  let body := sdata (mSections m) in
  patch body cso (le 4 (mRam m + zlen body) ++ le 4 (mRam m + zlen body + 12 * n) ++ le 4 (mRam m + zlen (sData s0))).

Lemma mcf_save_eq m s0 ne em cso c : mcf_ok m s0 ne em cso ->
  mcf_save m c =
    let B := settled m s0 (zlen (ne ++ em)) cso in
    let data := B ++ concat (map sec_row (ne ++ em)) in
    if c then z <- code_compress data true ;; setInt z (cso + 0x14) (mRam m + zlen z)
    else Ok (patch B (cso + 0x14) (le 4 0) ++ concat (map sec_row (ne ++ em))).
Proof.
  intros [K1 K2 K3 K4 K5 K6 K7]. destruct K6 as (C1 & C2 & C3). unfold mcf_save. rewrite C1.
  assert (M4 : Forall (fun s => zlen (sData s) mod 4 = 0) (mSections m)).
  { rewrite K1. constructor; [tauto|]. apply Forall_app. split.
    - eapply Forall_impl; [|exact K3]. cbn. tauto.
    - eapply Forall_impl; [|exact K4]. cbn. intros a [_ ->]. reflexivity. }
  rewrite fold_body by (assumption || reflexivity). cbn [app].
  set (body := sdata (mSections m)) in *. assert (EB : body = sdata (mSections m)) by reflexivity. clearbody body. rewrite K1. cbn [filter]. destruct K2 as (I0 & R0 & B0 & _). rewrite I0. cbn [negb andb].
  rewrite !filter_app.
  rewrite (filter_all _ ne), (filter_none _ em), app_nil_r.
  2:{ eapply Forall_impl; [|exact K4]. intros a (-> & ->). reflexivity. }
  2:{ eapply Forall_impl; [|exact K3]. intros a (-> & H & _). cbn [negb andb]. replace (zlen (sData a) =? 0) with false by lia. reflexivity. }
  rewrite (filter_none _ ne), (filter_all _ em).
  2:{ eapply Forall_impl; [|exact K4]. intros a (-> & ->). reflexivity. }
  2:{ eapply Forall_impl; [|exact K3]. intros a (-> & H & _). cbn [negb andb]. lia. }
  cbn [app].
  set (l := ne ++ em) in *.
  assert (FL : Forall (fun s => u32 (zlen (sData s))) l).
  { rewrite EB, K1 in K7. change (sdata (s0 :: l)) with (sData s0 ++ sdata l) in K7. rewrite zlen_app in K7. pose proof (zlen_nonneg (sData s0)). pose proof (zlen_nonneg l).
    apply Forall_forall. intros s Hs. apply in_split in Hs as (x & y & E). rewrite E in *. unfold sdata in *. rewrite map_app, concat_app in *. cbn [map concat] in *.
    rewrite !zlen_app in *. unfold u32. pose proof (zlen_nonneg (sData s)). pose proof (zlen_nonneg (concat (map sData x))). pose proof (zlen_nonneg (concat (map sData y))). lia. }
  assert (SV : forall s, In s l -> save_sec s = Ok (sec_row s)).
  { intros s Hs. rewrite Forall_forall in *. destruct (K5 s Hs). apply save_sec_ok; auto. }
  rewrite (mapM_map _ sec_row ne) by (intros; apply SV, in_or_app; left; assumption).
  rewrite (mapM_map _ sec_row em) by (intros; apply SV, in_or_app; right; assumption).
  cbn [bind]. rewrite <- concat_app, <- map_app. fold l.
  assert (LT : zlen (concat (map sec_row l)) = 12 * zlen l).
  { rewrite (zlen_concat_map sec_row l 12); [lia|]. intros; unfold sec_row; autorewrite with zl; reflexivity. }
  rewrite LT. set (tab := concat (map sec_row l)) in *.
  assert (L0 : zlen (sData s0) <= zlen body).
  { rewrite EB, K1. change (sdata (s0 :: l)) with (sData s0 ++ sdata l). rewrite zlen_app. pose proof (zlen_nonneg (sdata l)). lia. }
  pose proof (zlen_nonneg l). pose proof (zlen_nonneg body). pose proof (zlen_nonneg (sData s0)).
  assert (LA : zlen (body ++ tab) = zlen body + 12 * zlen l) by (rewrite zlen_app; lia).
  rewrite setInt_patch by lia. cbn [bind].
  rewrite setInt_patch by (rewrite ?zlen_patch; rewrite ?zlen_le; lia). cbn [bind].
  rewrite patch_patch by (rewrite ?zlen_le; lia).
  change (get (s0 :: l) 0) with (Ok s0). cbn [bind].
  assert (L8 : forall a b, zlen (le 4 a ++ le 4 b) = 8) by (intros; autorewrite with zl; reflexivity).
  rewrite setInt_patch by (rewrite ?zlen_patch; rewrite ?L8; lia). cbn [bind].
  rewrite patch_patch by (rewrite ?L8, ?zlen_le; lia). rewrite <- app_assoc.
  assert (L12 : forall a b c, zlen (le 4 a ++ le 4 b ++ le 4 c) = 12) by (intros; autorewrite with zl; reflexivity).
  rewrite patch_app_l by (rewrite ?L12; lia). cbv zeta.
  assert (ES : patch body cso (le 4 (mRam m + zlen body) ++ le 4 (mRam m + zlen body + 12 * zlen l) ++ le 4 (mRam m + zlen (sData s0))) = settled m s0 (zlen l) cso) by (rewrite EB; reflexivity).
  rewrite ES. assert (LS : zlen (settled m s0 (zlen l) cso) = zlen body) by (rewrite <- ES, zlen_patch; rewrite ?L12; lia).
  destruct c; [reflexivity|].
  rewrite setInt_patch by (rewrite ?zlen_app; lia). rewrite patch_app_l by (rewrite ?zlen_le; lia). reflexivity.
Qed.

Lemma zlen_settled m s0 ne em cso : mcf_ok m s0 ne em cso -> zlen (settled m s0 (zlen (ne ++ em)) cso) = zlen (sdata (mSections m)).
Proof.
  intros [_ _ _ _ _ K6 K7]. unfold settled. cbv zeta. apply zlen_patch; [tauto|]. autorewrite with zl. lia.
Qed.
(** outcome of loading [B] (= the data with the settings words set) *)
Definition loaded_like (m m' : mcf) (cso : Z) : Prop :=
  mRam m' = mRam m /\ mCso m' = Some cso /\ Forall2 same_layout (mSections m') (mSections m) /\
  (forall i, 0 <= i -> ~ settings_word cso i -> get (sdata (mSections m')) i = get (sdata (mSections m)) i) /\
  (forall s0 r, mSections m = s0 :: r -> cso + 0x18 <= zlen (sData s0) ->
     exists s0', mSections m' = s0' :: r /\
       forall i, 0 <= i -> ~ settings_word cso i -> get (sData s0') i = get (sData s0) i).

Lemma load_patched m s0 ne em cso w ptr d0 : mcf_ok m s0 ne em cso -> zlen w = 4 ->
  let D := patch (settled m s0 (zlen (ne ++ em)) cso) (cso + 0x14) w ++ concat (map sec_row (ne ++ em)) in
  code_decompress d0 = Ok D -> locates D (mRam m) cso ptr ->
  exists m', mcf_new d0 (mRam m) ptr = Ok m' /\ loaded_like m m' cso.
Proof.
  intros K LW D HD HP. pose proof (zlen_settled _ _ _ _ _ K) as LS.
  set (S := settled m s0 (zlen (ne ++ em)) cso) in *. pose proof K as [K1 K2 K3 K4 K5 K6 K7]. destruct K6 as (C1 & C2 & C3).
  set (B := patch S (cso + 0x14) w) in *.
  assert (L12 : forall a b c, zlen (le 4 a ++ le 4 b ++ le 4 c) = 12) by (intros; autorewrite with zl; reflexivity).
  assert (LB : zlen B = zlen (sdata (mSections m))) by (unfold B; rewrite zlen_patch; lia).
  eexists. split.
  - apply (load_shape m s0 ne em cso B ptr d0 K LB); [|exact HD|exact HP].
    rewrite LB. unfold B. rewrite slice_patch_before by lia. unfold S, settled. cbv zeta.
    match goal with |- slice (patch _ _ ?w) _ _ = _ => replace (cso + 12) with (cso + zlen w) by (rewrite L12; lia) end.
    apply slice_patch_hit; rewrite ?L12; lia.
  - assert (OUT : forall i, 0 <= i -> ~ settings_word cso i -> get B i = get (sdata (mSections m)) i).
    { intros i Hi N. unfold settings_word in N. unfold B. rewrite get_patch_out by lia. unfold S, settled. cbv zeta.
      rewrite get_patch_out by (rewrite ?L12; lia). reflexivity. }
    assert (SD : sdata (mSections m) = sData s0 ++ sdata (ne ++ em)) by (rewrite K1; reflexivity).
    assert (LL : zlen (sdata (mSections m)) = zlen (sData s0) + zlen (sdata (ne ++ em))) by (rewrite SD, zlen_app; reflexivity).
    pose proof (zlen_nonneg (sData s0)). pose proof (zlen_nonneg (sdata (ne ++ em))).
    assert (IM : Forall (fun s => sImplicit s = false) (ne ++ em)).
    { apply Forall_app. split; [eapply Forall_impl; [|exact K3]|eapply Forall_impl; [|exact K4]]; cbn; tauto. }
    destruct (cut_layout (ne ++ em) B (zlen (sData s0)) IM) as [CL CD]; [lia|lia|].
    unfold loaded_like. cbn [mRam mCso mSections]. split; [reflexivity|]. split; [reflexivity|]. split; [|split].
    + rewrite K1. constructor; [|exact CL]. destruct K2 as (I0 & R0 & B0 & _). unfold same_layout. cbn [sRam sBss sImplicit sData].
      rewrite zlen_slice by lia. repeat split; [congruence|congruence|congruence|lia].
    + match goal with |- context [sdata (?a :: ?r)] => change (sdata (a :: r)) with (sData a ++ sdata r) end. cbn [sData].
      rewrite CD. rewrite slice_app_eq by lia. rewrite <- LL, <- LB, slice_all. exact OUT.
    + intros x r E Hx. rewrite K1 in E. injection E as <- <-. eexists. split.
      * f_equal. assert (EB : B = firstn (Z.to_nat (zlen (sData s0))) B ++ sdata (ne ++ em)).
        { rewrite <- (firstn_skipn (Z.to_nat (zlen (sData s0))) B) at 1. f_equal. unfold B. unfold S, settled. cbv zeta. rewrite SD.
          rewrite (patch_app_l (sData s0)) by (rewrite ?L12; lia).
          rewrite patch_app_l by (rewrite ?zlen_patch; rewrite ?L12; lia).
          apply skipn_app_exact. match goal with |- _ = length ?x => assert (Q : zlen x = zlen (sData s0)) end.
          { rewrite !zlen_patch; rewrite ?zlen_patch; rewrite ?L12; lia. }
          unfold zlen in *. lia. }
        assert (LF : zlen (firstn (Z.to_nat (zlen (sData s0))) B) = zlen (sData s0)) by (rewrite zlen_firstn; lia).
        pose proof (cut_same _ _ B IM EB) as CS. rewrite LF in CS. exact CS.
      * intros i Hi N. cbn [sData]. destruct (Z.lt_ge_cases i (zlen (sData s0))) as [Li|Li].
        -- transitivity (get (sdata (mSections m)) i); [|rewrite SD; unfold get; replace (i <? 0) with false by lia; rewrite nth_error_app1 by (unfold zlen in *; lia); reflexivity].
           rewrite <- OUT by assumption. transitivity (get (slice B 0 (zlen (sData s0)) ++ slice B (zlen (sData s0)) (zlen B)) i); [|rewrite slice_app_eq, slice_all by lia; reflexivity].
           unfold get. replace (i <? 0) with false by lia. symmetry. rewrite nth_error_app1; [reflexivity|].
           assert (Q : zlen (slice B 0 (zlen (sData s0))) = zlen (sData s0)) by (rewrite zlen_slice; lia). unfold zlen in *; lia.
        -- unfold get. replace (i <? 0) with false by lia.
           assert (Q : zlen (slice B 0 (zlen (sData s0))) = zlen (sData s0)) by (rewrite zlen_slice; lia).
           rewrite !(proj2 (nth_error_None _ _)) by (unfold zlen in *; lia). reflexivity.
Qed.

Lemma mcf_roundtrip m s0 ne em cso : mcf_ok m s0 ne em cso ->
  exists d, mcf_save m false = Ok d /\ zlen d = zlen (sdata (mSections m)) + 12 * zlen (ne ++ em) /\
    forall ptr, code_decompress d = Ok d -> locates d (mRam m) cso ptr ->
      exists m', mcf_new d (mRam m) ptr = Ok m' /\ loaded_like m m' cso.
Proof.
  intros K. rewrite (mcf_save_eq _ _ _ _ _ _ K). cbv zeta. eexists. split; [reflexivity|]. split.
  - rewrite zlen_app, zlen_patch by (rewrite ?(zlen_settled _ _ _ _ _ K); destruct K as [_ _ _ _ _ K6 _]; autorewrite with zl; lia).
    rewrite (zlen_settled _ _ _ _ _ K). f_equal. rewrite (zlen_concat_map sec_row _ 12); [lia|]. intros; unfold sec_row; autorewrite with zl; reflexivity.
  - intros ptr HD HP. apply (load_patched m s0 ne em cso (le 4 0) ptr); [assumption|apply zlen_le|assumption|assumption].
Qed.

Lemma mcf_roundtrip_compressed m s0 ne em cso c : mcf_ok m s0 ne em cso ->
  cso + 0x18 <= 0x4000 -> zlen (sdata (mSections m)) + 12 * zlen (ne ++ em) < 2 ^ 24 ->
  mcf_save m true = Ok c -> slice_from c (-4) <> [0; 0; 0; 0] ->
  exists D, code_decompress c = Ok D /\ zlen D = zlen (sdata (mSections m)) + 12 * zlen (ne ++ em) /\
    slice D (cso + 0x14) (cso + 0x18) = le 4 (mRam m + zlen c) /\
    forall ptr, locates D (mRam m) cso ptr ->
      exists m', mcf_new c (mRam m) ptr = Ok m' /\ loaded_like m m' cso.
Proof.
  intros K Hc HL E Hne. rewrite (mcf_save_eq _ _ _ _ _ _ K) in E. cbv zeta in E. pose proof (zlen_settled _ _ _ _ _ K) as LS.
  assert (C : 0 <= cso /\ cso + 24 <= zlen (sdata (mSections m))) by (destruct K as [_ _ _ _ _ K6 _]; lia). destruct C as [C2 C3].
  set (B := settled m s0 (zlen (ne ++ em)) cso) in *. set (tab := concat (map sec_row (ne ++ em))) in *.
  assert (LT : zlen tab = 12 * zlen (ne ++ em)).
  { unfold tab. rewrite (zlen_concat_map sec_row _ 12); [lia|]. intros; unfold sec_row; autorewrite with zl; reflexivity. }
  pose proof (zlen_nonneg (ne ++ em)).
  apply bind_ok in E as (z & Ez & E). unfold code_compress in Ez. apply bind_ok in Ez as (y & Ey & Ez). injection Ez as <-.
  unfold setInt in E. apply bind_ok in E as (w & Ew & E). apply pack_u_inv in Ew as [Hw ->].
  set (P := slice_to (B ++ tab) 0x4000) in *. set (Q := slice_from (B ++ tab) 0x4000) in *.
  assert (EPQ : P ++ Q = B ++ tab) by (apply slice_split; lia).
  assert (LP : cso + 24 <= zlen P).
  { unfold P, slice_to. destruct (Z.le_gt_cases 0x4000 (zlen (B ++ tab))); [rewrite zlen_slice by lia; lia|].
    rewrite slice_hit_all by lia. rewrite zlen_app. lia. }
  assert (LPQ : zlen P + zlen Q = zlen B + zlen tab) by (rewrite <- !zlen_app, EPQ; reflexivity).
  pose proof (zlen_nonneg Q). pose proof (zlen_nonneg y).
  rewrite put_patch in E by (rewrite ?zlen_app, ?zlen_le; lia). 
  set (v := mRam m + zlen (P ++ y)) in *. assert (HE : c = patch P (cso + 20) (le 4 v) ++ y).
  { rewrite patch_app_l in E by (rewrite ?zlen_le; lia). congruence. }
  assert (LC : zlen c = zlen (P ++ y)) by (rewrite HE, !zlen_app, zlen_patch; rewrite ?zlen_le; lia).
  pose proof (code_roundtrip_gen (patch P (cso + 20) (le 4 v)) Q y [] ltac:(lia) Ey) as R. rewrite !app_nil_r, <- HE in R.
  specialize (R Hne (or_introl eq_refl)).
  assert (ED : patch P (cso + 20) (le 4 v) ++ Q = patch B (cso + 0x14) (le 4 v) ++ tab).
  { rewrite <- !patch_app_l by (rewrite ?zlen_le; lia). rewrite EPQ. reflexivity. }
  rewrite ED in R. eexists. split; [exact R|]. split; [|split].
  - rewrite zlen_app, zlen_patch by (rewrite ?zlen_le; lia). lia.
  - rewrite slice_app_l by (rewrite ?zlen_patch; rewrite ?zlen_le; lia). rewrite LC. fold v.
    replace (cso + 0x18) with (cso + 0x14 + zlen (le 4 v)) by (rewrite zlen_le; lia). apply slice_patch_hit; rewrite ?zlen_le; lia.
  - intros ptr HP. apply (load_patched m s0 ne em cso (le 4 v) ptr c); [assumption|apply zlen_le|exact R|exact HP].
Qed.

(** *** [fromSections] *)
Lemma fromSections_ok secs ram : 0 <= ram < 2 ^ 32 -> mcf_fromSections secs ram = Ok {| mSections := secs; mRam := ram; mCso := None |}.
Proof.
  intros H. unfold mcf_fromSections, mcf_new. change (code_decompress []) with (@Ok bytes []). cbn [bind].
  unfold find_cso, search_cso. assert (SM : forall n i, search_magic n [] i = None).
  { induction n as [|n IH]; intros i; cbn [search_magic]; [reflexivity|]. replace (slice (@nil Z) i (i + 8)) with (@nil Z); [apply IH|].
    unfold slice. rewrite skipn_nil, firstn_nil. reflexivity. }
  rewrite SM. change (zlen (@nil Z)) with 0. rewrite Z.add_0_r, pack_u_ok by (p256; lia). reflexivity.
Qed.
Lemma fromSections_inv secs ram m : mcf_fromSections secs ram = Ok m -> mCso m = None /\ mSections m = secs /\ mRam m = ram /\ 0 <= ram < 2 ^ 32.
Proof.
  intros H. assert (R : 0 <= ram < 2 ^ 32).
  { unfold mcf_fromSections, mcf_new in H. change (code_decompress []) with (@Ok bytes []) in H. cbn [bind] in H. unfold find_cso, search_cso in H.
    assert (SM : forall n i, search_magic n [] i = None).
    { clear. induction n as [|n IH]; intros i; cbn [search_magic]; [reflexivity|]. replace (slice (@nil Z) i (i + 8)) with (@nil Z); [apply IH|].
      unfold slice. rewrite skipn_nil, firstn_nil. reflexivity. }
    rewrite SM in H. change (zlen (@nil Z)) with 0 in H. rewrite Z.add_0_r in H.
    destruct (pack_u 4 ram) as [b|] eqn:E; [apply pack_u_inv in E as [E _]; p256; lia|discriminate]. }
  rewrite (fromSections_ok secs ram R) in H. injection H as <-. auto.
Qed.
Lemma fromSections_save secs ram m c : mcf_fromSections secs ram = Ok m -> exists e, mcf_save m c = Err e.
Proof.
  intros H. apply fromSections_inv in H as (C & _). unfold mcf_save. rewrite C. cbv zeta.
  destruct (mapM save_sec (filter (fun s => negb (sImplicit s) && negb (zlen (sData s) =? 0)) (mSections m))); cbn [bind]; [|eauto].
  destruct (mapM save_sec (filter (fun s => negb (sImplicit s) && (zlen (sData s) =? 0)) (mSections m))); cbn [bind]; [|eauto].
  destruct c; [|eauto]. destruct (code_compress _ _); cbn [bind]; eauto.
Qed.

(** *** Loading arbitrary data *)
Definition mcf_err (e : exc) : Prop := e = StructError \/ e = ValueError \/ e = RuntimeError \/ e = IndexError.
Lemma rd_err data off n e : rd data off n = Err e -> e = StructError.
Proof.
  unfold rd, struct_off. intros H. destruct (off <? 0).
  - destruct ((0 <? off + n) || (off + zlen data <? 0)); cbn [bind] in H; congruence.
  - destruct (zlen data <? off + n); cbn [bind] in H; congruence.
Qed.
Lemma rd_ok_bounds data off n b : rd data off n = Ok b -> 0 <= n -> - zlen data <= off /\ off + n <= zlen data.
Proof.
  unfold rd, struct_off. intros H Hn. pose proof (zlen_nonneg data). destruct (Z.ltb_spec off 0).
  - destruct (Z.ltb_spec 0 (off + n)); cbn [orb bind] in H; [discriminate|]. destruct (Z.ltb_spec (off + zlen data) 0); cbn [bind] in H; [discriminate|]. lia.
  - destruct (Z.ltb_spec (zlen data) (off + n)); cbn [bind] in H; [discriminate|]. lia.
Qed.
Lemma copy_table_safe fuel : forall data pos tend db, (2 <= fuel)%nat -> zlen data - Z.max pos (- zlen data) + 2 <= Z.of_nat fuel ->
  match copy_table fuel data pos tend db with Ok _ => True | Err e => e = StructError end.
Proof.
  induction fuel as [|fuel IH]; intros data pos tend db H1 H2; [lia|]. cbn [copy_table]. destruct (pos <? tend); [|exact I].
  unfold unpack3. destruct (rd data pos 12) as [b|e] eqn:E; cbn [bind]; [|exact (rd_err _ _ _ _ E)].
  apply rd_ok_bounds in E; [|lia]. specialize (IH data (pos + 12) tend (db + unle (slice b 4 8)) ltac:(lia) ltac:(lia)).
  destruct (copy_table fuel _ _ _ _); cbn [bind]; [exact I|exact IH].
Qed.
Lemma find_in_bounds data pat i : 0 <= i -> 1 <= zlen pat -> find_in data pat i (zlen data) = -1 \/ i <= find_in data pat i (zlen data) <= zlen data - zlen pat.
Proof.
  intros Hi Hp. unfold find_in. pose proof (zlen_nonneg data).
  rewrite (clamp_id (zlen data) (zlen data)) by lia.
  assert (C : Z.min i (zlen data) = clamp (zlen data) i) by (unfold clamp; destruct (Z.ltb_spec i 0); lia). rewrite <- C.
  set (a := Z.min i (zlen data)).
  pose proof (LzLemmas.find_from_spec pat data (Z.to_nat (zlen data - zlen pat - a + 1)) a ltac:(lia)) as S. cbv zeta in S. destruct S as [[S _]|[S _]]; [left; exact S|right; lia].
Qed.
Lemma search_end_safe fuel : forall data pat tend m, zlen pat = 4 -> m = -1 \/ 0 <= m <= zlen data - 4 -> (1 <= fuel)%nat -> zlen data - Z.max 0 m < Z.of_nat fuel ->
  match search_end fuel data pat tend m with Ok _ => True | Err e => e = StructError end.
Proof.
  induction fuel as [|fuel IH]; intros data pat tend m LP Hm H1 H2; [lia|]. cbn [search_end]. destruct (Z.eqb_spec m (-1)); [exact I|].
  unfold unpack_u, unpack_e. change (Z.of_nat 4) with 4. destruct (rd data (m - 4) 4) as [b|e] eqn:E; cbn [bind]; [|exact (rd_err _ _ _ _ E)].
  apply rd_ok_bounds in E; [|lia]. match goal with |- context [if ?c then _ else _] => destruct c end; [exact I|].
  pose proof (find_in_bounds data pat (m + 1) ltac:(lia) ltac:(lia)) as F.
  destruct F as [->|F].
  - destruct fuel; [lia|]. reflexivity || exact I.
  - apply IH; [assumption|lia|lia|lia].
Qed.
Lemma mcf_new_safe d ram ptr : is_bytes d ->
  match mcf_new d ram ptr with
  | Ok m => mRam m = ram /\ exists s0 r, mSections m = s0 :: r /\ sImplicit s0 = true /\ sRam s0 = ram /\ sBss s0 = 0 /\
              Forall (fun s => sImplicit s = false) r
  | Err e => mcf_err e
  end.
Proof.
  intros HB. unfold mcf_new, mcf_err. pose proof (code_decompress_safe d HB) as S. destruct (code_decompress d) as [data|e]; cbn [bind]; [|exact S]. clear S.
  assert (FC : match find_cso ram data ptr with Ok _ => True | Err e => e = StructError end).
  { unfold find_cso. match goal with |- context [match ?o with Some x => Ok (Some x) | None => _ end] => destruct o end; [exact I|].
    unfold search_cso. destruct (search_magic _ _ _); [exact I|]. destruct (pack_u 4 (ram + zlen data)) as [b|e] eqn:E; cbn [bind].
    - apply search_end_safe; [apply pack_u_inv in E as [_ ->]; apply zlen_le| |lia|unfold zlen; lia].
      assert (LB4 : zlen b = 4) by (apply pack_u_inv in E as [_ ->]; apply zlen_le). pose proof (find_in_bounds data b 0 ltac:(lia) ltac:(lia)). lia.
    - unfold pack_u, pack_e in E. destruct (_ && _); congruence. }
  destruct (find_cso ram data ptr) as [cso|e]; cbn [bind]; [|auto].
  assert (CT : forall a b c, match copy_table (S (S (2 * length data))) data a b c with Ok _ => True | Err e => e = StructError end).
  { intros. apply copy_table_safe; unfold zlen; lia. }
  assert (CI : forall n a b c r, copy_table n data a b c = Ok r -> Forall (fun s => sImplicit s = false) r).
  { clear. induction n as [|n IH]; intros a b c r H; [discriminate|]. cbn [copy_table] in H. destruct (a <? b); [|injection H as <-; constructor].
    destruct (unpack3 data a) as [[[ra sz] bs]|]; [|discriminate]. cbn [bind] in H. destruct (copy_table n data (a + 12) b (c + sz)) eqn:E; [|discriminate]. cbn [bind] in H. injection H as <-.
    constructor; [reflexivity|eapply IH; eassumption]. }
  set (hdr := match cso with Some o => _ | None => _ end).
  assert (HH : match hdr with Ok _ => True | Err e => e = StructError end).
  { unfold hdr. destruct cso as [o|]; [|exact I]. unfold unpack3. destruct (rd data o 12) eqn:E; cbn [bind]; [exact I|exact (rd_err _ _ _ _ E)]. }
  destruct hdr as [[[a b] c]|e]; cbn [bind]; [|auto]. specialize (CT a b c).
  destruct (copy_table _ data a b c) as [r|e] eqn:E; cbn [bind]; [|auto]. cbn [mRam mSections]. split; [reflexivity|].
  eexists _, _. split; [reflexivity|]. cbn [sImplicit sRam sBss]. repeat split. exact (CI _ _ _ _ _ E).
Qed.

(** ** [Overlay.save] *)
Lemma overlay_save_spec ov c d ov' : overlay_save ov c = Ok (d, ov') ->
  oRamSize ov' = zlen (oData ov) /\ oCompressedSize ov' = zlen d /\
  (forall n, 0 <= n -> Z.testbit (oFlags ov') n = if n =? 0 then c else Z.testbit (oFlags ov) n) /\
  (if c then code_compress (oData ov) false = Ok d else d = oData ov) /\
  oData ov' = oData ov /\ oRamAddress ov' = oRamAddress ov /\ oBssSize ov' = oBssSize ov /\
  oSiStart ov' = oSiStart ov /\ oSiEnd ov' = oSiEnd ov /\ oFileID ov' = oFileID ov.
Proof.
  unfold overlay_save. intros H. apply bind_ok in H as (x & Hx & H). injection H as <- <-.
  cbn [oRamSize oCompressedSize oFlags oData oRamAddress oBssSize oSiStart oSiEnd oFileID].
  split; [reflexivity|]. split; [reflexivity|]. split; [intros n Hn; apply setter0; assumption|].
  split; [destruct c; congruence|]. repeat split.
Qed.
Lemma overlay_reopen ov c d ov' : overlay_save ov c = Ok (d, ov') ->
  (c = true -> zlen (oData ov) < 2 ^ 24 /\ slice_from d (-4) <> [0; 0; 0; 0]) ->
  overlay_new d (oRamAddress ov') (oRamSize ov') (oBssSize ov') (oSiStart ov') (oSiEnd ov')
    (oFileID ov') (oCompressedSize ov') (oFlags ov') = Ok ov'.
Proof.
  intros H HC. destruct (overlay_save_spec _ _ _ _ H) as (_ & _ & FL & D & E & _). unfold overlay_new. rewrite getter0, FL by lia. cbn [Z.eqb].
  destruct c.
  - destruct (HC eq_refl) as [H1 H2]. pose proof (code_roundtrip _ _ _ [] H1 D H2 (or_introl eq_refl)) as R. rewrite !app_nil_r in R.
    rewrite R. cbn [bind]. rewrite <- E. destruct ov'; reflexivity.
  - subst d. cbn [bind]. rewrite <- E. destruct ov'; reflexivity.
Qed.

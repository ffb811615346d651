(** * Editing ROMs: names and overlays, proofs *)
From Coq Require Import Permutation Sorted.
From Verif Require Import PyBase PyLemmas LzModel CodeLzLemmas CommonModel FntModel FntSpec FntLemmas FntSaveLemmas NarcModel NarcLemmas CodeModel CodeLemmas RomModel RomSpec RomEditSpec RomLoad.

(** the part of a ROM that access by name sees *)
Definition as_narc (r : rom) : narc := {| nFilenames := filenames r; nFiles := files r; nEndian := LE |}.
Lemma rom_get_narc r name : rom_getFileByName r name = getFileByName (as_narc r) name.
Proof. unfold rom_getFileByName, getFileByName, narc_fid. cbn [as_narc nFilenames nFiles]. destruct (idOf (filenames r) name) as [[i|]|]; reflexivity. Qed.
Lemma rom_set_narc r name v r' : rom_setFileByName r name v = Ok r' -> setFileByName (as_narc r) name v = Ok (as_narc r') /\ r' = set_files r (files r').
Proof.
  unfold rom_setFileByName, setFileByName, narc_fid. cbn [as_narc nFilenames nFiles nEndian]. intros H. apply bind_ok in H as (o & E & H). rewrite E. cbn [bind].
  destruct o as [i|]; [|discriminate]. cbn [bind]. apply bind_ok in H as (fs & E' & H). rewrite E'. cbn [bind]. assert (r' = set_files r fs) as -> by congruence. split; reflexivity.
Qed.
Lemma rom_set_get r name v r' fid : idOf (filenames r) name = Ok (Some fid) -> 0 <= fid -> rom_setFileByName r name v = Ok r' ->
  r' = set_files r (files r') /\ length (files r') = length (files r) /\ rom_getFileByName r' name = Ok v /\
  (forall m fm, idOf (filenames r) m = Ok (Some fm) -> 0 <= fm -> fm <> fid -> rom_getFileByName r' m = rom_getFileByName r m).
Proof.
  intros E F H. apply rom_set_narc in H as (H & R). destruct (set_get (as_narc r) name v (as_narc r') fid E F H) as (_ & _ & L & G & O).
  split; [exact R|]. split; [exact L|]. split; [rewrite rom_get_narc; exact G|]. intros m fm. rewrite !rom_get_narc. apply O.
Qed.
Lemma rom_set_ok r name v fid : idOf (filenames r) name = Ok (Some fid) -> 0 <= fid < zlen (files r) -> exists r', rom_setFileByName r name v = Ok r'.
Proof.
  intros E F. unfold rom_setFileByName. rewrite E. cbn [bind]. unfold setl. replace (fid <? 0) with false by lia. replace (fid <? 0) with false by lia.
  replace (zlen (files r) <=? fid) with false by lia. cbn. eauto.
Qed.
Lemma rom_unknown r name v : idOf (filenames r) name = Ok None -> rom_getFileByName r name = Err ValueError /\ rom_setFileByName r name v = Err ValueError.
Proof. intros E. unfold rom_getFileByName, rom_setFileByName. rewrite E. split; reflexivity. Qed.
Lemma set_files_twice r a b : set_files (set_files r a) b = set_files r b.
Proof. reflexivity. Qed.
Lemma rom_set_all_narc ops : forall r r', rom_set_all r ops = Ok r' -> set_all (as_narc r) ops = Ok (as_narc r') /\ r' = set_files r (files r').
Proof.
  induction ops as [|[m v] ops IH]; intros r r' H; unfold rom_set_all, set_all in *; cbn [foldM fst snd] in *.
  - assert (r = r') as -> by congruence. split; [reflexivity|destruct r'; reflexivity].
  - apply bind_ok in H as (r1 & H1 & H2). apply rom_set_narc in H1 as (H1 & R1). rewrite H1. cbn [bind]. destruct (IH _ _ H2) as (I1 & I2). split; [exact I1|].
    rewrite I2, R1. reflexivity.
Qed.
Lemma rom_history ops r r' name fid : tree_ok (filenames r) -> idOf (filenames r) name = Ok (Some fid) -> rom_set_all r ops = Ok r' ->
  r' = set_files r (files r') /\ length (files r') = length (files r) /\
  rom_getFileByName r' name = match last_for (filenames r) fid ops None with Some v => Ok v | None => rom_getFileByName r name end.
Proof.
  intros T E H. apply rom_set_all_narc in H as (H & R). destruct (set_all_get ops (as_narc r) (as_narc r') name fid T E H) as (_ & L & G).
  split; [exact R|]. split; [exact L|]. rewrite !rom_get_narc. exact G.
Qed.

(** ** Overlays *)
Lemma store_spec c t : forall fs acc fs' acc', foldM (store_overlay c) (fs, acc) t = Ok (fs', acc') ->
  NoDup (map (fun x => oFileID (snd x)) t) -> Forall (fun x => 0 <= oFileID (snd x)) t ->
  exists t', acc' = acc ++ t' /\ Forall2 (fun x y => fst y = fst x /\ exists d, overlay_save (snd x) (c x) = Ok (d, snd y) /\ get fs' (oFileID (snd x)) = Ok d) t t' /\
    (forall j, 0 <= j -> ~ In j (map (fun x => oFileID (snd x)) t) -> get fs' j = get fs j) /\ length fs' = length fs.
Proof.
  induction t as [|x t IH]; intros fs acc fs' acc' H ND P; cbn [foldM] in H.
  - exists []. assert (fs = fs' /\ acc = acc') as (-> & ->) by (split; congruence). rewrite app_nil_r. split; [reflexivity|]. split; [constructor|]. split; reflexivity.
  - inversion ND as [|? ? N1 N2]; inversion P as [|? ? P1 P2]; subst. apply bind_ok in H as ([fs1 acc1] & H1 & H2). unfold store_overlay in H1. cbn [fst snd] in H1.
    apply bind_ok in H1 as ([d ov] & E & H1). apply bind_ok in H1 as (fs2 & S & H1). assert (fs2 = fs1 /\ acc1 = acc ++ [(fst x, ov)]) as (-> & ->) by (split; congruence). clear H1.
    apply setl_inv in S as (R & ->); [|exact P1]. destruct (IH _ _ _ _ H2 N2 P2) as (t' & A1 & A2 & A3 & A4). exists ((fst x, ov) :: t'). rewrite <- app_assoc in A1.
    split; [exact A1|]. split; [|split].
    + constructor; [|exact A2]. cbn [fst snd]. split; [reflexivity|]. exists d. split; [exact E|]. rewrite A3 by assumption. apply get_upd_same. lia.
    + intros j J NI. cbn [map In] in NI. rewrite A3 by tauto. apply get_upd_other; [exact P1|exact J|]. tauto.
    + rewrite A4. apply length_upd.
Qed.
Lemma Forall2_in_r {A B} (R : A -> B -> Prop) a b : Forall2 R a b -> forall y, In y b -> exists x, In x a /\ R x y.
Proof. induction 1 as [|x y a b H F IH]; intros z I; [destruct I|]. destruct I as [<-|I]; [exists x; split; [left; reflexivity|exact H]|]. destruct (IH z I) as (w & W1 & W2). exists w. split; [right; exact W1|exact W2]. Qed.
Lemma Forall2_map_eq {A B C} (R : A -> B -> Prop) (f : A -> C) (g : B -> C) a b : (forall x y, R x y -> g y = f x) -> Forall2 R a b -> map g b = map f a.
Proof. intros E. induction 1 as [|x y a b H F IH]; [reflexivity|]. cbn [map]. rewrite IH, (E _ _ H). reflexivity. Qed.
Lemma stored_overlays c fs t fs' t' : store_overlays c fs t = Ok (fs', t') ->
  NoDup (map fst t) -> NoDup (map (fun x => oFileID (snd x)) t) -> Forall ov_ok t' ->
  (forall x raw, In x t -> c x = true -> get fs' (oFileID (snd x)) = Ok raw -> zlen (oData (snd x)) < 2 ^ 24 /\ slice_from raw (-4) <> [0; 0; 0; 0]) ->
  map fst t' = map fst t /\ map (fun y => oData (snd y)) t' = map (fun x => oData (snd x)) t /\ length fs' = length fs /\
  (forall j, 0 <= j -> ~ In j (map (fun x => oFileID (snd x)) t) -> get fs' j = get fs j) /\
  exists d t'', Permutation t' t'' /\ ascending t'' /\ saveOverlayTable t' = Ok d /\ loadOverlayTable d (fun _ fid => get fs' fid) None = Ok t''.
Proof.
  intros H ND NF OK HC. unfold store_overlays in H.
  assert (P : Forall (fun x => 0 <= oFileID (snd x)) t).
  { assert (G : forall t fs acc fs' acc', foldM (store_overlay c) (fs, acc) t = Ok (fs', acc') -> Forall ov_ok acc' -> Forall (fun x => 0 <= oFileID (snd x)) t /\ Forall ov_ok acc).
    { clear. induction t as [|x t IH]; intros fs acc fs' acc' H F; cbn [foldM] in H.
      - split; [constructor|]. assert (acc = acc') as -> by congruence. exact F.
      - apply bind_ok in H as ([fs1 acc1] & H1 & H2). unfold store_overlay in H1. cbn [fst snd] in H1.
        apply bind_ok in H1 as ([d ov] & E & H1). apply bind_ok in H1 as (fs2 & S & H1). assert (acc1 = acc ++ [(fst x, ov)]) as -> by congruence.
        destruct (IH _ _ _ _ H2 F) as (I1 & I2). apply Forall_app in I2 as (I2 & I3). inversion I3 as [|? ? I4 _]; subst. split; [|exact I2]. constructor; [|exact I1].
        destruct (overlay_save_spec _ _ _ _ E) as (_ & _ & _ & _ & _ & _ & _ & _ & _ & FE). unfold ov_ok, u32 in I4. cbn [snd] in I4. lia. }
    exact (proj1 (G _ _ _ _ _ H OK)). }
  destruct (store_spec _ _ _ _ _ _ H NF P) as (t0 & E & F2 & O & L). cbn [app] in E. subst t0.
  assert (M1 : map fst t' = map fst t) by (eapply Forall2_map_eq; [|exact F2]; intros x y (X & _); exact X).
  assert (M2 : map (fun y => oData (snd y)) t' = map (fun x => oData (snd x)) t).
  { eapply (Forall2_map_eq _ (fun x => oData (snd x)) (fun y => oData (snd y))); [|exact F2]. intros x y (_ & d & S & _). destruct (overlay_save_spec _ _ _ _ S) as (_ & _ & _ & _ & X & _). exact X. }
  split; [exact M1|]. split; [exact M2|]. split; [exact L|]. split; [exact O|]. apply overlay_table_same; [rewrite M1; exact ND|exact OK|].
  intros id ov I. destruct (Forall2_in_r _ _ _ F2 _ I) as (x & X1 & X2 & d & S & G). cbn [fst snd] in *.
  destruct (overlay_save_spec _ _ _ _ S) as (_ & _ & FL & D & ED & _ & _ & _ & _ & FE). exists d. split; [rewrite FE; exact G|].
  specialize (FL 0 ltac:(lia)). cbn [Z.eqb] in FL. rewrite <- Z.bit0_odd, FL. destruct (c x) eqn:CX.
  - destruct (HC x d X1 CX G) as (H1 & H2). pose proof (code_roundtrip _ _ _ [] H1 D H2 (or_introl eq_refl)) as R. rewrite !app_nil_r in R. rewrite R, ED. reflexivity.
  - congruence.
Qed.

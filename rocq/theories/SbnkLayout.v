(** * Saving banks with instruments that no table entry points to *)
From Coq Require Import String Permutation Sorted.
From Verif Require Import PyBase PyLemmas PyTac CodeLemmas Gfx2DLemmas WaveModel WaveLemmas SeqTotal SsarLemmas SbnkModel SbnkSpec SbnkLemmas SbnkBank SbnkInacc.

(** ** the order in which instruments are written: (accessible ID, key of the dictionary, instrument) *)
Definition hid (k : option Z) (i : inst) : option Z * option Z * inst := (None, k, i).
Definition em_of (b : sbnk) (p : Z * inst) : list (option Z * option Z * inst) := (Some (fst p), Some (fst p), snd p) :: map (hid (Some (fst p))) (inacc_at b (Some (fst p))).
Definition em (b : sbnk) : list (option Z * option Z * inst) :=
  map (hid None) (inacc_at b None) ++ flat_map (em_of b) (save_order b) ++ flat_map (fun k => map (hid (Some k)) (inacc_at b (Some k))) (high_ids b).
Definition ekey (e : option Z * option Z * inst) : key := ikey (snd e).
Definition em_es (b : sbnk) : list key := dedup [] (map ekey (em b)).
Definition em_fits (b : sbnk) : Prop := forall e, In e (em b) -> body_fits (iBody (snd e)).

Lemma add_all_run : forall l st es, repr st es -> Forall (fun i => body_fits (iBody i)) l ->
  exists st', add_all st l = Ok st' /\ repr st' (es ++ dedup es (map ikey l)).
Proof.
  induction l as [|i l IH]; intros st es R F; unfold add_all; cbn [foldM map dedup].
  - exists st. rewrite app_nil_r. split; [reflexivity|exact R].
  - apply Forall_cons_iff in F as [F1 F2]. destruct (add_repr st es i R F1) as (st1 & -> & R1). cbn [bind].
    destruct (IH st1 _ R1 F2) as (st2 & E2 & R2). exists st2. split; [exact E2|]. rewrite <- app_assoc, <- dedup_app in R2. exact R2.
Qed.
Lemma map_hid k l : map ekey (map (hid k) l) = map ikey l.
Proof. rewrite map_map. reflexivity. Qed.
Lemma save_run2 b : forall l st es offs, repr st es -> (forall e, In e (flat_map (em_of b) l) -> body_fits (iBody (snd e))) ->
  let es' := es ++ dedup es (map ekey (flat_map (em_of b) l)) in
  exists st', foldM (save_one b) (st, offs) l = Ok (st', rev (map (fun p => (fst p, pos es' (ikey (snd p)))) l) ++ offs) /\ repr st' es'.
Proof.
  induction l as [|[id i] l IH]; intros st es offs R F es'.
  - exists st. unfold es'. cbn [foldM map dedup flat_map rev app]. rewrite app_nil_r. split; [reflexivity|exact R].
  - cbn [flat_map] in F. destruct (add_repr st es i R) as (st1 & A1 & R1); [apply (F (Some id, Some id, i)); left; reflexivity|].
    cbn [foldM]. unfold save_one at 1. cbn [fst snd]. rewrite A1. cbn [bind].
    destruct (add_all_run (inacc_at b (Some id)) st1 _ R1) as (st2 & A2 & R2).
    { apply Forall_forall. intros j J. apply (F (hid (Some id) j)). apply in_app_iff. left. right. cbn [fst snd]. apply in_map. exact J. }
    rewrite A2. cbn [bind].
    destruct (IH st2 _ ((id, pos (es ++ dedup es [ikey i]) (ikey i)) :: offs) R2) as (st3 & A3 & R3); [intros e E; apply F; apply in_app_iff; right; exact E|].
    assert (EQ : ((es ++ dedup es [ikey i]) ++ dedup (es ++ dedup es [ikey i]) (map ikey (inacc_at b (Some id)))) ++
      dedup ((es ++ dedup es [ikey i]) ++ dedup (es ++ dedup es [ikey i]) (map ikey (inacc_at b (Some id)))) (map ekey (flat_map (em_of b) l)) = es').
    { unfold es'. cbn [flat_map]. rewrite map_app. change (map ekey (em_of b (id, i))) with (ikey i :: map ekey (map (hid (Some id)) (inacc_at b (Some id)))). rewrite map_hid. change (ikey i :: map ikey (inacc_at b (Some id))) with ([ikey i] ++ map ikey (inacc_at b (Some id))).
      rewrite !dedup_app. rewrite <- !app_assoc. reflexivity. }
    cbv zeta in A3, R3. rewrite EQ in A3, R3. exists st3. split; [|exact R3]. rewrite A3. f_equal. f_equal. cbn [map rev fst snd]. rewrite <- app_assoc. cbn [app]. apply f_equal. apply f_equal2; [|reflexivity]. apply f_equal.
    rewrite <- EQ. rewrite <- !app_assoc. rewrite app_assoc. symmetry. apply posn_app_in. apply dedup_In. apply in_or_app. right. left. reflexivity.
Qed.
Lemma high_run b : forall l st es, repr st es -> (forall k i, In k l -> In i (inacc_at b (Some k)) -> body_fits (iBody i)) ->
  exists st', foldM (fun st k => add_all st (inacc_at b (Some k))) st l = Ok st' /\ repr st' (es ++ dedup es (map ekey (flat_map (fun k => map (hid (Some k)) (inacc_at b (Some k))) l))).
Proof.
  induction l as [|k l IH]; intros st es R F; cbn [foldM flat_map].
  - exists st. cbn [map dedup]. rewrite app_nil_r. split; [reflexivity|exact R].
  - destruct (add_all_run (inacc_at b (Some k)) st es R) as (st1 & A1 & R1); [apply Forall_forall; intros i I; exact (F k i (or_introl eq_refl) I)|]. rewrite A1. cbn [bind].
    destruct (IH st1 _ R1) as (st2 & A2 & R2); [intros k' i K I; exact (F k' i (or_intror K) I)|]. exists st2. split; [exact A2|]. rewrite map_app, map_hid, dedup_app. rewrite <- app_assoc in R2. exact R2.
Qed.

Definition em_row (b : sbnk) (o : option inst) : Z * Z :=
  match o with Some i => (itype i, pos (em_es b) (ikey i) + (0x3C + 4 * zlen (bInsts b))) | None => (0, 0) end.
Definition em_data (b : sbnk) : bytes := concat (map fst (em_es b)).
Lemma em_data_ok b : em_fits b -> save_data b = Ok (em_data b, rev (map (fun p => (fst p, pos (em_es b) (ikey (snd p)))) (save_order b))).
Proof.
  intros F. unfold save_data. unfold em_fits, em in F.
  destruct (add_all_run (inacc_at b None) ([], []) []) as (s0 & A0 & R0); [split; [reflexivity|reflexivity]|apply Forall_forall; intros i I; apply (F (hid None i)); apply in_app_iff; left; apply in_map; exact I|].
  rewrite A0. cbn [bind app] in *.
  destruct (save_run2 b (save_order b) s0 _ [] R0) as (s1 & A1 & R1); [intros e E; apply F; apply in_app_iff; right; apply in_app_iff; left; exact E|]. cbv zeta in A1, R1.
  rewrite A1. cbn [bind].
  destruct (high_run b (high_ids b) s1 _ R1) as (s2 & A2 & R2).
  { intros k i K I. apply (F (hid (Some k) i)). apply in_app_iff; right; apply in_app_iff; right. apply in_flat_map. exists k. split; [exact K|apply in_map; exact I]. }
  rewrite A2. cbn [bind]. rewrite app_nil_r.
  assert (EQ : em_es b = (dedup [] (map ikey (inacc_at b None)) ++ dedup (dedup [] (map ikey (inacc_at b None))) (map ekey (flat_map (em_of b) (save_order b)))) ++
     dedup (dedup [] (map ikey (inacc_at b None)) ++ dedup (dedup [] (map ikey (inacc_at b None))) (map ekey (flat_map (em_of b) (save_order b))))
       (map ekey (flat_map (fun k => map (hid (Some k)) (inacc_at b (Some k))) (high_ids b)))).
  { unfold em_es, em. rewrite !map_app, map_hid, !dedup_app. cbn [app]. rewrite <- app_assoc. reflexivity. }
  rewrite <- EQ in R2. destruct R2 as [R2 _]. rewrite R2. unfold em_data. f_equal. f_equal. apply f_equal. apply map_ext_in. intros p P. f_equal. rewrite EQ. symmetry. apply posn_app_in.
  apply dedup_In. apply in_app_iff. right. apply in_map_iff. exists (Some (fst p), Some (fst p), snd p). split; [reflexivity|]. apply in_flat_map. exists p. split; [exact P|left; reflexivity].
Qed.

Lemma enumerate_snd {A} (l : list A) : forall s, map snd (enumerate_from s l) = l.
Proof. induction l as [|x l IH]; intros s; cbn [enumerate_from map snd]; [reflexivity|]. f_equal. apply IH. Qed.
Lemma sbnk_save_em b : em_fits b -> insts_ok (bInsts b) ->
  sbnk_save b = finish (map (em_row b) (bInsts b)) (em_data b) (bUnk b) (bWars b).
Proof.
  intros F O. unfold sbnk_save. rewrite (em_data_ok b F). cbn [bind]. set (offs := rev _).
  rewrite (mapM_ext (save_row (0x3C + 4 * zlen (bInsts b)) offs) (fun p : Z * Z => r <- pack_us [(1%nat, fst p); (2%nat, snd p)] ;; Ok (r ++ [0])) (fun p => em_row b (snd p))).
  - rewrite <- (map_map snd (em_row b)), enumerate_snd. unfold finish. rewrite zlen_map. reflexivity.
  - intros [id o] H. cbn [snd]. unfold save_row. cbn [fst snd]. apply in_enumerate in H as [P H]. rewrite Z.sub_0_r in H.
    assert (ND : NoDup (map fst offs)) by (unfold offs; rewrite map_rev, map_map; cbn [fst]; apply NoDup_rev; exact (order_ids b O)).
    destruct o as [i|]; cbn [em_row fst snd].
    + rewrite (zassoc_In offs id (pos (em_es b) (ikey i)) ND); [reflexivity|]. unfold offs. apply -> in_rev. apply in_map_iff. exists (id, i). split; [reflexivity|]. apply (in_order b id i O). auto.
    + rewrite zassoc_none; [reflexivity|]. unfold offs. rewrite map_rev, map_map. cbn [fst]. intros C. apply in_rev in C. apply in_map_iff in C as ([a i] & E & C). cbn [fst] in E. subst a. apply (in_order b id i O) in C as [_ C]. congruence.
Qed.

(** the accessible instruments are always read back *)
Definition relabel2 (b : sbnk) (o : option inst) : option inst :=
  match o with Some i => Some {| iBody := iBody i; iKey := snd (em_row b o); iMerge := snd (em_row b o) |} | None => None end.
Lemma in_em b id i : insts_ok (bInsts b) -> 0 <= id -> nth_error (bInsts b) (Z.to_nat id) = Some (Some i) -> In (Some id, Some id, i) (em b).
Proof. intros O P H. unfold em. apply in_app_iff. right. apply in_app_iff. left. apply in_flat_map. exists (id, i). split; [apply (in_order b id i O); split; assumption|left; reflexivity]. Qed.
Lemma em_in_es b e : In e (em b) -> In (ekey e) (em_es b).
Proof. intros H. unfold em_es. apply dedup_In0. apply in_map. exact H. Qed.
Lemma key_at b k : In k (em_es b) -> exists pre post, em_data b = pre ++ fst k ++ post /\ zlen pre = pos (em_es b) k.
Proof.
  intros H. destruct (posn_split k (em_es b) H) as (a & c & E & _ & Q). exists (concat (map fst a)), (concat (map fst c)). split; [|unfold pos; rewrite Q; reflexivity].
  unfold em_data. rewrite E, map_app, concat_app. reflexivity.
Qed.
Lemma load_em order b f u w w' tl : em_fits b -> insts_good (bInsts b) -> sbnk_save b = Ok (f, u, w) ->
  let base := 0x3C + 4 * zlen (bInsts b) in let pad := (- zlen (em_data b)) mod 4 in let len := base + zlen (em_data b) + pad in
  let insts := map (relabel2 b) (bInsts b) in
  exists hd m un, f = hd ++ em_data b ++ zeros pad /\ zlen hd = base /\
    (forall id o, In (id, o) m <-> 0 <= id /\ exists i, nth_error insts (Z.to_nat id) = Some (Some i) /\ iKey i = o) /\
    (forall x, In x un <-> base <= x < len /\ forall i, In (Some i) insts -> ~ iKey i <= x < iKey i + body_size (iBody i)) /\
    StronglySorted Z.lt un /\ StronglySorted (fun p q => fst p < fst q) m /\
    sbnk_load order (f ++ tl) u w' = (inacc <- scan (S (length un)) order (f ++ tl) len insts m un [] ;;
      Ok {| bInsts := insts; bInacc := inacc; bUnk := u; bWars := match w' with Some l => strip_none l | None => [] end |}).
Proof.
  intros EF G S base pad len insts. pose proof (good_ok _ G) as O. rewrite (sbnk_save_em b EF O) in S. apply finish_inv in S as (FR & L & -> & -> & ->).
  set (tos := map (em_row b) (bInsts b)) in *. set (D := em_data b) in *. set (n := zlen tos) in *.
  assert (N : n = zlen (bInsts b)) by (unfold n, tos; apply zlen_map).
  pose proof (zlen_nonneg tos) as P1. pose proof (zlen_nonneg D) as P2. pose proof (Z.mod_pos_bound (- zlen D) 4 ltac:(lia)) as P3. fold n in P1. fold pad in P3, L.
  assert (BN : base = 0x3C + 4 * n) by (unfold base; lia).
  assert (LH : zlen (bank_head tos D) = 0x3C + 4 * n) by apply zlen_head.
  unfold bank_file. fold pad. rewrite <- !app_assoc. set (file := bank_head tos D ++ D ++ zeros pad ++ tl).
  assert (LEN : len = 60 + 4 * n + zlen D + pad) by (unfold len; lia).
  assert (U0 : std_unpack file = Ok {| hMagic := asc "SBNK"; hBom := 0xFEFF; hVersion := 0x100; hSize := len; hHeaderSize := 0x10; hBlocks := 1 |}).
  { rewrite LEN. unfold file, bank_head. rewrite <- !app_assoc. apply std_unpack_hit; try reflexivity; try lia. }
  assert (R1 : rd file 16 4 = Ok (asc "DATA")).
  { unfold file, bank_head. rewrite <- !app_assoc. rewrite rd_skip by (rewrite zlen_std; reflexivity || (change (zlen (asc "SBNK")) with 4; lia)). rewrite zlen_std. apply rd_hit; reflexivity. }
  assert (R2 : exists v, unpack_u 4 file 0x14 = Ok v).
  { apply unpack_u_some; [lia|]. unfold file. rewrite zlen_app, LH. pose proof (zlen_nonneg (D ++ zeros pad ++ tl)). lia. }
  assert (R3 : unpack_u 4 file 0x38 = Ok n).
  { unfold file, bank_head. rewrite <- !app_assoc. rewrite unpack_u_skip by (rewrite zlen_std; change (zlen (asc "SBNK")) with 4; lia). rewrite zlen_std. change (zlen (asc "SBNK")) with 4.
    rewrite unpack_u_skip by (change (zlen (asc "DATA")) with 4; lia). change (zlen (asc "DATA")) with 4. rewrite unpack_u_skip by (rewrite zlen_le; lia). rewrite zlen_le.
    rewrite unpack_u_skip by (rewrite zlen_zeros; lia). rewrite zlen_zeros by lia. apply unpack_u_hit; [reflexivity|]. p256. fold n. lia. }
  set (at_ := fun id : Z => nth (Z.to_nat id) (bInsts b) None).
  assert (LB : Z.to_nat n = length (bInsts b)) by (rewrite N; apply length_zlen).
  destruct (load_table_ok file (fun id => relabel2 b (at_ id)) (fun id => snd (em_row b (at_ id)))
      (fun id => match at_ id with Some i => zlen (body_bytes (iBody i)) | None => 0 end) (range_z 0 (Z.to_nat n)) (range_z (0x3C + n * 4) (Z.to_nat (len - (0x3C + n * 4))))) as (m & LT).
  { intros id Hid. apply in_range_z in Hid. rewrite LB in Hid.
    assert (HN : nth_error (bInsts b) (Z.to_nat id) = Some (at_ id)) by (apply nth_error_nth'; lia).
    destruct (nth_error_split _ _ HN) as (l1 & l2 & EB & LL). 
    assert (ET : tos = map (em_row b) l1 ++ em_row b (at_ id) :: map (em_row b) l2) by (unfold tos; rewrite EB, map_app; reflexivity).
    destruct (concat_at rowb 4 (map (em_row b) l1) (em_row b (at_ id)) (map (em_row b) l2)) as (C1 & C2 & C3); [intros; apply zlen_rowb|].
    assert (RO : row_ok (em_row b (at_ id))) by (rewrite Forall_forall in FR; apply FR; rewrite ET; apply in_or_app; right; left; reflexivity).
    assert (EFI : exists PR PO, file = PR ++ rowb (em_row b (at_ id)) ++ PO /\ zlen PR = 0x3C + 4 * id).
    { exists (std_bytes (asc "SBNK") 0x100 (60 + 4 * zlen tos + zlen D + (- zlen D) mod 4) 1 ++ asc "DATA" ++ le 4 (0x2C + 4 * zlen tos + zlen D + (- zlen D) mod 4) ++ zeros 32 ++ le 4 (zlen tos) ++ concat (map rowb (map (em_row b) l1))), (concat (map rowb (map (em_row b) l2)) ++ D ++ zeros pad ++ tl).
      split.
      - unfold file, bank_head. rewrite ET at 4. rewrite C1, <- !app_assoc. reflexivity.
      - rewrite !zlen_app, zlen_std, !zlen_le, C2, zlen_map, zlen_zeros by lia. change (zlen (asc "SBNK")) with 4. change (zlen (asc "DATA")) with 4. unfold zlen. lia. }
    destruct EFI as (PR & PO & EFI & LP). destruct RO as [RO1 RO2].
    exists (fst (em_row b (at_ id))). split; [|split; [|split]].
    - rewrite EFI. unfold rowb. rewrite <- !app_assoc. rewrite (unpack_u_skip _ PR) by lia. apply unpack_u_hit; [lia|p256; lia].
    - rewrite EFI. unfold rowb. rewrite <- !app_assoc. rewrite (unpack_u_skip _ PR) by lia. rewrite unpack_u_skip by (rewrite zlen_le; lia). rewrite zlen_le; apply unpack_u_hit; [lia|p256; lia].
    - apply unpack_u_some; [lia|]. rewrite EFI, !zlen_app, zlen_rowb. pose proof (zlen_nonneg PO). lia.
    - destruct (at_ id) as [i|] eqn:EA; cbn [relabel2 em_row fst snd]; [|reflexivity].
      destruct (key_at b (ikey i)) as (pre & post & ED & LPre); [apply (em_in_es b (Some id, Some id, i)), (in_em b id i O ltac:(lia) HN)|]. cbn [ikey fst] in ED. fold D in ED.
      assert (EFF : file = (bank_head tos D ++ pre) ++ body_bytes (iBody i) ++ (post ++ zeros pad ++ tl)).
      { unfold file. rewrite ED at 2. rewrite <- !app_assoc. reflexivity. }
      replace (pos (em_es b) (ikey i) + (60 + 4 * zlen (bInsts b))) with (zlen (bank_head tos D ++ pre)) by (rewrite zlen_app, LH; lia).
      destruct (G i) as [F1 F2]; [eapply nth_error_In, HN|]. unfold itype. rewrite EFF at 1. rewrite make_hit by assumption. reflexivity. }
  assert (MI : map (fun id => relabel2 b (at_ id)) (range_z 0 (Z.to_nat n)) = insts).
  { unfold insts. rewrite LB. clear - at_. unfold at_. generalize (bInsts b) as l. intros l. rewrite <- (map_map (fun id => nth (Z.to_nat id) l None) (relabel2 b)). f_equal.
    induction l as [|x l IH] using rev_ind; [reflexivity|]. rewrite app_length. cbn [length]. rewrite Nat.add_1_r, range_z_snoc, map_app. f_equal.
    - rewrite <- IH at 2. apply map_ext_in. intros id Hid. apply in_range_z in Hid. apply app_nth1. lia.
    - cbn [map]. f_equal. rewrite app_nth2 by lia. replace (Z.to_nat (0 + Z.of_nat (length l)) - length l)%nat with O by lia. reflexivity. }
  rewrite MI in LT. set (un := filter _ _) in LT. exists (bank_head tos D), m, un.
  destruct (load_table_facts _ _ _ _ _ _ _ LT ltac:(lia)) as (_ & M & _ & UN & SS & SM).
  split; [reflexivity|]. split; [lia|]. split; [intros id o; rewrite M, Z.sub_0_r; reflexivity|]. split; [|split; [apply SS, range_sorted|split; [exact SM|]]].
  - intros x. rewrite UN, in_range_z. rewrite BN. replace (60 + n * 4 + Z.of_nat (Z.to_nat (len - (60 + n * 4)))) with len by lia. replace (60 + n * 4) with (60 + 4 * n) by lia. reflexivity.
  - unfold sbnk_load. replace (prefixb (asc "SBNK") file) with true by (unfold file, bank_head, std_bytes; rewrite <- !app_assoc, prefixb_app; reflexivity). cbn [guard bind].
    rewrite U0. cbn [bind hMagic hVersion hSize]. rewrite beq_refl. cbn [Z.eqb Pos.eqb guard bind].
    destruct R2 as [v R2]. rewrite R1, R2, R3. cbn [bind]. rewrite beq_refl. cbn [guard bind]. cbv zeta. rewrite LT. cbn [bind]. reflexivity.
Qed.

(** * A loaded bank: types, table, and saving it again *)
From Coq Require Import String Permutation Sorted.
From Verif Require Import PyBase PyLemmas PyTac WaveModel WaveLemmas SeqTotal SbnkModel SbnkSpec SbnkLemmas SbnkBank SbnkInacc SbnkGuess SbnkLayout SbnkScan SbnkBack SbnkBack2 SbnkResave SbnkResave2.

(** ** the guess is one of the possible types *)
Lemma early_in order p t : early order p = Some t -> In t p.
Proof. unfold early. intros H. apply find_some in H as [_ H]. apply inb_In. exact H. Qed.
Lemma early_sub order p q t : (forall x, In x p -> In x q) -> Ok (early order p) = Ok (Some t) -> In t q.
Proof. intros S [= H]. apply S. exact (early_in _ _ _ H). Qed.
Lemma regional_in order data start avail p t : guess_regional order data start avail p = Some t -> In t p.
Proof.
  unfold guess_regional. assert (R : early order (remove_z 17 p) = Some t -> In t p) by (intros H; apply early_in, in_remove in H; apply H). pose proof (early_in order p t).
  destruct (inb 17 p); [|assumption]. destruct (ends_ok _ _); [destruct (_ >? _)|]; assumption.
Qed.
Lemma range_in order data start avail p t : guess_range order data start avail p = Ok (Some t) -> In t p.
Proof.
  unfold guess_range. intros H. apply bind_ok in H as (p' & P & H).
  assert (S : forall x, In x p' -> In x p). { assert (R : forall x, In x (remove_z 16 p) -> In x p) by (intros x X; apply in_remove in X; apply X). destruct (inb 16 p); [|injection P as <-; auto]. destruct (slice data start (start + 2)) as [|x [|y [|z r] ] ]; try discriminate. destruct (x >? y); [injection P as <-; exact R|]. destruct (_ >? avail); injection P as <-; [exact R|auto]. }
  apply S. destruct (few p'); injection H as H; [exact (early_in _ _ _ H)|exact (regional_in _ _ _ _ _ _ H)].
Qed.
Lemma single_in order data start avail p t : guess_single order data start avail p = Ok (Some t) -> In t p.
Proof.
  unfold guess_single. assert (G : forall p', (forall x, In x p' -> In x p) -> (if few p' then Ok (early order p') else guess_range order data start avail p') = Ok (Some t) -> In t p).
  { intros p' S. destruct (few p'); intros H; apply S; [injection H as H; exact (early_in _ _ _ H)|exact (range_in _ _ _ _ _ _ H)]. }
  destruct (inb 1 p) eqn:B; [|apply G; auto]. intros H. apply bind_ok in H as (b1 & _ & H). apply bind_ok in H as (b3 & _ & H). apply bind_ok in H as (b4 & _ & H). cbv zeta in H. destruct (b4 =? 0x3C); [injection H as <-; apply inb_In; exact B|]. revert H. apply G.
  destruct (_ || _); [intros x X; apply in_remove in X; apply X|auto].
Qed.
Lemma guess_in order data start avail p t : types_ok p -> guessInstrumentType order data start p avail = Ok (Some t) -> In t p.
Proof.
  intros T. unfold guessInstrumentType. assert (N2 : inb 2 p = false) by (apply not_true_iff_false; intros C; apply inb_In, (proj2 T) in C; lia). assert (N3 : inb 3 p = false) by (apply not_true_iff_false; intros C; apply inb_In, (proj2 T) in C; lia). rewrite N2, N3. cbv zeta.
  destruct (few p); [intros [= H]; exact (early_in _ _ _ H)|]. set (p1 := if avail <? 10 then remove_z 0 p else p). set (p2 := if avail <? 2 + 12 then remove_z 16 p1 else p1). set (p3 := if avail <? 8 + 12 then remove_z 17 p2 else p2).
  assert (S : forall x, In x p3 -> In x p) by (unfold p3, p2, p1; intros x X; destruct (avail <? 8 + 12), (avail <? 2 + 12), (avail <? 10); repeat (apply in_remove in X as [X _]); exact X).
  intros H. apply S. destruct (few p3); [injection H as H; exact (early_in _ _ _ H)|exact (single_in _ _ _ _ _ _ H)].
Qed.

(** ** types and the table *)
Lemma make_type data t o i n : makeInstrumentAt data t o = Ok (Some i, n) -> itype i = t /\ t <= 17 /\ t <> 0.
Proof.
  unfold makeInstrumentAt. destruct (Z.eqb_spec t 0) as [T|T]; [discriminate|]. intros HQ. apply bind_ok in HQ as ([b m] & HQ & E). injection E as <- <-. unfold itype. cbn [iBody].
  revert HQ. destruct (Z.ltb_spec t 16) as [?|?]; [|destruct (Z.eqb_spec t 16) as [?|?]; [|destruct (Z.eqb_spec t 17) as [?|?]; [|discriminate]]]; intros HQ.
  - unfold single_fromData in HQ. apply bind_ok in HQ as (nn & N & HQ). injection HQ as <- _. cbn [body_type]. unfold note_fromData, note_read in N. repeat (apply bind_ok in N as (? & _ & N)). injection N as <-. cbn [nType]. lia.
  - unfold range_fromData in HQ. apply bind_ok in HQ as (x1 & _ & HQ). apply bind_ok in HQ as (x2 & _ & HQ). apply bind_ok in HQ as (ns & _ & HQ). injection HQ as <- _. cbn [body_type]. lia.
  - unfold regional_fromData in HQ. apply bind_ok in HQ as (x1 & _ & HQ). apply bind_ok in HQ as (rs & _ & HQ). injection HQ as <- _. cbn [body_type]. lia.
Qed.
Lemma load_table_rows data : forall n s un insts m un', load_table data (range_z s n) un = Ok (insts, m, un') ->
  forall j o, nth_error insts j = Some o -> exists t off, unpack_u 1 data (0x3C + 4 * (s + Z.of_nat j)) = Ok t /\ unpack_u 2 data (0x3C + 4 * (s + Z.of_nat j) + 1) = Ok off /\
    match o with None => t = 0 | Some i => itype i = t /\ iKey i = off /\ t <= 17 /\ t <> 0 end.
Proof.
  induction n as [|n IH]; intros s un insts m un' H j o N; cbn [range_z load_table] in H.
  - injection H as <- <- <-. destruct j; discriminate.
  - apply bind_ok in H as (t & T & H). apply bind_ok in H as (of & O & H). apply bind_ok in H as (z & _ & H). apply bind_ok in H as ([i k] & MK & H). apply bind_ok in H as ([[is m'] u2] & L & H). injection H as <- <- <-.
    destruct j as [|j].
    + cbn [nth_error] in N. injection N as <-. exists t, of. replace (s + Z.of_nat 0) with s by lia. split; [exact T|]. split; [exact O|]. destruct i as [i|].
      * destruct (make_type _ _ _ _ _ MK) as (A & B & C). apply make_size in MK as (_ & K & _). split; [exact A|]. split; [exact K|]. split; assumption.
      * unfold makeInstrumentAt in MK. destruct (Z.eqb_spec t 0); [assumption|]. apply bind_ok in MK as ([b' m2] & _ & MK). discriminate.
    + cbn [nth_error] in N. destruct (IH _ _ _ _ _ L j o N) as (t' & o' & A & B & C). exists t', o'. replace (s + Z.of_nat (S j)) with (s + 1 + Z.of_nat j) by lia. split; [exact A|]. split; assumption.
Qed.
Lemma scan_types order data fs insts m : forall fuel un acc acc', (forall k l i, In (k, l) acc -> In i l -> itype i = 1 \/ itype i = 16 \/ itype i = 17) -> NoDup (map fst acc) -> scan fuel order data fs insts m un acc = Ok acc' ->
  forall k l i, In (k, l) acc' -> In i l -> itype i = 1 \/ itype i = 16 \/ itype i = 17.
Proof.
  induction fuel as [|fu IH]; intros un acc acc' A N H; cbn [scan] in H; destruct un as [|x0 un0]; try discriminate; try (injection H as <-; exact A).
  destruct (drop_padding fs (x0 :: un0)) as [|this rest]; [injection H as <-; exact A|]. cbv zeta in H. apply bind_ok in H as (t & G & H).
  destruct t as [t|]; [|exact (IH _ _ _ A N H)]. destruct (makeInstrumentAt data t this) as [[[i|] n]|] eqn:MK; [|exact (IH _ _ _ A N H)|exact (IH _ _ _ A N H)].
  apply guess_in in G; [|apply possible_nodup]. apply (proj2 (possible_nodup _ _)) in G. destruct (make_type _ _ _ _ _ MK) as (TE & _).
  eapply IH; [|apply push_nodup; exact N|exact H]. intros k l j J I. apply push_in in J as [(-> & l0 & -> & J)|(_ & J)]; [|exact (A _ _ _ J I)|exact N]. apply in_app_iff in I as [I|[<-|[]]]; [|lia]. destruct J as [J| ->]; [exact (A _ _ _ J I)|destruct I].
Qed.
Lemma load_types order file u w b : is_bytes file -> sbnk_load order file u w = Ok b ->
  unpack_u 4 file 0x38 = Ok (zlen (bInsts b)) /\
  (forall j o, nth_error (bInsts b) j = Some o -> exists t off, unpack_u 1 file (0x3C + 4 * Z.of_nat j) = Ok t /\ unpack_u 2 file (0x3C + 4 * Z.of_nat j + 1) = Ok off /\
    match o with None => t = 0 | Some i => itype i = t /\ iKey i = off end) /\
  (forall i, member b i -> 1 <= itype i <= 17) /\ bUnk b = u /\ bWars b = match w with Some l => strip_none l | None => [] end.
Proof.
  unfold sbnk_load. intros ISB H. apply bind_ok in H as (_ & _ & H). apply bind_ok in H as (h & HH & H). apply bind_ok in H as (_ & _ & H). apply bind_ok in H as (_ & _ & H). apply bind_ok in H as (mg & _ & H). apply bind_ok in H as (_ & _ & H). apply bind_ok in H as (count & C & H). apply bind_ok in H as (_ & _ & H). cbv zeta in H.
  apply bind_ok in H as ([[insts m] un] & L & H). apply bind_ok in H as (inacc & S & H). injection H as <-. cbn [bInsts bInacc bUnk bWars]. pose proof (unpack_u_range _ _ _ _ ISB C) as CR.
  pose proof (load_table_rows _ _ _ _ _ _ _ L) as R. destruct (load_table_facts _ _ _ _ _ _ _ L ltac:(lia)) as (LN & _).
  split; [rewrite C; f_equal; unfold zlen; lia|]. split; [|split; [|split; reflexivity]].
  - intros j o N. destruct (R j o N) as (t & off & A & B & D). exists t, off. split; [exact A|]. split; [exact B|]. destruct o; [|exact D]. split; apply D.
  - intros i [I|(k & l & A & I)]; cbn [bInsts bInacc] in *.
    + apply In_nth_error in I as [j N]. destruct (R j _ N) as (t & off & A & _ & D & _ & D1 & D2). apply (unpack_u_range _ _ _ _ ISB) in A. lia.
    + pose proof (scan_types _ _ _ _ _ _ _ _ _ (fun k l i (F : In (k, l) []) _ => match F with end) (NoDup_nil _) S k l i A I). lia.
Qed.

(** ** saving again *)
Lemma image_file rows d : bank_image rows d = bank_file rows d.
Proof. unfold bank_image, bank_file, bank_head, std_bytes, rowb. cbv zeta. rewrite <- !app_assoc. replace (0x3C + 4 * zlen rows + zlen d + - zlen d mod 4 - 0x10) with (0x2C + 4 * zlen rows + zlen d + - zlen d mod 4) by lia. reflexivity. Qed.
Lemma orderly_tidy order f u w b hi : is_bytes f -> sbnk_load order f u w = Ok b -> orderly f hi b -> tidy f (0x3C + 4 * zlen (bInsts b)) hi b.
Proof.
  intros ISB LD (O1 & O2 & O3 & O4). destruct (load_found order f u w b ISB LD) as (h & HH & (D1 & D2 & D3) & D4). destruct (load_types order f u w b ISB LD) as (_ & _ & TY & _ & _).
  assert (MK : forall i, member b i -> iMerge i = iKey i) by (intros i [I|(k & l & A & I)]; [apply (D4 i I)|apply (D2 k l A); exact I]).
  assert (FT : forall i, member b i -> body_fits (iBody i) /\ forall t d, body_save (iBody i) = Ok (t, d) -> d = body_bytes (iBody i)).
  { intros i M. destruct (O1 i M) as (t & d & SV & _). pose proof (TY i M) as T. unfold itype in T.
    assert (X : match iBody i with Single n => 1 <= nType n < 16 | _ => True end).
    { destruct (iBody i) as [n| |] eqn:B; try exact I. cbn [body_type] in T. assert (MKI : exists t n, makeInstrumentAt f t (iKey i) = Ok (Some i, n)).
      { destruct M as [I|(k & l & A & I)]; [destruct (D4 i I) as (_ & _ & t' & Q)|destruct (proj2 (proj2 (D2 k l A)) i I) as (_ & _ & (t' & Q) & _)]; exists t'; eexists; exact Q. }
      destruct MKI as (t' & n' & Q). destruct (make_type _ _ _ _ _ Q) as (TE & _ & _). unfold itype in TE. rewrite B in TE. cbn [body_type] in TE. unfold makeInstrumentAt in Q. destruct (t' =? 0); [discriminate|]. apply bind_ok in Q as ([bb mm] & Q & E). injection E as E _. rewrite <- E in B. cbn [iBody] in B. subst bb.
      destruct (Z.ltb_spec t' 16); [lia|]. destruct (t' =? 16); [unfold range_fromData in Q; apply bind_ok in Q as (x1 & _ & Q); apply bind_ok in Q as (x2 & _ & Q); apply bind_ok in Q as (ns & _ & Q); discriminate|]. destruct (t' =? 17); [|discriminate]. unfold regional_fromData in Q. apply bind_ok in Q as (x1 & _ & Q). apply bind_ok in Q as (rs & _ & Q). discriminate. }
    split; [apply (body_save_inv _ _ _ SV X)|]. intros t2 d2 S2. apply (body_save_inv _ _ _ S2 X). }
  assert (SZ : forall i, member b i -> zlen (body_bytes (iBody i)) = body_size (iBody i)) by (intros i M; rewrite zlen_body by apply (FT i M); destruct (iBody i); cbn [body_size]; lia).
  assert (AT : forall i, member b i -> 0x3C + 4 * zlen (bInsts b) <= iKey i /\ iKey i + body_size (iBody i) <= hi /\ slice f (iKey i) (iKey i + body_size (iBody i)) = body_bytes (iBody i)).
  { intros i M. destruct (O1 i M) as (t & d & SV & S1 & S2 & S3). rewrite (proj2 (FT i M) t d SV) in *. rewrite (SZ i M) in *. split; [exact S2|]. split; assumption. }
  constructor.
  - intros i M. destruct (AT i M) as (A & B & C). split; [apply (FT i M)|]. split; [exact (MK i M)|]. split; [exact A|]. split; assumption.
  - intros i j M M' E. destruct (O2 i j M M') as [[_ S]|[B|B]]; unfold before in *; [|pose proof (size_pos (iBody i)); lia|pose proof (size_pos (iBody j)); lia]. destruct (AT i M) as (_ & _ & <-). destruct (AT j M') as (_ & _ & <-). rewrite E, S. reflexivity.
  - intros i j M M' E. destruct (O2 i j M M') as [[S _]|[B|B]]; [lia|exact B|]. unfold before in B. pose proof (size_pos (iBody j)). lia.
  - exact O3.
  - exact O4.
  - exact D1.
  - intros k l i A I. apply (D2 k l A). exact I.
  - intros k l A. apply (D2 k l A).
  - intros k l i j A I J E. destruct (proj2 (proj2 (D2 k l A)) i I) as (_ & _ & _ & X & _). apply (X j J). pose proof (size_pos (iBody j)). lia.
Qed.
Lemma resaved order f u w b hi : is_bytes f -> sbnk_load order f u w = Ok b -> orderly f hi b -> 0x3C + 4 * zlen (bInsts b) <= hi -> hi <= zlen f -> hi + (- (hi - (0x3C + 4 * zlen (bInsts b)))) mod 4 < 2 ^ 32 ->
  sbnk_save b = Ok (bank_image (map row_of (bInsts b)) (slice f (0x3C + 4 * zlen (bInsts b)) hi), bUnk b, bWars b).
Proof.
  intros ISB LD O L H B. pose proof (orderly_tidy order f u w b hi ISB LD O) as T. pose proof (zlen_nonneg (bInsts b)) as ZN. change (2 ^ 32) with 4294967296 in B. rewrite (t_save _ _ _ _ T ltac:(lia) H eq_refl).
  destruct (load_types order f u w b ISB LD) as (_ & R & _). rewrite image_file. change (map _ (bInsts b)) with (map row_of (bInsts b)) at 1.
  apply finish_ok.
  - apply Forall_forall. intros p P. apply in_map_iff in P as ([i|] & <- & I); cbn [row_of]; [|unfold row_ok; cbn [fst snd]; lia]. apply In_nth_error in I as [j N]. destruct (R j _ N) as (t & off & A1 & A2 & A3 & A4). apply (unpack_u_range _ _ _ _ ISB) in A1. apply (unpack_u_range _ _ _ _ ISB) in A2. unfold row_ok. cbn [fst snd]. unfold itype in A3. rewrite A3, A4. change (2 ^ (8 * 1)) with 256 in A1. change (2 ^ (8 * 2)) with 65536 in A2. lia.
  - rewrite zlen_map, zlen_slice by lia. pose proof (Z.mod_pos_bound (- (hi - (60 + 4 * zlen (bInsts b)))) 4 ltac:(lia)). lia.
Qed.
(** a file in the layout that save() writes is kept *)
Lemma image_kept order rows d u w b : is_bytes d -> Forall (fun r => 0 <= fst r < 256 /\ 0 <= snd r < 65536 /\ (fst r = 0 -> snd r = 0)) rows -> zlen (bank_image rows d) < 2 ^ 32 ->
  sbnk_load order (bank_image rows d) u w = Ok b -> orderly (bank_image rows d) (0x3C + 4 * zlen rows + zlen d) b ->
  sbnk_save b = Ok (bank_image rows d, u, match w with Some l => strip_none l | None => [] end).
Proof.
  intros D R L LD O. change (2 ^ 32) with 4294967296 in L. assert (ISB : is_bytes (bank_image rows d)) by (rewrite image_file; apply file_isb; exact D).
  destruct (load_types order _ u w b ISB LD) as (C & T & _ & BU & BW). pose proof (zlen_nonneg rows) as ZR. pose proof (zlen_nonneg d) as ZD. pose proof (Z.mod_pos_bound (- zlen d) 4 ltac:(lia)) as PB.
  assert (ZI : zlen (bank_image rows d) = 0x3C + 4 * zlen rows + zlen d + (- zlen d) mod 4) by (rewrite image_file; unfold bank_file; rewrite !zlen_app, zlen_head, zlen_zeros by lia; lia).
  assert (CN : unpack_u 4 (bank_image rows d) 0x38 = Ok (zlen rows)).
  { rewrite image_file. unfold bank_file, bank_head. rewrite <- !app_assoc. rewrite unpack_u_skip by (rewrite zlen_std; change (zlen (asc "SBNK")) with 4; lia). rewrite zlen_std. change (zlen (asc "SBNK")) with 4.
    rewrite unpack_u_skip by (change (zlen (asc "DATA")) with 4; lia). change (zlen (asc "DATA")) with 4. rewrite unpack_u_skip by (rewrite zlen_le; lia). rewrite zlen_le.
    rewrite unpack_u_skip by (rewrite zlen_zeros; lia). rewrite zlen_zeros by lia. apply unpack_u_hit; [reflexivity|]. p256. lia. }
  assert (NE : zlen (bInsts b) = zlen rows) by congruence.
  assert (RO : map row_of (bInsts b) = rows).
  { assert (G : forall j, nth_error (map row_of (bInsts b)) j = nth_error rows j).
    { intros j. rewrite nth_error_map. destruct (nth_error (bInsts b) j) as [o|] eqn:N; cbn [option_map].
      - destruct (nth_error rows j) as [r|] eqn:NR; [|exfalso; apply nth_error_None in NR; assert (j < length (bInsts b))%nat by (apply nth_error_Some; congruence); unfold zlen in NE; lia]. f_equal.
        destruct (T j o N) as (t & off & U1 & U2 & X). destruct (nth_error_split _ _ NR) as (l1 & l2 & ER & LL).
        destruct (concat_at rowb 4 l1 r l2) as (C1 & C2 & C3); [intros; apply zlen_rowb|].
        assert (EF : exists PR PO, bank_image rows d = PR ++ rowb r ++ PO /\ zlen PR = 0x3C + 4 * Z.of_nat j).
        { exists (std_bytes (asc "SBNK") 0x100 (60 + 4 * zlen rows + zlen d + (- zlen d) mod 4) 1 ++ asc "DATA" ++ le 4 (0x2C + 4 * zlen rows + zlen d + (- zlen d) mod 4) ++ zeros 32 ++ le 4 (zlen rows) ++ concat (map rowb l1)), (concat (map rowb l2) ++ d ++ zeros (- zlen d mod 4)).
          split.
          - rewrite image_file. unfold bank_file, bank_head. rewrite ER at 4. rewrite C1, <- !app_assoc. reflexivity.
          - rewrite !zlen_app, zlen_std, !zlen_le, C2, zlen_zeros by lia. change (zlen (asc "SBNK")) with 4. change (zlen (asc "DATA")) with 4. unfold zlen. lia. }
        destruct EF as (PR & PO & EF & LP). rewrite Forall_forall in R. destruct (R r) as (R1 & R2 & R3); [apply nth_error_In in NR; exact NR|].
        assert (V1 : unpack_u 1 (bank_image rows d) (0x3C + 4 * Z.of_nat j) = Ok (fst r)) by (rewrite EF; unfold rowb; rewrite <- !app_assoc; rewrite (unpack_u_skip _ PR) by lia; apply unpack_u_hit; [lia|p256; lia]).
        assert (V2 : unpack_u 2 (bank_image rows d) (0x3C + 4 * Z.of_nat j + 1) = Ok (snd r)) by (rewrite EF; unfold rowb; rewrite <- !app_assoc; rewrite (unpack_u_skip _ PR) by lia; rewrite unpack_u_skip by (rewrite zlen_le; lia); rewrite zlen_le; apply unpack_u_hit; [lia|p256; lia]).
        rewrite V1 in U1. rewrite V2 in U2. apply ok_inj in U1. apply ok_inj in U2. destruct r as [r1 r2]. cbn [fst snd] in *. subst t off. destruct o as [i|]; cbn [row_of]; [destruct X as [X1 X2]; unfold itype in X1; congruence|]. rewrite X, (R3 X). reflexivity.
      - symmetry. apply nth_error_None. apply nth_error_None in N. unfold zlen in NE. lia. }
    clear - G. revert G. generalize (map row_of (bInsts b)) as x. revert rows. fix IH 2. intros rows [|a x] G; destruct rows as [|c rows]; [reflexivity|specialize (G 0%nat); discriminate|specialize (G 0%nat); discriminate|]. f_equal; [specialize (G 0%nat); cbn in G; congruence|]. apply IH. intros j. exact (G (S j)). }
  rewrite (resaved order _ u w b _ ISB LD O); [|lia|lia|change (2 ^ 32) with 4294967296; rewrite NE; replace (0x3C + 4 * zlen rows + zlen d - (0x3C + 4 * zlen rows)) with (zlen d) by lia; lia].
  rewrite RO, BU, BW, NE. assert (SL : slice (bank_image rows d) (0x3C + 4 * zlen rows) (0x3C + 4 * zlen rows + zlen d) = d) by (rewrite image_file; unfold bank_file; apply slice_mid; [rewrite zlen_head; reflexivity|lia]). rewrite SL. reflexivity.
Qed.

(** ** the neighbours of an unlisted instrument *)
Lemma next_first this m : StronglySorted (fun p q : Z * Z => fst p < fst q) m ->
  match next_of this m with
  | Some p => In p m /\ this < snd p /\ forall q, In q m -> this < snd q -> snd p <= snd q /\ (snd q = snd p -> fst p <= fst q)
  | None => forall q, In q m -> snd q <= this
  end.
Proof.
  induction m as [|q m IH] using rev_ind; intros S; [intros q []|]. unfold next_of. rewrite fold_left_app. cbn [fold_left]. fold (next_of this m).
  assert (S1 : StronglySorted (fun p q : Z * Z => fst p < fst q) m /\ forall p, In p m -> fst p < fst q).
  { clear IH. induction m as [|x m IH]; [split; [constructor|intros p []]|]. cbn [app] in S. inversion S as [|? ? S1 F]. subst. destruct (IH S1) as [A B]. apply Forall_app in F as [F1 F2]. apply Forall_cons_iff in F2 as [F2 _]. split; [constructor; assumption|]. intros p [->|P]; [exact F2|apply B; exact P]. }
  destruct S1 as [S1 S2]. specialize (IH S1). destruct (next_of this m) as [p|].
  - destruct IH as (I & L & M). destruct (Z.gtb_spec (snd q) this) as [Q|Q]; cbn [andb].
    + destruct (Z.ltb_spec (snd q) (snd p)) as [G|G].
      * split; [apply in_app_iff; right; left; reflexivity|]. split; [lia|]. intros r R RL. apply in_app_iff in R as [R|[<-|[]]]; [|split; [lia|lia]]. destruct (M r R RL) as [M1 M2]. split; [lia|lia].
      * split; [apply in_app_iff; left; exact I|]. split; [exact L|]. intros r R RL. apply in_app_iff in R as [R|[<-|[]]]; [apply M; assumption|]. split; [lia|]. intros _. specialize (S2 p I). lia.
    + split; [apply in_app_iff; left; exact I|]. split; [exact L|]. intros r R RL. apply in_app_iff in R as [R|[<-|[]]]; [apply M; assumption|lia].
  - destruct (Z.gtb_spec (snd q) this) as [Q|Q]; cbn [andb].
    + split; [apply in_app_iff; right; left; reflexivity|]. split; [lia|]. intros r R RL. apply in_app_iff in R as [R|[<-|[]]]; [specialize (IH r R); lia|split; lia].
    + intros r R. apply in_app_iff in R as [R|[<-|[]]]; [apply IH; exact R|lia].
Qed.
Lemma scan_possible order data fs insts m : forall fuel un acc acc', let ok i := In (itype i) (possible_types (type_of_id insts (prev_of (iKey i) m)) (type_of_id insts (next_of (iKey i) m))) in
  (forall k l i, In (k, l) acc -> In i l -> ok i) -> NoDup (map fst acc) -> scan fuel order data fs insts m un acc = Ok acc' ->
  forall k l i, In (k, l) acc' -> In i l -> ok i.
Proof.
  cbv zeta. induction fuel as [|fu IH]; intros un acc acc' A N H; cbn [scan] in H; destruct un as [|x0 un0]; try discriminate; try (injection H as <-; exact A).
  destruct (drop_padding fs (x0 :: un0)) as [|this rest]; [injection H as <-; exact A|]. cbv zeta in H. apply bind_ok in H as (t & G & H).
  destruct t as [t|]; [|exact (IH _ _ _ A N H)]. destruct (makeInstrumentAt data t this) as [[[i|] n]|] eqn:MK; [|exact (IH _ _ _ A N H)|exact (IH _ _ _ A N H)].
  apply guess_in in G; [|apply possible_nodup]. destruct (make_type _ _ _ _ _ MK) as (TE & _). destruct (make_size _ _ _ _ _ MK) as (_ & KE & _).
  eapply IH; [|apply push_nodup; exact N|exact H]. intros k l j J I. apply push_in in J as [(-> & l0 & -> & J)|(_ & J)]; [|exact (A _ _ _ J I)|exact N]. apply in_app_iff in I as [I|[<-|[]]]; [|rewrite TE, KE; exact G]. destruct J as [J| ->]; [exact (A _ _ _ J I)|destruct I].
Qed.
Lemma make_kind data t o i n : makeInstrumentAt data t o = Ok (Some i, n) -> kind_of_type (itype i) = kind (iBody i).
Proof.
  intros H. pose proof (make_type _ _ _ _ _ H) as (T & B & _). unfold makeInstrumentAt in H. destruct (Z.eqb_spec t 0) as [?|T0]; [discriminate|]. apply bind_ok in H as ([bd m] & H & E). injection E as <- <-. unfold itype in *. cbn [iBody] in *. unfold kind_of_type.
  destruct bd as [nn|f ns|rs]; cbn [body_type kind] in *; [|reflexivity|reflexivity]. rewrite T. destruct (Z.ltb_spec t 16) as [?|G]; [reflexivity|].
  exfalso. revert H. destruct (Z.eqb_spec t 16) as [?|?]; [|destruct (Z.eqb_spec t 17) as [?|?]; [|discriminate]]; intros H.
  - unfold range_fromData in H. apply bind_ok in H as (x1 & _ & H). apply bind_ok in H as (x2 & _ & H). apply bind_ok in H as (ns & _ & H). discriminate.
  - unfold regional_fromData in H. apply bind_ok in H as (x1 & _ & H). apply bind_ok in H as (rs & _ & H). discriminate.
Qed.
Lemma load_between order file u w b : is_bytes file -> sbnk_load order file u w = Ok b -> forall k l i, In (k, l) (bInacc b) -> In i l ->
  itype i = kind (iBody i) /\
  (forall id j, last_before (bInsts b) (iKey i) id -> entry b id j -> kind (iBody j) <= kind (iBody i)) /\
  (forall id j, first_after (bInsts b) (iKey i) id -> entry b id j -> kind (iBody i) <= kind (iBody j)).
Proof.
  intros ISB LD. destruct (load_found order file u w b ISB LD) as (h0 & _ & (_ & DK & _) & RD0). destruct (load_types order file u w b ISB LD) as (_ & _ & TY & _).
  revert LD DK RD0 TY. unfold sbnk_load. intros H DK RD0 TY. apply bind_ok in H as (_ & _ & H). apply bind_ok in H as (h & HH & H). apply bind_ok in H as (_ & _ & H). apply bind_ok in H as (_ & _ & H). apply bind_ok in H as (mg & _ & H). apply bind_ok in H as (_ & _ & H). apply bind_ok in H as (count & C & H). apply bind_ok in H as (_ & _ & H). cbv zeta in H.
  apply bind_ok in H as ([[insts m] un] & L & H). apply bind_ok in H as (inacc & S & H). injection H as <-. cbn [bInsts bInacc] in *. 
  destruct (load_table_facts _ _ _ _ _ _ _ L ltac:(lia)) as (LN & M & RD & UN & SS & SM). intros k l i A I.
  pose proof (scan_possible _ _ _ _ _ _ _ _ _ (fun k l i (F : In (k, l) []) _ => match F with end) (NoDup_nil _) S k l i A I) as P.
  assert (TI : forall id o t, In (id, o) m -> type_of_id insts (Some (id, o)) = Some t -> exists j, 0 <= id /\ nth_error insts (Z.to_nat id) = Some (Some j) /\ iKey j = o /\ t = itype j /\ 1 <= t <= 17 /\ kind_of_type t = kind (iBody j)).
  { intros id o t Q E. apply M in Q as (Q0 & j & N & K). rewrite Z.sub_0_r in N. cbn [type_of_id] in E. rewrite N in E. injection E as <-. exists j. split; [exact Q0|]. split; [exact N|]. split; [exact K|]. split; [reflexivity|]. split; [apply TY; left; cbn [bInsts]; eapply nth_error_In; exact N|].
    destruct (RD j) as (_ & t & MK); [eapply nth_error_In; exact N|]. exact (make_kind _ _ _ _ _ MK). }
  destruct (DK k l A) as (_ & _ & FD). destruct (FD i I) as (_ & _ & (ti & MK) & _ & _).
  pose proof (prev_spec (iKey i) m SM) as PV. pose proof (next_first (iKey i) m SM) as NX.
  apply possible_in in P as (P1 & P2 & P3).
  - assert (KI : itype i = kind (iBody i)). { pose proof (make_kind _ _ _ _ _ MK) as K. rewrite <- K. unfold kind_of_type. destruct P1 as [->|[->| ->]]; reflexivity. }
    split; [exact KI|]. rewrite KI in P2, P3. split.
    + intros id j (L0 & j0 & N0 & LT & MX) [_ E]. cbn [bInsts] in E. rewrite N0 in E. injection E as ->. assert (Q : In (id, iKey j) m) by (apply M; split; [exact L0|]; rewrite Z.sub_0_r; exists j; split; [exact N0|reflexivity]).
      destruct (prev_of (iKey i) m) as [[id' o']|]; [|specialize (PV _ Q); cbn [snd] in PV; lia]. destruct PV as (Q' & L' & MX'). cbn [snd fst] in L', MX'.
      pose proof Q' as Q2. apply M in Q2 as (L2 & j2 & N2 & K2). rewrite Z.sub_0_r in N2. destruct (MX id' j2 L2 N2 ltac:(lia)) as [B1 B2]. destruct (MX' _ Q LT) as [B3 B4]. cbn [fst snd] in B3, B4. assert (id' = id) by lia. subst id'. rewrite N0 in N2. injection N2 as <-.
      destruct (type_of_id insts (Some (id, o'))) as [t|] eqn:TE; [|cbn [type_of_id] in TE; rewrite N0 in TE; discriminate]. destruct (TI _ _ _ Q' TE) as (j3 & _ & N3 & _ & _ & _ & K3). rewrite N0 in N3. injection N3 as <-. rewrite <- K3. apply P2. reflexivity.
    + intros id j (L0 & j0 & N0 & LT & MX) [_ E]. cbn [bInsts] in E. rewrite N0 in E. injection E as ->. assert (Q : In (id, iKey j) m) by (apply M; split; [exact L0|]; rewrite Z.sub_0_r; exists j; split; [exact N0|reflexivity]).
      destruct (next_of (iKey i) m) as [[id' o']|]; [|specialize (NX _ Q); cbn [snd] in NX; lia]. destruct NX as (Q' & L' & MX'). cbn [snd fst] in L', MX'.
      pose proof Q' as Q2. apply M in Q2 as (L2 & j2 & N2 & K2). rewrite Z.sub_0_r in N2. destruct (MX id' j2 L2 N2 ltac:(lia)) as [B1 B2]. destruct (MX' _ Q LT) as [B3 B4]. cbn [fst snd] in B3, B4. assert (id' = id) by lia. subst id'. rewrite N0 in N2. injection N2 as <-.
      destruct (type_of_id insts (Some (id, o'))) as [t|] eqn:TE; [|cbn [type_of_id] in TE; rewrite N0 in TE; discriminate]. destruct (TI _ _ _ Q' TE) as (j3 & _ & N3 & _ & _ & _ & K3). rewrite N0 in N3. injection N3 as <-. rewrite <- K3. apply P3. reflexivity.
  - intros p E. destruct (prev_of (iKey i) m) as [[id' o']|]; [|discriminate]. destruct PV as (Q' & _). destruct (TI _ _ _ Q' E) as (j & _ & _ & _ & _ & R & _). exact R.
  - intros p E. destruct (next_of (iKey i) m) as [[id' o']|]; [|discriminate]. destruct NX as (Q' & _). destruct (TI _ _ _ Q' E) as (j & _ & _ & _ & _ & R & _). exact R.
Qed.
Lemma scan_nonempty order data fs insts m : forall fuel un acc acc', (forall k l, In (k, l) acc -> l <> []) -> NoDup (map fst acc) -> scan fuel order data fs insts m un acc = Ok acc' ->
  forall k l, In (k, l) acc' -> l <> [].
Proof.
  induction fuel as [|fu IH]; intros un acc acc' A N H; cbn [scan] in H; destruct un as [|x0 un0]; try discriminate; try (injection H as <-; exact A).
  destruct (drop_padding fs (x0 :: un0)) as [|this rest]; [injection H as <-; exact A|]. cbv zeta in H. apply bind_ok in H as (t & G & H).
  destruct t as [t|]; [|exact (IH _ _ _ A N H)]. destruct (makeInstrumentAt data t this) as [[[i|] n]|] eqn:MK; [|exact (IH _ _ _ A N H)|exact (IH _ _ _ A N H)].
  eapply IH; [|apply push_nodup; exact N|exact H]. intros k l J. apply push_in in J as [(-> & l0 & -> & J)|(_ & J)]; [destruct l0; discriminate|exact (A _ _ J)|exact N].
Qed.
Lemma load_nonempty order file u w b : sbnk_load order file u w = Ok b -> forall k l, In (k, l) (bInacc b) -> l <> [].
Proof.
  unfold sbnk_load. intros H. apply bind_ok in H as (_ & _ & H). apply bind_ok in H as (h & HH & H). apply bind_ok in H as (_ & _ & H). apply bind_ok in H as (_ & _ & H). apply bind_ok in H as (mg & _ & H). apply bind_ok in H as (_ & _ & H). apply bind_ok in H as (count & C & H). apply bind_ok in H as (_ & _ & H). cbv zeta in H.
  apply bind_ok in H as ([[insts m] un] & L & H). apply bind_ok in H as (inacc & S & H). injection H as <-. cbn [bInacc]. refine (scan_nonempty _ _ _ _ _ _ _ [] _ _ (NoDup_nil _) S). intros k l [].
Qed.

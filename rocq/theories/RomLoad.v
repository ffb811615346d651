(** * Loading a saved ROM *)
From Coq Require Import Sorting.Sorted Permutation.
From Verif Require Import PyBase PyLemmas PyTac AtLemmas CommonModel FntModel FntSpec FntSaveLemmas CodeModel CodeLemmas RomModel RomSpec RomBody RomHeader RomLayout.

Lemma at_get d i (v : Z) j : at_ d i [v] -> j = i -> get d j = Ok v.
Proof. intros A ->. apply at_split in A as (a & b & -> & <-). apply get_mid. reflexivity. Qed.
Lemma at_sub {A} (d : list A) o n j x : 0 <= o -> o + n <= zlen d -> 0 <= j -> j + zlen x <= n -> at_ d (o + j) x -> at_ (slice d o (o + n)) j x.
Proof.
  intros O N J L A0. pose proof (zlen_nonneg x). assert (E : d = slice d 0 o ++ slice d o (o + n) ++ slice d (o + n) (zlen d)).
  { rewrite !slice_app_eq by lia. symmetry. apply slice_all. }
  rewrite E in A0. assert (L0 : zlen (slice d 0 o) = o) by (rewrite zlen_slice by lia; lia). assert (L1 : zlen (slice d o (o + n)) = n) by (rewrite zlen_slice by lia; lia).
  assert (Q0 : zlen (slice d 0 o) <= o + j) by lia. assert (Q1 : j + zlen x <= zlen (slice d o (o + n))) by lia.
  apply (proj1 (at_app_r _ _ _ _ Q0)) in A0. rewrite L0 in A0. replace (o + j - o) with j in A0 by lia.
  exact (proj1 (at_app_l _ _ _ _ Q1) A0).
Qed.
Lemma at_unpack_in n d o b j v : at_ d o b -> 0 <= j -> unpack_u n b j = Ok v -> unpack_u n d (o + j) = Ok v.
Proof.
  intros A J U. pose proof (unpack_u_lt _ _ _ _ J U). apply at_split in A as (u & w & -> & <-). rewrite unpack_u_skip by lia.
  replace (zlen u + j - zlen u) with j by lia. rewrite unpack_u_app_l by lia. exact U.
Qed.
Lemma slice_opt (d : bytes) o b : b = [] /\ o = 0 \/ at_ d o b -> slice d o (o + zlen b) = b.
Proof. intros [(-> & ->)|A]; [apply slice_nil; change (zlen (@nil Z)) with 0; lia|]. eapply at_slice; [exact A|reflexivity]. Qed.
Lemma slice_firstn {A} (d x : list A) o n : at_ d o x -> o + zlen x = zlen d -> 0 <= n -> slice d o (Z.min (zlen d) (o + n)) = firstn (Z.to_nat n) x.
Proof.
  intros A0 L N. pose proof (zlen_nonneg x). destruct A0 as (O & L' & E). rewrite <- E. rewrite !slice_concrete by lia. rewrite firstn_firstn. f_equal. lia.
Qed.

(** ** Names and fixed-width strings *)
Lemma firstn_repeat_ {A} (x : A) k n : exists m, firstn k (repeat x n) = repeat x m.
Proof. revert k. induction n as [|n IH]; intros [|k]; cbn [repeat firstn]; [exists 0%nat; reflexivity..|]. destruct (IH k) as (m & ->). exists (S m). reflexivity. Qed.
Lemma rstrip_app_zeros c l n : rstrip c (l ++ repeat c n) = rstrip c l.
Proof. induction l as [|x l IH]; [apply rstrip_rep|]. cbn [app rstrip]. rewrite IH. reflexivity. Qed.
Lemma fix_name b n : 0 <= n -> rstrip 0 (slice (ljust b n 0) 0 n) = rstrip 0 (firstn (Z.to_nat n) b).
Proof.
  intros N. unfold ljust. pose proof (zlen_nonneg b). assert (L : n <= zlen (b ++ rep 0 (n - zlen b))) by (rewrite zlen_app, zlen_rep_max; lia).
  rewrite slice_concrete by lia. rewrite Z.sub_0_r. change (Z.to_nat 0) with 0%nat. cbn [skipn]. rewrite firstn_app. unfold rep. destruct (firstn_repeat_ 0 (Z.to_nat n - length b) (Z.to_nat (n - zlen b))) as (m & ->). apply rstrip_app_zeros.
Qed.

Lemma fix_raw b n : 0 <= n -> slice (ljust b n 0) 0 n = firstn (Z.to_nat n) (b ++ zeros n).
Proof.
  intros N. unfold ljust. pose proof (zlen_nonneg b). assert (L : n <= zlen (b ++ rep 0 (n - zlen b))) by (rewrite zlen_app, zlen_rep_max; lia).
  rewrite slice_concrete by lia. rewrite Z.sub_0_r. change (Z.to_nat 0) with 0%nat. cbn [skipn]. rewrite !firstn_app. f_equal. unfold zeros, rep.
  rewrite (firstn_all2 (repeat 0 (Z.to_nat (n - zlen b)))) by (rewrite repeat_length; unfold zlen; lia).
  replace (Z.to_nat n) with (Z.to_nat n - length b + (Z.to_nat n - (Z.to_nat n - length b)))%nat at 2 by lia. rewrite repeat_app.
  rewrite firstn_app, repeat_length, Nat.sub_diag. cbn [firstn]. rewrite app_nil_r, firstn_all2 by (rewrite repeat_length; lia). f_equal. unfold zlen. lia.
Qed.

(** ** The data after the ARM9 code *)
Lemma post_read d p : post_blocks p -> forall o fuel, (length p < fuel)%nat -> at_ d o p -> ~ stored d (o + zlen p) magic -> post_loop fuel d o = Ok p.
Proof.
  induction 1 as [|b p L B IH]; intros o fuel F A N; destruct fuel as [|k]; try lia; cbn [post_loop].
  - change (zlen (@nil Z)) with 0 in N. rewrite Z.add_0_r in N. destruct (beq _ _) eqn:E; [|reflexivity]. exfalso. apply N. apply beq_eq in E.
    apply at_stored. destruct A as (A & A' & _). change (zlen (@nil Z)) with 0 in A'. pose proof (f_equal zlen E) as LE. change (zlen [33; 6; 192; 222]) with 4 in LE.
    unfold at_. change (zlen magic) with 4. split; [exact A|]. split; [|exact E].
    unfold slice in LE. rewrite (clamp_id _ o) in LE by lia. rewrite zlen_firstn, zlen_skipn in LE. lia.
  - apply at_app in A as (A1 & A2). apply at_app in A2 as (A2 & A3). change (zlen magic) with 4 in A2, A3. rewrite L in A3.
    rewrite (at_slice _ _ _ (o + 4) A1 eq_refl). change [33; 6; 192; 222] with magic. rewrite beq_refl.
    rewrite (IH (o + 12) k).
    + cbn [bind]. rewrite (at_slice d o (magic ++ b) (o + 12)) by first [apply at_app; split; assumption | rewrite zlen_app, L; reflexivity]. rewrite <- app_assoc. reflexivity.
    + rewrite !app_length in F. change (length magic) with 4%nat in F. lia.
    + replace (o + 12) with (o + 4 + 8) by lia. exact A3.
    + replace (o + 12 + zlen p) with (o + zlen (magic ++ b ++ p)); [exact N|]. rewrite !zlen_app, L. change (zlen magic) with 4. lia.
Qed.

(** ** The dictionary of start offsets *)
Lemma dset_in (d : list (Z * Z)) k v a b : NoDup (map fst d) -> In (a, b) (dset d k v) <-> (a = k /\ b = v) \/ (a <> k /\ In (a, b) d).
Proof.
  induction d as [|[k' v'] d IH]; cbn [dset map fst]; intros N.
  - cbn [In]. split; [intros [H|[]]; injection H as <- <-; left; split; reflexivity|]. intros [(-> & ->)|(_ & [])]. left. reflexivity.
  - inversion N; subst. destruct (Z.eqb_spec k' k) as [->|NE]; cbn [In].
    + split.
      * intros [H|H]; [injection H as <- <-; left; split; reflexivity|]. right. split; [|right; exact H]. intros ->. apply H1. apply in_map_iff. exists (k, b). split; [reflexivity|exact H].
      * intros [(-> & ->)|(NE & [H|H])]; [left; reflexivity|congruence|right; exact H].
    + rewrite IH by assumption. split.
      * intros [H|[H|(H & H')]]; [injection H as <- <-; right; split; [exact NE|left; reflexivity]|left; exact H|right; split; [exact H|right; exact H']].
      * intros [H|(H & [H'|H'])]; [right; left; exact H|left; exact H'|right; right; split; assumption].
Qed.
Lemma dset_keys (d : list (Z * Z)) k v a : In a (map fst (dset d k v)) <-> a = k \/ In a (map fst d).
Proof.
  induction d as [|[k' v'] d IH]; cbn [dset map fst In]; [split; intros [H|H]; auto|]. destruct (Z.eqb_spec k' k) as [->|NE]; cbn [map fst In]; [|rewrite IH]; intuition congruence.
Qed.
Lemma dset_nodup (d : list (Z * Z)) k v : NoDup (map fst d) -> NoDup (map fst (dset d k v)).
Proof.
  induction d as [|[k' v'] d IH]; cbn [dset map fst]; intros N; [constructor; [easy|constructor]|]. inversion N; subst.
  destruct (Z.eqb_spec k' k) as [->|NE]; cbn [map fst]; [exact N|]. constructor; [|apply IH; assumption]. rewrite dset_keys. intros [->|H]; [congruence|contradiction].
Qed.

(** reading the FAT: files and dictionary after the first [n] entries *)
Section FatRead.
Context (d fat : bytes) (fs : list bytes) (start : nat -> Z)
  (R1 : forall i f, nth_error fs i = Some f -> unpack_u 4 fat (8 * Z.of_nat i) = Ok (start i) /\ exists e, unpack_u 4 fat (8 * Z.of_nat i + 4) = Ok e /\ slice d (start i) e = f).
Lemma fat_fold n : (n <= length fs)%nat -> exists D, foldM (fat_step d fat) ([], []) (range_z 0 n) = Ok (firstn n fs, D) /\ NoDup (map fst D) /\
  forall s i, In (s, i) D <-> 0 <= i < Z.of_nat n /\ s = start (Z.to_nat i) /\ forall j, i < j < Z.of_nat n -> start (Z.to_nat j) <> start (Z.to_nat i).
Proof.
  induction n as [|n IH]; intros L.
  - exists []. split; [reflexivity|]. split; [constructor|]. intros s i. cbn [In]. split; [easy|]. intros (H & _). lia.
  - destruct IH as (D & E & ND & M); [lia|]. rewrite range_z_snoc, foldM_app, E. cbn [bind foldM]. unfold fat_step. rewrite Z.add_0_l.
    destruct (nth_error fs n) as [f|] eqn:N; [|apply nth_error_None in N; lia]. destruct (R1 n f N) as (U1 & e & U2 & A).
    rewrite U1. cbn [bind]. rewrite U2. cbn [bind fst snd]. rewrite A. exists (dset D (start n) (Z.of_nat n)). split.
    + do 2 f_equal. apply nth_error_split in N as (l1 & l2 & -> & <-). rewrite firstn_app_exact by reflexivity.
      replace (S (length l1)) with (length (l1 ++ [f])) by (rewrite app_length; cbn; lia). replace (l1 ++ f :: l2) with ((l1 ++ [f]) ++ l2) by (rewrite <- app_assoc; reflexivity).
      rewrite firstn_app_exact by reflexivity. reflexivity.
    + split; [apply dset_nodup; exact ND|]. intros s i. rewrite dset_in by exact ND. rewrite M. split.
      * intros [(-> & ->)|(NE & H1 & -> & H2)].
        -- rewrite Nat2Z.id. split; [lia|]. split; [reflexivity|]. intros j J. lia.
        -- split; [lia|]. split; [reflexivity|]. intros j J. assert (C : j < Z.of_nat n \/ j = Z.of_nat n) by lia. destruct C as [C | ->]; [apply H2; lia|]. rewrite Nat2Z.id. congruence.
      * intros (H1 & -> & H2). assert (C : i < Z.of_nat n \/ i = Z.of_nat n) by lia. destruct C as [C | ->].
        -- right. split; [|split; [lia|split; [reflexivity|intros j J; apply H2; lia]]]. specialize (H2 (Z.of_nat n) ltac:(lia)). rewrite Nat2Z.id in H2. congruence.
        -- left. rewrite Nat2Z.id. split; reflexivity.
Qed.
Lemma load_files_ok : zlen fat = 8 * zlen fs -> exists order, load_files d fat = Ok (fs, order) /\ by_offset start (length fs) order.
Proof.
  intros L. unfold load_files. replace (Z.to_nat (zlen fat / 8)) with (length fs) by (rewrite L; unfold zlen; rewrite Z.mul_comm, Z.div_mul by lia; lia).
  destruct (fat_fold (length fs) (le_n _)) as (D & -> & ND & M). cbn [bind fst snd]. rewrite firstn_all. eexists. split; [reflexivity|].
  pose proof (sort_sorted D ND) as S. pose proof (sort_perm D) as PM.
  assert (IS : forall s i, In (s, i) (sort_keys D) <-> In (s, i) D) by (intros s i; split; apply Permutation_in; [symmetry|]; exact PM).
  split.
  - assert (G : forall l, (forall s i, In (s, i) l -> s = start (Z.to_nat i)) -> StronglySorted (fun a b : Z * Z => fst a < fst b) l ->
              StronglySorted (fun i j => start (Z.to_nat i) < start (Z.to_nat j)) (map snd l)).
    { induction l as [|[s i] l IH]; intros K SS; [constructor|]. inversion SS; subst. cbn [map snd]. constructor.
      - apply IH; [|assumption]. intros s' i' I. apply K. right. exact I.
      - apply Forall_map. rewrite Forall_forall in *. intros [s' i'] I. specialize (H2 _ I). cbn [fst snd] in *.
        rewrite <- (K s i) by (left; reflexivity). rewrite <- (K s' i') by (right; exact I). exact H2. }
    apply G; [|exact S]. intros s i I. apply IS, M in I. apply I.
  - intros i. rewrite in_map_iff. split.
    + intros ([s i'] & <- & I). apply IS, M in I. cbn [snd]. destruct I as (I1 & _ & I2). split; assumption.
    + intros (I1 & I2). exists (start (Z.to_nat i), i). split; [reflexivity|]. apply IS, M. split; [exact I1|]. split; [reflexivity|exact I2].
Qed.
End FatRead.

(** ** The whole file *)
Lemma bind_step {A B} (x : res A) (a : A) (k : A -> res B) y : x = Ok a -> k a = y -> bind x k = y.
Proof. intros -> H. exact H. Qed.
Ltac rd1 := match goal with
  | |- bind (get ?d ?j) _ = _ => match goal with A : at_ d j [?v] |- _ => refine (bind_step _ v _ _ (at_get d j v j A eq_refl) _); cbv beta end
  | |- bind (unpack_u ?n ?d ?j) _ = _ => match goal with A : at_ d j (le n ?v) |- _ => refine (bind_step _ v _ _ _ _); [eapply at_u; [exact A|assumption|reflexivity]|cbv beta] end
  end.

Lemma saved_pad_eq r sig : saved_pad (pad200 r) sig = firstn 0xE00 (head_pad r) ++ le 4 sig ++ skipn 0xE04 (head_pad r).
Proof.
  unfold saved_pad, head_pad. replace (round 0x4000 (0x200 + zlen (pad200 r)) - 0x200 - zlen (pad200 r)) with ((- (0x200 + zlen (pad200 r))) mod 0x4000) by (unfold round; lia). reflexivity.
Qed.
Lemma zlen_saved_pad r sig : zlen (saved_pad (pad200 r) sig) = round 0x4000 (0x200 + zlen (pad200 r)) - 0x200.
Proof.
  rewrite saved_pad_eq, !zlen_app, zlen_le, zlen_firstn, zlen_skipn. unfold head_pad. pose proof (zlen_nonneg (pad200 r)) as N.
  assert (G : 0x4000 <= round 0x4000 (0x200 + zlen (pad200 r)) /\ 0x200 + zlen (pad200 r) <= round 0x4000 (0x200 + zlen (pad200 r))).
  { unfold round. set (q := zlen _) in *. clearbody q. clear - N. Z.to_euclidean_division_equations. lia. }
  rewrite zlen_app, zlen_zeros by lia. lia.
Qed.
Lemma load_saved upd r data r1 depth : rom_save upd r = Ok (data, r1) ->
  files_named (filenames r) -> (height (filenames r) <= depth)%nat -> post_blocks (arm9PostData r) ->
  ~ stored data (word data 0x20 + zlen (arm9 r) + zlen (arm9PostData r)) magic ->
  exists order, rom_load depth data = Ok (reloaded r1 data order) /\ by_offset (fat_start data) (length (files r)) order.
Proof.
  intros E FN HD PB NM. destruct (rom_save_spec _ _ _ _ E) as (D & l & P & fnt & h & cap & B & HS & ED & ER & _ & LD & K).
  assert (W : words r l fnt data) by (rewrite ED; eapply header_words; [exact HS|apply (bs_lfnt _ _ _ _ _ B)]).
  pose proof (hs_len _ _ _ _ HS) as LH.
  destruct B as [B1 B2 B3 B4 B5 B6 B7 B8 B9 B10 B11 B12 B13 B14 B15 B16 B17 B18 B19 B20 B21].
  destruct B17 as (R1 & R2). rewrite <- saved_pad_eq in B19. pose proof (zlen_saved_pad r (oRsa l)) as LHP. rewrite <- B6 in LHP.
  assert (PS : forall t s b, In (t, s, b) P -> t <> Head -> t <> Fat -> at_ data s b /\ s mod 0x200 = 0 /\ 0x4000 <= s) by (intros; eapply piece_stored; eassumption).
  assert (LZ : 0x4000 <= zlen data).
  { rewrite LD, B20. pose proof (zlen_nonneg (rsaSignature r)). unfold round. pose proof (Z.mod_pos_bound (- (oRsa l + zlen (rsaSignature r))) 0x400). lia. }
  assert (GF : 0x4000 <= oFat l). { pose proof (proj1 (Forall_forall _ _) B5 _ B13) as X. cbn [at_end] in X. destruct X as (_ & [(X & _)|X] & _); [discriminate|exact X]. }
  assert (SIG : sig_off data (oRsa l) = Ok (oRsa l)).
  { unfold sig_off. replace (0x1004 <=? zlen data) with true by lia. rewrite (at_u 4 (oRsa l) data 0x1000 0x1000); [|apply K; [lia|exact B18]|change (256 ^ Z.of_nat 4) with (2 ^ 32); lia|reflexivity].
    cbn [bind]. replace (oRsa l =? 0) with false by lia. reflexivity. }
  assert (PO : forall t o b, part_at P t o b -> t <> Head -> t <> Fat -> b = [] /\ o = 0 \/ at_ data o b).
  { intros t o b (Z0 & N0) N1 N2. destruct b as [|x b]; [left; split; [reflexivity|apply Z0; reflexivity]|]. right. destruct N0 as (_ & I); [discriminate|]. apply (PS _ _ _ I N1 N2). }
  (* banner *)
  assert (EBAN : (if oBanner l =? 0 then Ok [] else v <- unpack_u 2 data (oBanner l) ;; Ok (slice data (oBanner l) (oBanner l + banner_len v))) = Ok (iconBanner r)).
  { destruct B14 as (Z0 & N0). destruct (iconBanner r) as [|x b] eqn:EI; [rewrite Z0 by reflexivity; reflexivity|]. destruct N0 as (G & I); [discriminate|]. replace (oBanner l =? 0) with false by lia.
    destruct B3 as [B3|(v & V1 & V2)]; [discriminate|]. destruct (PS _ _ _ I) as (A & _); [discriminate..|].
    pose proof (at_unpack_in 2 data _ _ 0 v A ltac:(lia) V1) as U. rewrite Z.add_0_r in U. rewrite U. cbn [bind]. rewrite <- V2, (at_slice _ _ _ _ A eq_refl). reflexivity. }
  (* data after the code *)
  destruct (PS _ _ _ B8) as (A9 & _ & GA9); [discriminate..|]. unfold arm9_all in A9. apply at_app in A9 as (A9 & AP). apply at_app in AP as (AP & AF).
  assert (EP : post_loop (S (length data)) data (oArm9 l + zlen (arm9 r)) = Ok (arm9PostData r)).
  { apply post_read; [exact PB| |exact AP|rewrite <- (w_arm9 _ _ _ _ W); exact NM].
    destruct AP as (_ & AP & _). unfold zlen in AP. pose proof (zlen_nonneg (arm9 r)) as N. unfold zlen in N, GA9. clear - AP N GA9. lia. }
  (* file names *)
  destruct (PS _ _ _ B12) as (AN & _); [discriminate..|].
  assert (EN : match fnt with [] => Ok (Folder [] [] 0) | _ => FntModel.load depth fnt end = Ok (filenames r)).
  { pose proof (save_load _ _ _ B1 FN HD) as SL. destruct fnt as [|x t]; [|exact SL]. destruct depth; discriminate SL. }
  (* files *)
  assert (EF : exists order, match slice data (oFat l) (oFat l + zlen (files r) * 8) with [] => Ok ([], []) | _ => load_files data (slice data (oFat l) (oFat l + zlen (files r) * 8)) end = Ok (files r, order)
               /\ by_offset (fat_start data) (length (files r)) order).
  { set (fat := slice _ _ _). 
    assert (INR : oFat l + 8 * zlen (files r) <= zlen data).
    { pose proof (chain_le _ _ _ B4 B13) as CL. cbn [fst snd] in CL. rewrite zlen_zeros in CL by (pose proof (zlen_nonneg (files r)); lia). pose proof (zlen_nonneg (rsaSignature r)).
      rewrite LD, B20. unfold round. pose proof (Z.mod_pos_bound (- (oRsa l + zlen (rsaSignature r))) 0x400). lia. }
    pose proof (zlen_nonneg (files r)) as NF.
    assert (LF : zlen fat = 8 * zlen (files r)) by (unfold fat; rewrite zlen_slice by lia; lia).
    destruct (load_files_ok data fat (files r) (fat_start data)) as (order & L1 & L2).
    - intros i f N. destruct (B16 i f N) as (s & O & I & L & A). destruct (PS _ _ _ I) as (A2 & M & G); [discriminate..|]. pose proof (zlen_nonneg f).
      apply K in A; [|lia]. unfold fat_start. rewrite (w_fat _ _ _ _ W). destruct (fat_words data _ _ _ A) as (-> & _); [lia|lia|].
      assert (I8 : Z.of_nat i < zlen (files r)) by (assert (nth_error (files r) i <> None) by congruence; apply nth_error_Some in H0; unfold zlen; clear - H0; lia).
      apply at_app in A as (X1 & X2). rewrite zlen_le in X2.
      assert (Y1 : at_ fat (8 * Z.of_nat i) (le 4 s)) by (unfold fat; apply at_sub; [lia|lia|lia|rewrite zlen_le; lia|exact X1]).
      assert (Y2 : at_ fat (8 * Z.of_nat i + 4) (le 4 (s + zlen f))) by (unfold fat; apply at_sub; [lia|lia|lia|rewrite zlen_le; lia|rewrite Z.add_assoc; exact X2]).
      split; [apply (at_u 4 s fat _ _ Y1); [change (256 ^ Z.of_nat 4) with (2 ^ 32); lia|reflexivity]|].
      exists (s + zlen f). split; [apply (at_u 4 _ fat _ _ Y2); [change (256 ^ Z.of_nat 4) with (2 ^ 32); lia|reflexivity]|exact (at_slice _ _ _ _ A2 eq_refl)].
    - exact LF.
    - exists order. split; [|exact L2]. destruct fat as [|x t] eqn:EFAT; [|exact L1]. change (zlen (@nil Z)) with 0 in LF. assert (EZ : files r = []) by (apply zlen_0; lia).
      rewrite EZ in L2 |- *. destruct order as [|o order]; [reflexivity|]. exfalso. assert (J := proj1 (proj2 L2 o) (or_introl eq_refl)). cbn [length] in J. lia. }
  destruct (PS _ _ _ B10) as (A7 & _); [discriminate..|].
  assert (EDBG : (if oDebug l =? 0 then [] else slice data (oDebug l) (oDebug l + zlen (debugRom r))) = debugRom r).
  { destruct B15 as (Z0 & N0). destruct (debugRom r) as [|x b]; [rewrite Z0 by reflexivity; reflexivity|]. destruct N0 as (G & I); [discriminate|]. replace (oDebug l =? 0) with false by lia.
    destruct (PS _ _ _ I) as (A & _); [discriminate..|]. exact (at_slice _ _ _ _ A eq_refl). }
  assert (EPAD : slice data 0x200 (Z.min (oArm9 l) (zlen data)) = saved_pad (pad200 r) (oRsa l)).
  { apply at_slice; [apply K; [lia|exact B19]|]. rewrite LHP. destruct A9 as (_ & A9 & _). pose proof (zlen_nonneg (arm9 r)). lia. }
  assert (ERSA : (if oRsa l =? 0 then [] else slice data (oRsa l) (Z.min (zlen data) (oRsa l + 0x88))) =
                 firstn 0x88 (rsaSignature r ++ zeros (zlen data - oRsa l - zlen (rsaSignature r)))).
  { replace (oRsa l =? 0) with false by lia. assert (EZ : (- (oRsa l + zlen (rsaSignature r))) mod 0x400 = zlen data - oRsa l - zlen (rsaSignature r)) by (rewrite LD, B20; unfold round; lia).
    rewrite EZ in B21. apply K in B21; [|lia]. change 0x88%nat with (Z.to_nat 0x88). apply slice_firstn; [exact B21| |lia].
    rewrite zlen_app, zlen_zeros; [lia|]. rewrite <- EZ. apply Z.mod_pos_bound. lia. }
  pose proof (header_at r l cap h (skipn 0x200 D) HS) as HA. pose proof (debug_at r l cap h (skipn 0x200 D) HS) as DA. rewrite <- ED in HA, DA. clear ED HS.
  assert (FA : forall k f w, nth_error (header_fields r l cap) k = Some f -> wsum (firstn k (header_fields r l cap)) = w -> at_ data w (henc f) /\ hvalid f) by (intros k f w N <-; exact (HA k f N)).
  assert (FD : forall k f w, nth_error (debug_fields r l) k = Some f -> 0x160 + wsum (firstn k (debug_fields r l)) = w -> at_ data w (henc f) /\ hvalid f) by (intros k f w N <-; exact (DA k f N)).
  clear HA DA.
  destruct (FA 0%nat _ 0 eq_refl eq_refl) as (H0 & V0). cbn [henc hvalid] in H0, V0.
  destruct (FA 1%nat _ 12 eq_refl eq_refl) as (H1 & V1). cbn [henc hvalid] in H1, V1.
  destruct (FA 2%nat _ 16 eq_refl eq_refl) as (H2 & V2). cbn [henc hvalid] in H2, V2.
  destruct (FA 3%nat _ 18 eq_refl eq_refl) as (H3 & V3). cbn [henc hvalid] in H3, V3.
  destruct (FA 4%nat _ 19 eq_refl eq_refl) as (H4 & V4). cbn [henc hvalid] in H4, V4.
  destruct (FA 5%nat _ 20 eq_refl eq_refl) as (H5 & V5). cbn [henc hvalid] in H5, V5.
  destruct (FA 6%nat _ 21 eq_refl eq_refl) as (H6 & V6). cbn [henc hvalid] in H6, V6.
  destruct (FA 7%nat _ 22 eq_refl eq_refl) as (H7 & V7). cbn [henc hvalid] in H7, V7.
  destruct (FA 8%nat _ 23 eq_refl eq_refl) as (H8 & V8). cbn [henc hvalid] in H8, V8.
  destruct (FA 9%nat _ 24 eq_refl eq_refl) as (H9 & V9). cbn [henc hvalid] in H9, V9.
  destruct (FA 10%nat _ 25 eq_refl eq_refl) as (H10 & V10). cbn [henc hvalid] in H10, V10.
  destruct (FA 11%nat _ 26 eq_refl eq_refl) as (H11 & V11). cbn [henc hvalid] in H11, V11.
  destruct (FA 12%nat _ 27 eq_refl eq_refl) as (H12 & V12). cbn [henc hvalid] in H12, V12.
  destruct (FA 13%nat _ 28 eq_refl eq_refl) as (H13 & V13). cbn [henc hvalid] in H13, V13.
  destruct (FA 14%nat _ 29 eq_refl eq_refl) as (H14 & V14). cbn [henc hvalid] in H14, V14.
  destruct (FA 15%nat _ 30 eq_refl eq_refl) as (H15 & V15). cbn [henc hvalid] in H15, V15.
  destruct (FA 16%nat _ 31 eq_refl eq_refl) as (H16 & V16). cbn [henc hvalid] in H16, V16.
  destruct (FA 17%nat _ 32 eq_refl eq_refl) as (H17 & V17). cbn [henc hvalid] in H17, V17.
  destruct (FA 18%nat _ 36 eq_refl eq_refl) as (H18 & V18). cbn [henc hvalid] in H18, V18.
  destruct (FA 19%nat _ 40 eq_refl eq_refl) as (H19 & V19). cbn [henc hvalid] in H19, V19.
  destruct (FA 20%nat _ 44 eq_refl eq_refl) as (H20 & V20). cbn [henc hvalid] in H20, V20.
  destruct (FA 21%nat _ 48 eq_refl eq_refl) as (H21 & V21). cbn [henc hvalid] in H21, V21.
  destruct (FA 22%nat _ 52 eq_refl eq_refl) as (H22 & V22). cbn [henc hvalid] in H22, V22.
  destruct (FA 23%nat _ 56 eq_refl eq_refl) as (H23 & V23). cbn [henc hvalid] in H23, V23.
  destruct (FA 24%nat _ 60 eq_refl eq_refl) as (H24 & V24). cbn [henc hvalid] in H24, V24.
  destruct (FA 25%nat _ 64 eq_refl eq_refl) as (H25 & V25). cbn [henc hvalid] in H25, V25.
  destruct (FA 26%nat _ 68 eq_refl eq_refl) as (H26 & V26). cbn [henc hvalid] in H26, V26.
  destruct (FA 27%nat _ 72 eq_refl eq_refl) as (H27 & V27). cbn [henc hvalid] in H27, V27.
  destruct (FA 28%nat _ 76 eq_refl eq_refl) as (H28 & V28). cbn [henc hvalid] in H28, V28.
  destruct (FA 29%nat _ 80 eq_refl eq_refl) as (H29 & V29). cbn [henc hvalid] in H29, V29.
  destruct (FA 30%nat _ 84 eq_refl eq_refl) as (H30 & V30). cbn [henc hvalid] in H30, V30.
  destruct (FA 31%nat _ 88 eq_refl eq_refl) as (H31 & V31). cbn [henc hvalid] in H31, V31.
  destruct (FA 32%nat _ 92 eq_refl eq_refl) as (H32 & V32). cbn [henc hvalid] in H32, V32.
  destruct (FA 33%nat _ 96 eq_refl eq_refl) as (H33 & V33). cbn [henc hvalid] in H33, V33.
  destruct (FA 34%nat _ 100 eq_refl eq_refl) as (H34 & V34). cbn [henc hvalid] in H34, V34.
  destruct (FA 35%nat _ 104 eq_refl eq_refl) as (H35 & V35). cbn [henc hvalid] in H35, V35.
  destruct (FA 36%nat _ 108 eq_refl eq_refl) as (H36 & V36). cbn [henc hvalid] in H36, V36.
  destruct (FA 37%nat _ 110 eq_refl eq_refl) as (H37 & V37). cbn [henc hvalid] in H37, V37.
  destruct (FA 38%nat _ 112 eq_refl eq_refl) as (H38 & V38). cbn [henc hvalid] in H38, V38.
  destruct (FA 39%nat _ 116 eq_refl eq_refl) as (H39 & V39). cbn [henc hvalid] in H39, V39.
  destruct (FA 40%nat _ 120 eq_refl eq_refl) as (H40 & V40). cbn [henc hvalid] in H40, V40.
  destruct (FA 41%nat _ 128 eq_refl eq_refl) as (H41 & V41). cbn [henc hvalid] in H41, V41.
  destruct (FA 43%nat _ 136 eq_refl eq_refl) as (H43 & V43). cbn [henc hvalid] in H43, V43.
  destruct (FA 44%nat _ 192 eq_refl eq_refl) as (H44 & V44). cbn [henc hvalid] in H44, V44.
  destruct (FD 0%nat _ 352 eq_refl eq_refl) as (G0 & U0). cbn [henc hvalid] in G0, U0.
  destruct (FD 1%nat _ 356 eq_refl eq_refl) as (G1 & U1). cbn [henc hvalid] in G1, U1.
  destruct (FD 2%nat _ 360 eq_refl eq_refl) as (G2 & U2). cbn [henc hvalid] in G2, U2.
  destruct (FD 3%nat _ 364 eq_refl eq_refl) as (G3 & U3). cbn [henc hvalid] in G3, U3.
  clear FA FD. destruct EF as (order & EF & BO). exists order. split; [|exact BO].
  unfold rom_load. assert (Q : (zlen data <? 0x200) = false) by (clear - LZ; lia). rewrite Q. cbv zeta. repeat rd1.
  refine (bind_step _ _ _ _ SIG _). cbv beta. refine (bind_step _ _ _ _ EBAN _). cbv beta. refine (bind_step _ _ _ _ EP _). cbv beta. rewrite B2, (at_slice _ _ _ _ AN eq_refl). refine (bind_step _ _ _ _ EN _). cbv beta. refine (bind_step _ _ _ _ EF _). cbv beta iota. f_equal.
  unfold reloaded. subst r1.
  cbn [set_capacity name idCode developerCode unitCode encryptionSeedSelect deviceCapacity pad015 pad016 pad017 pad018 pad019 pad01A pad01B pad01C region version autostart arm9EntryAddress arm9RamAddress arm7EntryAddress arm7RamAddress normalCardControl secureCardControl secureAreaChecksum secureTransferDelay arm9CodeSettings arm7CodeSettings secureAreaDisable pad088 nintendoLogo debugRomAddress pad16C pad200 rsaSignature arm9 arm9PostData arm7 arm9OverlayTable arm7OverlayTable iconBanner debugRom filenames files sortedFileIds].
  rewrite (w_rsa _ _ _ _ W).
  change (0 + 12) with 12. rewrite (at_slice _ _ _ 12 H0 ltac:(rewrite zlen_fix by (clear; lia); reflexivity)), fix_name by (clear; lia). change (Z.to_nat 12) with 12%nat.
  rewrite (at_slice _ _ _ (0xC + 4) H1) by (rewrite V1; reflexivity).
  rewrite (at_slice _ _ _ (0x10 + 2) H2) by (rewrite V2; reflexivity).
  rewrite (at_slice _ _ _ (0x78 + 8) H40) by (rewrite zlen_fix by (clear; lia); reflexivity). rewrite fix_raw by (clear; lia). change (Z.to_nat 8) with 8%nat.
  rewrite (at_slice _ _ _ (0x88 + 0x38) H43) by (rewrite V43; reflexivity).
  rewrite (at_slice _ _ _ (0xC0 + 0x9C) H44) by (rewrite V44; reflexivity).
  rewrite (at_slice _ _ _ (0x16C + 0x94) G3) by (rewrite U3; reflexivity).
  rewrite EPAD, ERSA.
  rewrite (at_slice _ _ _ _ A9 eq_refl). rewrite (at_slice _ _ _ _ A7 eq_refl).
  rewrite (slice_opt data (oOvt9 l) _ (PO _ _ _ B9 ltac:(discriminate) ltac:(discriminate))).
  rewrite (slice_opt data (oOvt7 l) _ (PO _ _ _ B11 ltac:(discriminate) ltac:(discriminate))).
  rewrite EDBG. reflexivity.
Qed.

(** * Lemmas for ViewProps: reading an arbitrary ROM *)
From Verif Require Import PyBase PyLemmas PyTac CommonModel FntModel CodeModel RomModel RomSpec RomLoad LoadTotal ViewSpec ViewLemmas.

(** the signature's position *)
Definition signature_at (d : bytes) : Z :=
  if (0x1004 <=? zlen d) && negb (word d 0x1000 =? 0) then word d 0x1000
  else if word d 0x80 <? zlen d then word d 0x80 else 0.
Definition file_of (d fat : bytes) (i : nat) : bytes :=
  part d (word fat (8 * Z.of_nat i)) (word fat (8 * Z.of_nat i + 4) - word fat (8 * Z.of_nat i)).
Definition fat_of (d : bytes) := part d (word d 0x48) (word d 0x4C).
Definition fnt_of (d : bytes) := part d (word d 0x40) (word d 0x44).
(** the object read, given the banner, the trailer, the names and the files *)
Definition viewed (d ban post : bytes) (names : folder) (fs : list bytes) (order : list Z) : rom :=
  {| name := rstrip 0 (part d 0 12); idCode := part d 0xC 4; developerCode := part d 0x10 2;
     unitCode := byte d 0x12; encryptionSeedSelect := byte d 0x13; deviceCapacity := byte d 0x14;
     pad015 := byte d 0x15; pad016 := byte d 0x16; pad017 := byte d 0x17; pad018 := byte d 0x18;
     pad019 := byte d 0x19; pad01A := byte d 0x1A; pad01B := byte d 0x1B; pad01C := byte d 0x1C;
     region := byte d 0x1D; version := byte d 0x1E; autostart := byte d 0x1F;
     arm9EntryAddress := word d 0x24; arm9RamAddress := word d 0x28;
     arm7EntryAddress := word d 0x34; arm7RamAddress := word d 0x38;
     normalCardControl := word d 0x60; secureCardControl := word d 0x64;
     secureAreaChecksum := half d 0x6C; secureTransferDelay := half d 0x6E;
     arm9CodeSettings := word d 0x70; arm7CodeSettings := word d 0x74;
     secureAreaDisable := part d 0x78 8; pad088 := part d 0x88 0x38; nintendoLogo := part d 0xC0 0x9C;
     debugRomAddress := word d 0x168; pad16C := part d 0x16C 0x94;
     pad200 := part d 0x200 (word d 0x20 - 0x200);
     rsaSignature := if signature_at d =? 0 then [] else part d (signature_at d) 0x88;
     arm9 := part d (word d 0x20) (word d 0x2C); arm9PostData := post;
     arm7 := part d (word d 0x30) (word d 0x3C);
     arm9OverlayTable := part d (word d 0x50) (word d 0x54);
     arm7OverlayTable := part d (word d 0x58) (word d 0x5C);
     iconBanner := ban;
     debugRom := if word d 0x160 =? 0 then [] else part d (word d 0x160) (word d 0x164);
     filenames := names; files := fs; sortedFileIds := order |}.

Lemma part_cut d o n m : 0 <= o -> zlen d - o <= m -> m <= n -> part d o n = part d o m.
Proof. intros O M N. unfold part. rewrite !firstn_all2; [reflexivity|rewrite skipn_length; unfold zlen in *; lia|rewrite skipn_length; unfold zlen in *; lia]. Qed.
Lemma slice_min d o n : 0 <= o -> 0 <= n -> slice d o (Z.min n (zlen d)) = part d o (n - o).
Proof.
  intros O N. rewrite slice_part by (unfold zlen; lia). destruct (Z.le_gt_cases n (zlen d)) as [H|H]; [rewrite Z.min_l by lia; reflexivity|]. rewrite Z.min_r by lia. symmetry. apply part_cut; lia.
Qed.
Lemma sig_view d : is_bytes d -> 0x200 <= zlen d -> sig_off d (word d 0x80) = Ok (signature_at d).
Proof.
  intros B L. unfold sig_off, signature_at. destruct (Z.leb_spec 0x1004 (zlen d)) as [H|H]; cbn [andb].
  - rewrite unpack_word by lia. cbn [bind]. destruct (Z.eqb_spec (word d 0x1000) 0) as [E|E]; cbn [negb andb]; [rewrite E; reflexivity|reflexivity].
  - cbn [bind]. reflexivity.
Qed.
Lemma files_view d fat : is_bytes d -> is_bytes fat -> exists order, load_files d fat = Ok (map (file_of d fat) (seq 0 (Z.to_nat (zlen fat / 8))), order) /\
  by_offset (fun i => word fat (8 * Z.of_nat i)) (Z.to_nat (zlen fat / 8)) order.
Proof.
  intros B BF. set (n := Z.to_nat (zlen fat / 8)). set (fs := map (file_of d fat) (seq 0 n)).
  assert (LF : length fs = n) by (unfold fs; rewrite map_length, seq_length; reflexivity).
  set (cutfat := part fat 0 (8 * Z.of_nat n)). assert (N8 : 8 * Z.of_nat n <= zlen fat) by (unfold n; pose proof (zlen_nonneg fat); rewrite Z2Nat.id; Z.to_euclidean_division_equations; lia).
  destruct (load_files_ok d cutfat fs (fun i => word fat (8 * Z.of_nat i))) as (order & L & O).
  - intros i f Hf. assert (I : (i < n)%nat) by (rewrite <- LF; apply nth_error_Some; congruence). unfold fs in Hf. rewrite nth_error_map, (nth_error_nth' _ 0%nat) in Hf by (rewrite seq_length; exact I). rewrite seq_nth in Hf by exact I. cbn [option_map Nat.add] in Hf. injection Hf as <-.
    assert (LC : zlen cutfat = 8 * Z.of_nat n) by (unfold cutfat; rewrite zlen_part by lia; reflexivity).
    assert (W : forall k, 0 <= k -> k + 4 <= 8 * Z.of_nat n -> unpack_u 4 cutfat k = Ok (word fat k)).
    { intros k K1 K2. rewrite unpack_word by lia. unfold cutfat. rewrite word_in by lia. reflexivity. }
    split; [apply W; lia|]. exists (word fat (8 * Z.of_nat i + 4)). split; [apply W; lia|]. pose proof (word_range fat (8 * Z.of_nat i) BF ltac:(lia) ltac:(lia)). pose proof (word_range fat (8 * Z.of_nat i + 4) BF ltac:(lia) ltac:(lia)).
    unfold file_of. rewrite slice_part by lia. reflexivity.
  - unfold cutfat. rewrite zlen_part by lia. unfold zlen. rewrite LF. reflexivity.
  - rewrite LF in O. exists order. split; [|exact O]. rewrite <- L. unfold load_files. assert (LC : zlen cutfat = 8 * Z.of_nat n) by (unfold cutfat; rewrite zlen_part by lia; reflexivity).
    rewrite LC. replace (8 * Z.of_nat n / 8) with (Z.of_nat n) by (rewrite Z.mul_comm, Z.div_mul; lia). rewrite Nat2Z.id. fold n. f_equal.
    assert (G : forall m k st, (k + m <= n)%nat -> foldM (fat_step d fat) st (range_z (Z.of_nat k) m) = foldM (fat_step d cutfat) st (range_z (Z.of_nat k) m)).
    { induction m as [|m IH]; intros k st K; [reflexivity|]. cbn [range_z foldM]. assert (E : fat_step d fat st (Z.of_nat k) = fat_step d cutfat st (Z.of_nat k)).
      { unfold fat_step. rewrite !(unpack_word fat) by lia. rewrite !(unpack_word cutfat) by lia. unfold cutfat. rewrite !word_in by lia. reflexivity. }
      rewrite E. destruct (fat_step d cutfat st (Z.of_nat k)) as [st'|e]; [|reflexivity]. cbn [bind]. replace (Z.of_nat k + 1) with (Z.of_nat (S k)) by lia. apply IH. lia. }
    apply (G n 0%nat). lia.
Qed.
Lemma post_view fuel : forall d o p, 0 <= o -> post_loop fuel d o = Ok p -> trailer d o p.
Proof.
  induction fuel as [|fuel IH]; intros d o p O H; cbn [post_loop] in H; [discriminate|]. rewrite !slice_part0 in H by lia. destruct (beq _ _) eqn:E.
  - apply beq_eq in E. apply bind_ok in H as (r & H & K). injection K as <-. apply IH in H as (k & K1 & K2 & K3); [|lia]. exists (S k). split.
    + rewrite K1. unfold part. replace (Z.to_nat (o + 12)) with (Z.to_nat o + 12)%nat by lia. rewrite <- skipn_skipn_. replace (Z.to_nat (12 * Z.of_nat (S k))) with (12 + Z.to_nat (12 * Z.of_nat k))%nat by lia.
      change (Z.to_nat 12) with 12%nat. set (l := skipn (Z.to_nat o) d). rewrite <- (firstn_skipn 12 l) at 3. rewrite firstn_app. rewrite firstn_firstn, Nat.min_r by lia. f_equal. assert (LL : length (firstn 12 l) = 12%nat \/ skipn 12 l = []).
      { rewrite firstn_length. destruct (Nat.le_gt_cases 12 (length l)); [left; lia|right; apply skipn_all2; lia]. }
      destruct LL as [LL|LL]; [rewrite LL; f_equal; lia|rewrite LL, !firstn_nil; reflexivity].
    + split; [|replace (o + 12 * Z.of_nat (S k)) with (o + 12 + 12 * Z.of_nat k) by lia; exact K3]. intros [|i] I; [rewrite Z.add_0_r; exact E|]. replace (o + 12 * Z.of_nat (S i)) with (o + 12 + 12 * Z.of_nat i) by lia. apply K2. lia.
  - injection H as <-. exists 0%nat. split; [reflexivity|]. split; [intros i I; lia|]. rewrite Z.add_0_r. intros X. rewrite X in E. discriminate.
Qed.

Ltac rv := match goal with
  | |- bind (get ?d ?j) _ = _ => refine (bind_step _ (byte d j) _ _ (get_byte d j ltac:(lia)) _); cbv beta
  | |- bind (unpack_u 4 ?d ?j) _ = _ => refine (bind_step _ (word d j) _ _ (unpack_word d j ltac:(lia) ltac:(lia)) _); cbv beta
  | |- bind (unpack_u 2 ?d ?j) _ = _ => refine (bind_step _ (half d j) _ _ (unpack_half d j ltac:(lia) ltac:(lia)) _); cbv beta
  end.
Definition banner_res (d : bytes) : res bytes := if word d 0x68 =? 0 then Ok [] else v <- unpack_u 2 d (word d 0x68) ;; Ok (slice d (word d 0x68) (word d 0x68 + banner_len v)).
Definition names_res (depth : nat) (d : bytes) : res folder := match fnt_of d with [] => Ok (Folder [] [] 0) | _ => FntModel.load depth (fnt_of d) end.
Lemma rom_view depth d : is_bytes d -> 0x200 <= zlen d -> exists post order,
  trailer d (word d 0x20 + word d 0x2C) post /\ by_offset (fun i => word (fat_of d) (8 * Z.of_nat i)) (Z.to_nat (zlen (fat_of d) / 8)) order /\
  rom_load depth d = (ban <- banner_res d ;; names <- names_res depth d ;;
    Ok (viewed d ban post names (map (file_of d (fat_of d)) (seq 0 (Z.to_nat (zlen (fat_of d) / 8)))) order)).
Proof.
  intros B L. assert (W : forall o, 0 <= o -> o + 4 <= 0x200 -> 0 <= word d o < 2 ^ 32) by (intros o O1 O2; apply word_range; [exact B|exact O1|lia]).
  destruct (post_ok (S (length d)) d (word d 0x20 + word d 0x2C)) as (post & P); [pose proof (W 0x20); pose proof (W 0x2C); lia|lia|pose proof (W 0x20); pose proof (W 0x2C); unfold zlen; lia|].
  destruct (files_view d (fat_of d) B (is_bytes_part _ _ _ B)) as (order & F & O). exists post, order. split; [apply (post_view _ _ _ _) in P; [exact P|pose proof (W 0x20); pose proof (W 0x2C); lia]|]. split; [exact O|].
  unfold rom_load. assert (Q : (zlen d <? 0x200) = false) by (clear - L; lia). rewrite Q. clear Q. cbv zeta. repeat rv.
  refine (bind_step _ _ _ _ (sig_view d B L) _). cbv beta. change (if word d 104 =? 0 then Ok [] else v <- unpack_u 2 d (word d 104) ;; Ok (slice d (word d 104) (word d 104 + banner_len v))) with (banner_res d).
  destruct (banner_res d) as [ban|e]; [|reflexivity]. cbn [bind]. refine (bind_step _ _ _ _ P _). cbv beta.
  pose proof (W 0x40 ltac:(lia) ltac:(lia)) as W40. pose proof (W 0x44 ltac:(lia) ltac:(lia)) as W44. pose proof (W 0x48 ltac:(lia) ltac:(lia)) as W48. pose proof (W 0x4C ltac:(lia) ltac:(lia)) as W4C.
  rewrite (slice_part0 d (word d 64) (word d 68)) by lia. rewrite (slice_part0 d (word d 72) (word d 76)) by lia. fold (fnt_of d). fold (fat_of d). fold (names_res depth d).
  destruct (names_res depth d) as [names|e]; [|reflexivity]. cbn [bind].
  assert (F' : match fat_of d with [] => Ok ([], []) | _ => load_files d (fat_of d) end = Ok (map (file_of d (fat_of d)) (seq 0 (Z.to_nat (zlen (fat_of d) / 8))), order)).
  { rewrite <- F. destruct (fat_of d); reflexivity. }
  rewrite F'. cbn [bind]. clear F F' O P. unfold viewed.
  pose proof (W 0x20 ltac:(lia) ltac:(lia)). pose proof (W 0x2C ltac:(lia) ltac:(lia)). pose proof (W 0x30 ltac:(lia) ltac:(lia)). pose proof (W 0x3C ltac:(lia) ltac:(lia)). pose proof (W 0x50 ltac:(lia) ltac:(lia)). pose proof (W 0x54 ltac:(lia) ltac:(lia)).
  pose proof (W 0x58 ltac:(lia) ltac:(lia)). pose proof (W 0x5C ltac:(lia) ltac:(lia)). pose proof (W 0x160 ltac:(lia) ltac:(lia)). pose proof (W 0x164 ltac:(lia) ltac:(lia)).
  assert (S0 : 0 <= signature_at d). { unfold signature_at. pose proof (W 0x80 ltac:(lia) ltac:(lia)). destruct (Z.leb_spec 0x1004 (zlen d)) as [X|X]; cbn [andb]; [pose proof (word_range d 0x1000 B ltac:(lia) ltac:(lia)); destruct (negb _)|]; try lia; destruct (_ <? _); lia. }
  assert (ES : (if signature_at d =? 0 then [] else slice d (signature_at d) (Z.min (zlen d) (signature_at d + 136))) = (if signature_at d =? 0 then [] else part d (signature_at d) 136)).
  { destruct (signature_at d =? 0); [reflexivity|]. rewrite Z.min_comm, slice_min by lia. f_equal. lia. }
  assert (ED : (if word d 352 =? 0 then [] else slice d (word d 352) (word d 352 + word d 356)) = (if word d 352 =? 0 then [] else part d (word d 352) (word d 356))) by (destruct (word d 352 =? 0); [reflexivity|apply slice_part0; lia]).
  rewrite ES, ED, slice_min by lia. rewrite !slice_part0 by lia. apply eq_refl.
Qed.

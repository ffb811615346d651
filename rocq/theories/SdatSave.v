(** * The layout of a saved sound archive *)
From Coq Require Import String.
From Verif Require Import PyBase PyLemmas PyTac AtLemmas CommonModel WaveModel SeqModel SsarModel SbnkModel SdatModel SdatFiles SdatSymb SdatFat.

Definition symb_size (s : sdat) (y : symb) : Z := if yAny y then (if padSymb s then ysize y + (- ysize y) mod 4 else ysize y) else 0.
Definition align_ (s : sdat) : Z := Z.abs (fileAlign s).
Definition cur0 (s : sdat) (fileOff : Z) : Z := fileOff + 0xC + first_gap s (fileOff + 0xC).
Definition file_bytes (s : sdat) (fileOff : Z) (FS : files) : bytes :=
  zeros (first_gap s (fileOff + 0xC)) ++ fbytes (align_ s) (cur0 s fileOff) (map fst FS) ++ zeros (end_gap s (fend (align_ s) (cur0 s fileOff) (map fst FS))).
Definition sdat_heads (s : sdat) (y : symb) (bss : list (list (option bytes))) (FS : files) (infoOff fatOff fileOff : Z) : list Z :=
  [if yAny y then 0x40 else 0; symb_size s y; infoOff; zlen (info_bytes bss); fatOff; 0xC + 0x10 * zlen FS; fileOff; 0xC + zlen (file_bytes s fileOff FS)].
Definition word4 (v : Z) : nat * Z := (4%nat, v).

Record saved (s : sdat) (D : bytes) (y : symb) (bss : list (list (option bytes))) (FS : files) (infoOff fatOff fileOff : Z) : Prop := {
  sv_symbols : symbols_spec s y;
  sv_symb : yAny y = true -> at_ D 0x40 (symb_bytes y) /\ words_ok (ybase y) (yVals y) /\ Forall (fun v => 0 <= v + 0x40 < 2 ^ 32) (yHeads y) /\ ysize y < 2 ^ 32;
  sv_len8 : length bss = 8%nat; sv_files : FS = adds [] (all_files s); sv_info : at_ D infoOff (info_bytes bss); sv_parts : parts_ok 0x40 bss;
  sv_spec : info_spec s FS bss;
  sv_std : at_ D 0 (asc "SDAT" ++ les [(2%nat, 0xFEFF); (2%nat, 0x100); (4%nat, zlen D); (2%nat, 0x40); (2%nat, if yAny y then 4 else 3)]);
  sv_len : zlen D < 2 ^ 32;
  sv_heads : at_ D 0x10 (les (map word4 (sdat_heads s y bss FS infoOff fatOff fileOff)));
  sv_range : in_fields (map word4 (sdat_heads s y bss FS infoOff fatOff fileOff));
  sv_fat : at_ D fatOff (asc "FAT " ++ les [(4%nat, 0xC + 0x10 * zlen FS); (4%nat, zlen FS)] ++ fat_bytes (fat_list (fatPad s) (align_ s) (cur0 s fileOff) (map fst FS)));
  sv_fat_ok : fat_ok (fat_list (fatPad s) (align_ s) (cur0 s fileOff) (map fst FS));
  sv_file : at_ D fileOff (asc "FILE" ++ les [(4%nat, 0xC + zlen (file_bytes s fileOff FS)); (4%nat, zlen FS)] ++ file_bytes s fileOff FS);
  sv_end : zlen D = fileOff + 0xC + zlen (file_bytes s fileOff FS);
  sv_align : FS = [] \/ 0 < align_ s; sv_align_end : padEnd s = true -> 0 < align_ s;
  sv_first : firstAlign s <> Some 0;
  sv_order : 0x40 + (if yAny y then zlen (symb_bytes y) else 0) <= infoOff /\ infoOff + zlen (info_bytes bss) <= fatOff /\ fatOff + 0xC + 0x10 * zlen FS <= fileOff;
  sv_mod4 : infoOff mod 4 = 0 /\ fatOff mod 4 = 0 /\ fileOff mod 4 = 0 }.

Lemma zlen_fat_list fp a cur fs : zlen (fat_list fp a cur fs) = zlen fs.
Proof. unfold fat_list, zlen. rewrite combine_length, map_length, foffs_length. lia. Qed.
Lemma at_here {A} (D a x b : list A) n : D = a ++ x ++ b -> n = zlen a -> at_ D n x.
Proof. intros -> ->. apply at_mid. Qed.
Lemma zlen_les fields : zlen (les fields) = fold_right (fun p n => Z.of_nat (fst p) + n) 0 fields.
Proof. unfold les. induction fields as [|[n v] r IH]; cbn [map concat fold_right fst snd]; [reflexivity|]. rewrite zlen_app, zlen_le, IH. reflexivity. Qed.
Lemma mod4_up n : 0 <= (- n) mod 4 /\ (n + (- n) mod 4) mod 4 = 0.
Proof. split; [apply Z.mod_pos_bound; lia|]. exact (up_mod 4 n eq_refl). Qed.

Lemma sdat_save_inv s D : sdat_save s = Ok D -> exists y bss FS infoOff fatOff fileOff, saved s D y bss FS infoOff fatOff fileOff.
Proof.
  unfold sdat_save. intros H. apply bind_ok in H as (y & Y & H). apply symbols_inv in Y. apply bind_ok in H as (sb & SB & H). apply symb_block_inv in SB.
  set (sy := match sb with Some (b, _) => b | None => [] end) in H.
  assert (SY : sy = if yAny y then symb_bytes y else []). { unfold sy. destruct sb as [[b n]|]; [destruct SB as (-> & -> & _); reflexivity|rewrite SB; reflexivity]. }
  assert (HS : match sb with Some _ => 0x40 | None => 0 end = if yAny y then 0x40 else 0) by (destruct sb as [[b n]|]; [destruct SB as (-> & _)|rewrite SB]; reflexivity).
  assert (HN : match sb with Some (_, n) => n | None => 0 end = symb_size s y). { unfold symb_size. destruct sb as [[b n]|]; [destruct SB as (-> & _ & -> & _)|rewrite SB]; reflexivity. }
  assert (HB : match sb with Some _ => 4 | None => 3 end = if yAny y then 4 else 3) by (destruct sb as [[b n]|]; [destruct SB as (-> & _)|rewrite SB]; reflexivity).
  assert (SO : yAny y = true -> words_ok (ybase y) (yVals y) /\ Forall (fun v => 0 <= v + 0x40 < 2 ^ 32) (yHeads y) /\ ysize y < 2 ^ 32).
  { intros A. destruct sb as [[b n]|]; [|congruence]. destruct SB as (_ & _ & _ & W & HW & S). split; [exact W|]. split; [exact HW|]. pose proof (mod4_up (ysize y)). lia. }
  rewrite HS, HN, HB in H. clear SB HS HN HB. clearbody sy. clear sb.
  destruct (mod4_up (0x40 + zlen sy)) as [M1 M1']. set (pad1 := (- (0x40 + zlen sy)) mod 4) in *. rewrite (zlen_zeros pad1) in H by exact M1.
  apply bind_ok in H as ((info & FS) & I & H). apply info_inv in I as (bss & L8 & HF & -> & PO & IL & IS). set (io := 0x40 + zlen sy + pad1) in *.
  destruct (mod4_up (io + zlen (info_bytes bss))) as [M2 M2']. set (pad2 := (- (io + zlen (info_bytes bss))) mod 4) in *. rewrite (zlen_zeros pad2) in H by exact M2.
  set (fo := io + zlen (info_bytes bss) + pad2) in *. apply bind_ok in H as (fh & FH & H). apply pack_us_les in FH as [-> FH].
  destruct (mod4_up (fo + (0xC + 0x10 * zlen FS))) as [M3 M3']. set (pad3 := (- (fo + (0xC + 0x10 * zlen FS))) mod 4) in *. rewrite (zlen_zeros pad3) in H by exact M3.
  set (lo := fo + (0xC + 0x10 * zlen FS) + pad3) in *. apply bind_ok in H as ((fb & fat) & FB & H). apply file_block_inv in FB as (AL & ALE & FI & EF & -> & FO).
  fold (align_ s) in *. change (lo + 12 + first_gap s (lo + 12)) with (cur0 s lo) in *. fold (file_bytes s lo FS) in EF. subst fb.
  apply bind_ok in H as (lh & LH & H). apply pack_us_les in LH as [-> LH]. apply bind_ok in H as (oh & OH & H). apply bind_ok in H as (hd & HD & H).
  match type of H with Ok ?x = Ok ?d => assert (ED : x = d) by (injection H; intros ED; exact ED) end. clear H. subst D.
  apply pack_us_les in HD as [-> HD]. change (map (fun v => (4%nat, v)) ?l) with (map word4 l) in OH. apply pack_us_les in OH as [-> OH].
  set (hs := map word4 _) in *. set (fl := fat_list _ _ _ _) in *.
  set (h0 := les [(2%nat, 0xFEFF); (2%nat, 0x100); _; _; _]) in *.
  assert (ZH : zlen h0 = 12) by (unfold h0; rewrite zlen_les; reflexivity). assert (ZO : zlen (les hs) = 32) by (unfold hs; rewrite zlen_les; reflexivity).
  assert (ZF : zlen (fat_bytes fl) = 0x10 * zlen FS) by (rewrite zlen_fat; unfold fl; rewrite zlen_fat_list, zlen_map; reflexivity).
  set (fh := les [(4%nat, 0xC + 0x10 * zlen FS); (4%nat, zlen FS)]) in *. assert (ZFH : zlen fh = 8) by (unfold fh; rewrite zlen_les; reflexivity).
  set (lh := les [(4%nat, 0xC + zlen (file_bytes s lo FS)); (4%nat, zlen FS)]) in *. assert (ZLH : zlen lh = 8) by (unfold lh; rewrite zlen_les; reflexivity).
  set (P1 := zeros pad1). set (P2 := zeros pad2). set (P3 := zeros pad3). assert (Z1 : zlen P1 = pad1) by (apply zlen_zeros; exact M1). assert (Z2 : zlen P2 = pad2) by (apply zlen_zeros; exact M2). assert (Z3 : zlen P3 = pad3) by (apply zlen_zeros; exact M3).
  set (D := _ ++ _). assert (LD : zlen D = lo + 0xC + zlen (file_bytes s lo FS)).
  { unfold D. rewrite !zlen_app. change (zlen (asc "SDAT")) with 4. change (zlen (asc "FAT ")) with 4. change (zlen (asc "FILE")) with 4. change (zlen (zeros 16)) with 16. rewrite ZH, ZO, ZF, ZFH, ZLH, Z1, Z2, Z3. unfold lo, fo, io. lia. }
  exists y, bss, FS, io, fo, lo.
  assert (SZ : zlen sy = if yAny y then zlen (symb_bytes y) else 0) by (rewrite SY; destruct (yAny y); reflexivity).
  constructor; try assumption.
  - intros A. split; [|exact (SO A)]. rewrite A in SY. rewrite <- SY. eapply (at_here _ ((asc "SDAT" ++ h0) ++ les hs ++ zeros 16) _ (P1 ++ info_bytes bss ++ P2 ++ (asc "FAT " ++ fh) ++ fat_bytes fl ++ P3 ++ (asc "FILE" ++ lh) ++ file_bytes s lo FS)); [unfold D; rewrite <- !app_assoc; reflexivity|].
    rewrite !zlen_app. change (zlen (asc "SDAT")) with 4. change (zlen (zeros 16)) with 16. lia.
  - eapply (at_here _ (((asc "SDAT" ++ h0) ++ les hs ++ zeros 16) ++ sy ++ P1) _ (P2 ++ (asc "FAT " ++ fh) ++ fat_bytes fl ++ P3 ++ (asc "FILE" ++ lh) ++ file_bytes s lo FS)); [unfold D; rewrite <- !app_assoc; reflexivity|].
    rewrite !zlen_app. change (zlen (asc "SDAT")) with 4. change (zlen (zeros 16)) with 16. rewrite ZH, ZO, Z1. unfold io. lia.
  - rewrite LD. replace (lo + 12 + zlen (file_bytes s lo FS)) with (lo + (12 + zlen (file_bytes s lo FS))) by lia. fold h0. unfold D. rewrite <- (app_assoc (asc "SDAT" ++ h0)). apply at_whole.
  - inversion HD as [|? ? _ X]; subst. inversion X as [|? ? _ X2]; subst. inversion X2 as [|? ? X3 _]; subst. cbn [fst snd] in X3. p256. lia.
  - eapply (at_here _ (asc "SDAT" ++ h0)); [unfold D; rewrite <- !app_assoc; reflexivity|]. rewrite zlen_app. change (zlen (asc "SDAT")) with 4. lia.
  - eapply (at_here _ (((asc "SDAT" ++ h0) ++ les hs ++ zeros 16) ++ sy ++ P1 ++ info_bytes bss ++ P2) _ (P3 ++ (asc "FILE" ++ lh) ++ file_bytes s lo FS)); [unfold D; rewrite <- !app_assoc; reflexivity|].
    rewrite !zlen_app. change (zlen (asc "SDAT")) with 4. change (zlen (zeros 16)) with 16. rewrite ZH, ZO, Z1, Z2. unfold fo, io. lia.
  - eapply (at_here _ (((asc "SDAT" ++ h0) ++ les hs ++ zeros 16) ++ sy ++ P1 ++ info_bytes bss ++ P2 ++ (asc "FAT " ++ fh) ++ fat_bytes fl ++ P3) _ []); [unfold D; rewrite app_nil_r, <- !app_assoc; reflexivity|].
    rewrite !zlen_app. change (zlen (asc "SDAT")) with 4. change (zlen (asc "FAT ")) with 4. change (zlen (zeros 16)) with 16. rewrite ZH, ZO, ZF, ZFH, Z1, Z2, Z3. unfold lo, fo, io. lia.
  - rewrite <- SZ. unfold lo, fo, io. lia.
  - split; [exact M1'|]. split; [exact M2'|exact M3'].
Qed.

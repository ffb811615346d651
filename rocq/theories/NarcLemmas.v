(** * Proofs about NARC archives *)
From Coq Require Import String.
From Verif Require Import PyBase PyLemmas PyTac CommonModel FntModel FntSpec FntLemmas FntSaveLemmas NarcModel.

Notation pad4 := (pad_to 4 0).
Fixpoint fats (off : Z) (files : list bytes) : bytes :=
  match files with
  | [] => []
  | f :: r => (le 4 off ++ le 4 (off + zlen f)) ++ fats (off + zlen (pad4 f)) r
  end.
Definition body (files : list bytes) : bytes := concat (map pad4 files).
Lemma zlen_fats files : forall off, zlen (fats off files) = 8 * zlen files.
Proof. induction files as [|f files IH]; intros off; [reflexivity|]. cbn [fats]. rewrite !zlen_app, !zlen_le, IH, zlen_cons. lia. Qed.
Lemma fats_app l1 l2 : forall off, fats off (l1 ++ l2) = fats off l1 ++ fats (off + zlen (body l1)) l2.
Proof.
  induction l1 as [|f l1 IH]; intros off; cbn [app fats body map concat]; [rewrite Z.add_0_r; reflexivity|].
  rewrite IH, <- app_assoc. unfold body. cbn [map concat]. rewrite zlen_app, Z.add_assoc. reflexivity.
Qed.
Lemma body_app l1 l2 : body (l1 ++ l2) = body l1 ++ body l2.
Proof. unfold body. rewrite map_app, concat_app. reflexivity. Qed.
Lemma pad4_app a b : zlen a mod 4 = 0 -> pad4 (a ++ b) = a ++ pad4 b.
Proof. intros H. unfold pad_to. rewrite <- app_assoc, zlen_app. do 3 f_equal. lia. Qed.
Lemma body_mod files : zlen (body files) mod 4 = 0.
Proof.
  induction files as [|f files IH]; [reflexivity|]. unfold body in *. cbn [map concat]. rewrite zlen_app.
  pose proof (pad_to_mod 4 0 f ltac:(lia)). lia.
Qed.
Definition small (x : Z) := 0 <= x < 4294967296.
Lemma add_inv files : forall F T F' T', foldM narc_addFile (F, T) files = Ok (F', T') -> zlen F mod 4 = 0 -> 8 <= zlen F ->
  F' = F ++ body files /\ T' = T ++ fats (zlen F - 8) files /\
  (forall l1 x l2, files = l1 ++ x :: l2 -> small (zlen F - 8 + zlen (body l1)) /\ small (zlen F - 8 + zlen (body l1) + zlen x)).
Proof.
  induction files as [|f files IH]; intros F T F' T' H HM HF.
  - cbn in H. injection H as <- <-. cbn [body map concat fats]. rewrite !app_nil_r. split; [reflexivity|]. split; [reflexivity|].
    intros l1 x l2 E. destruct l1; discriminate.
  - cbn [foldM] in H. apply bind_ok in H as ([F1 T1] & H & H'). unfold narc_addFile in H. cbn [pack_us] in H. inv_bind. subst. p256.
    intros <-. rewrite pad4_app in H' by assumption. apply IH in H' as (-> & -> & HS).
    + rewrite zlen_app in *. split; [|split].
      * unfold body. cbn [map concat]. rewrite <- app_assoc. reflexivity.
      * cbn [fats]. rewrite <- !app_assoc. cbn [app]. replace (zlen F + zlen (pad4 f) - 8) with (zlen F - 8 + zlen (pad4 f)) by lia. reflexivity.
      * intros l1 x l2 E. destruct l1 as [|y l1]; cbn [app] in E.
        -- injection E as -> ->. change (zlen (body [])) with 0. rewrite Z.add_0_r. unfold small. split; assumption.
        -- injection E as -> ->. destruct (HS l1 x l2 eq_refl) as [S1 S2]. unfold body in *. cbn [map concat]. rewrite zlen_app.
           replace (zlen F - 8 + (zlen (pad4 y) + zlen (concat (map pad4 l1)))) with (zlen F + zlen (pad4 y) - 8 + zlen (concat (map pad4 l1))) by lia.
           split; assumption.
    + rewrite zlen_app. pose proof (pad_to_mod 4 0 f ltac:(lia)). lia.
    + rewrite zlen_app. pose proof (zlen_nonneg (pad4 f)). lia.
Qed.
Lemma add_ok files : forall F T, zlen F mod 4 = 0 -> 8 <= zlen F -> zlen F + zlen (body files) < 4294967296 ->
  exists st, foldM narc_addFile (F, T) files = Ok st.
Proof.
  induction files as [|f files IH]; intros F T HM HF HS; [eexists; reflexivity|]. cbn [foldM]. unfold narc_addFile at 1. cbn [pack_us].
  unfold body in HS. cbn [map concat] in HS. rewrite zlen_app in HS. fold (body files) in HS.
  pose proof (zlen_nonneg (body files)). pose proof (zlen_nonneg f). assert (zlen f <= zlen (pad4 f)) by (rewrite zlen_pad_to; lia).
  rewrite !pack_u_ok by (p256; lia). cbn [bind]. apply IH; rewrite pad4_app by assumption; rewrite zlen_app.
  - pose proof (pad_to_mod 4 0 f ltac:(lia)). lia.
  - lia.
  - lia.
Qed.

(** the saved file, in full *)
Definition bomv (e : endian) : Z * Z := match e with BE => (0xFFFE, 0x100) | LE => (0xFEFF, 1) end.
Definition narc_bytes (n : narc) (nt : bytes) (total : Z) : bytes :=
  (asc "NARC" ++ le 2 (fst (bomv (nEndian n))) ++ le 2 (snd (bomv (nEndian n))) ++ le 4 total ++ le 2 16 ++ le 2 3) ++
  asc "BTAF" ++ le 4 (12 + 8 * zlen (nFiles n)) ++ le 4 (zlen (nFiles n)) ++ fats 0 (nFiles n) ++
  asc "BTNF" ++ le 4 (zlen nt + 8) ++ nt ++
  asc "GMIF" ++ le 4 (8 + zlen (body (nFiles n))) ++ body (nFiles n).
Lemma narc_save_inv n d : narc_save n = Ok d -> exists nt0, save (nFilenames n) = Ok nt0 /\
  d = narc_bytes n (pad_to 4 0xFF nt0) (zlen d) /\ zlen d < 4294967296 /\
  (forall l1 x l2, nFiles n = l1 ++ x :: l2 -> small (zlen (body l1)) /\ small (zlen (body l1) + zlen x)).
Proof.
  unfold narc_save. intros H. apply bind_ok in H as (h & EH & H). apply bind_ok in H as ([fimg fatb] & EF & H).
  apply bind_ok in H as (l & EL & H). apply bind_ok in H as (fi & EP & H). apply bind_ok in H as (nt0 & ES & H). cbv zeta in H.
  remember (pad_to 4 0xFF nt0) as nt. apply bind_ok in H as (nl & EN & H).
  inv_pack EH. inv_bind. p256.
  apply add_inv in EF as (-> & -> & HS); [|reflexivity|rewrite zlen_zeros; lia]. rewrite zlen_zeros in HS by lia.

  rewrite put_hit in EP; [|reflexivity|rewrite zlen_zeros, zlen_app, zlen_le by lia; reflexivity]. assert (fi = (rev (asc "FIMG") ++ le 4 (zlen (zeros 8 ++ body (nFiles n)))) ++ body (nFiles n)) as -> by congruence. clear EP.
  exists nt0. split; [exact ES|]. rewrite <- Heqnt.
  destruct (match nEndian n with LE => (65279, 1) | BE => (65534, 256) end) as [bom ver] eqn:EB.
  assert (EB' : bomv (nEndian n) = (bom, ver)) by (destruct (nEndian n); exact EB).
  apply bind_ok in H as (hd & EH & H). inv_pack EH.
  rewrite put_hit in H; [|reflexivity|rewrite zlen_zeros, !zlen_app, !zlen_le by lia; reflexivity].
  assert (LF : zlen (zeros 8 ++ body (nFiles n)) = 8 + zlen (body (nFiles n))) by (rewrite zlen_app, zlen_zeros by lia; reflexivity). rewrite LF in *.
  match type of H with Ok ((asc "NARC" ++ le 2 bom ++ le 2 ver ++ le 4 ?T ++ _) ++ _) = _ => remember T as TT eqn:ET end.
  match type of H with Ok ?x = Ok ?y => assert (HD : y = x) by congruence end. clear H.
  assert (ED : d = narc_bytes n nt TT).
  { rewrite HD. unfold narc_bytes. rewrite EB'. cbn [fst snd]. change (rev (asc "FATB")) with (asc "BTAF").
    change (rev (asc "FNTB")) with (asc "BTNF"). change (rev (asc "FIMG")) with (asc "GMIF"). rewrite zlen_zeros by lia.
    replace (8 - 8) with 0 by lia. rewrite <- !app_assoc. reflexivity. }
  assert (TD : TT = zlen d).
  { rewrite ET, HD. rewrite zlen_app. rewrite (zlen_app (asc "NARC" ++ _)). f_equal. }
  split; [rewrite <- TD; exact ED|]. split; [lia|]. intros l1 x l2 E. specialize (HS l1 x l2 E). rewrite !Z.sub_diag, !Z.add_0_l in HS. exact HS.
Qed.

Lemma asc4 a b c d : asc (String a (String b (String c (String d EmptyString)))) =
  [Z.of_nat (Ascii.nat_of_ascii a); Z.of_nat (Ascii.nat_of_ascii b); Z.of_nat (Ascii.nat_of_ascii c); Z.of_nat (Ascii.nat_of_ascii d)].
Proof. reflexivity. Qed.
Lemma zlen_asc4 a b c d : zlen (asc (String a (String b (String c (String d EmptyString))))) = 4.
Proof. reflexivity. Qed.
#[export] Hint Rewrite zlen_asc4 zlen_fats : zl.

Section reading.
  Variables (n : narc) (nt tail d : bytes) (depth : nat).
  Hypothesis ED : d = narc_bytes n nt (zlen d).
  Hypothesis HD : zlen d < 4294967296.
  Hypothesis HS : forall l1 x l2, nFiles n = l1 ++ x :: l2 -> small (zlen (body l1)) /\ small (zlen (body l1) + zlen x).
  Hypothesis HNT : load depth nt = Ok (nFilenames n).
  Notation k := (zlen (nFiles n)).
  Notation raw := (0x10 + (12 + 8 * k) + (zlen nt + 8) + 8).

  Lemma narc_len : zlen d = raw + zlen (body (nFiles n)).
  Proof. clear - ED. rewrite ED. unfold narc_bytes. autorewrite with zl. lia. Qed.
  Lemma narc_eq : d ++ tail = (asc "NARC" ++ le 2 (fst (bomv (nEndian n))) ++ le 2 (snd (bomv (nEndian n))) ++ le 4 (zlen d) ++ le 2 16 ++ le 2 3 ++
    asc "BTAF" ++ le 4 (12 + 8 * k) ++ le 4 k ++ fats 0 (nFiles n) ++
    asc "BTNF" ++ le 4 (zlen nt + 8) ++ nt ++ asc "GMIF" ++ le 4 (8 + zlen (body (nFiles n))) ++ body (nFiles n) ++ tail).
  Proof. rewrite ED at 1. unfold narc_bytes. rewrite <- !app_assoc. reflexivity. Qed.
  Lemma narc_file l1 x l2 : nFiles n = l1 ++ x :: l2 ->
    unpack_u 4 (d ++ tail) (0x1C + 8 * zlen l1) = Ok (zlen (body l1)) /\
    unpack_u 4 (d ++ tail) (0x1C + 8 * zlen l1 + 4) = Ok (zlen (body l1) + zlen x) /\
    slice (d ++ tail) (raw + zlen (body l1)) (raw + (zlen (body l1) + zlen x)) = x.
  Proof.
    intros E. destruct (HS l1 x l2 E) as [S1 S2]. unfold small in *. rewrite narc_eq.
    pose proof (zlen_nonneg l1). pose proof (zlen_nonneg l2). pose proof (zlen_nonneg nt). pose proof (zlen_nonneg x).
    assert (K : k = zlen l1 + (1 + zlen l2)) by (rewrite E; autorewrite with zl; lia).
    assert (EF : fats 0 (nFiles n) = fats 0 l1 ++ le 4 (zlen (body l1)) ++ le 4 (zlen (body l1) + zlen x) ++ fats (zlen (body l1) + zlen (pad4 x)) l2).
    { rewrite E, fats_app. cbn [fats]. rewrite Z.add_0_l, <- app_assoc. reflexivity. }
    assert (EB : body (nFiles n) = body l1 ++ x ++ rep 0 ((- zlen x) mod 4) ++ body l2).
    { rewrite E, body_app. unfold body at 2. cbn [map concat]. unfold pad_to. rewrite <- app_assoc. reflexivity. }
    split; [|split].
    - rewrite EF, <- !app_assoc. rdall. reflexivity.
    - rewrite EF, <- !app_assoc. rdall. reflexivity.
    - remember (fats 0 (nFiles n)) as ft. assert (LF : zlen ft = 8 * k) by (rewrite Heqft; apply zlen_fats).
      remember (8 + zlen (body (nFiles n))) as bl. rewrite EB, <- !app_assoc.
      do 16 (rewrite slice_skip by (autorewrite with zl; lia)).
      apply slice_hit; autorewrite with zl; lia.
  Qed.
  Lemma narc_load_ok : narc_load depth (d ++ tail) = Ok n.
  Proof.
    pose proof narc_len as LN. pose proof (zlen_nonneg nt). pose proof (zlen_nonneg (body (nFiles n))). pose proof (zlen_nonneg (nFiles n)).
    assert (RB : 0 <= fst (bomv (nEndian n)) < 65536 /\ 0 <= snd (bomv (nEndian n)) < 65536) by (destruct (nEndian n); cbn; lia).
    unfold narc_load.
    assert (M1 : rd (d ++ tail) 0 4 = Ok (asc "NARC")) by (rewrite narc_eq; rdall; reflexivity).
    assert (M2 : unpack_u 2 (d ++ tail) 4 = Ok (fst (bomv (nEndian n)))) by (rewrite narc_eq; rdall; reflexivity).
    assert (M3 : unpack_u 2 (d ++ tail) 6 = Ok (snd (bomv (nEndian n)))) by (rewrite narc_eq; rdall; reflexivity).
    assert (M4 : unpack_u 4 (d ++ tail) 8 = Ok (zlen d)) by (rewrite narc_eq; rdall; reflexivity).
    assert (M5 : unpack_u 2 (d ++ tail) 12 = Ok 16) by (rewrite narc_eq; rdall; reflexivity).
    assert (M6 : unpack_u 2 (d ++ tail) 14 = Ok 3) by (rewrite narc_eq; rdall; reflexivity).
    assert (M7 : rd (d ++ tail) 16 4 = Ok (asc "BTAF")) by (rewrite narc_eq; rdall; reflexivity).
    assert (M8 : unpack_u 4 (d ++ tail) 20 = Ok (12 + 8 * k)) by (rewrite narc_eq; rdall; reflexivity).
    assert (M9 : unpack_u 4 (d ++ tail) 24 = Ok k) by (rewrite narc_eq; rdall; reflexivity).
    assert (M10 : rd (d ++ tail) (16 + (12 + 8 * k)) 4 = Ok (asc "BTNF")) by (rewrite narc_eq; rdall; reflexivity).
    assert (M11 : unpack_u 4 (d ++ tail) (16 + (12 + 8 * k) + 4) = Ok (zlen nt + 8)) by (rewrite narc_eq; rdall; reflexivity).
    assert (M12 : rd (d ++ tail) (16 + (12 + 8 * k) + (zlen nt + 8)) 4 = Ok (asc "GMIF")) by (rewrite narc_eq; rdall; reflexivity).
    assert (M13 : unpack_u 4 (d ++ tail) (16 + (12 + 8 * k) + (zlen nt + 8) + 4) = Ok (8 + zlen (body (nFiles n)))) by (rewrite narc_eq; rdall; reflexivity).
    assert (M14 : slice (d ++ tail) (16 + (12 + 8 * k) + 8) (16 + (12 + 8 * k) + (zlen nt + 8)) = nt) by (rewrite narc_eq; rdall; reflexivity).
    rewrite M1, M2, M3, M4, M5, M6. cbn [bind]. rewrite M7, M8, M9.
    assert (V : (let '(e, version) := if fst (bomv (nEndian n)) =? 0xFFFE then (BE, Z.lor (Z.shiftl (Z.land (snd (bomv (nEndian n))) 0xFF) 8) (Z.shiftr (snd (bomv (nEndian n))) 8))
                 else (LE, snd (bomv (nEndian n))) in (e, version)) = (nEndian n, 1)) by (destruct (nEndian n); reflexivity).
    destruct (if fst (bomv (nEndian n)) =? 0xFFFE then _ else _) as [e ver]. injection V as -> ->.
    cbn [bind guard Z.eqb Pos.eqb]. rewrite !beq_refl. cbn [guard bind].
    change (rev (asc "FATB")) with (asc "BTAF"). change (rev (asc "FNTB")) with (asc "BTNF"). change (rev (asc "FIMG")) with (asc "GMIF").
    rewrite M10. cbn [bind]. rewrite M11. cbn [bind]. rewrite !beq_refl. cbn [guard bind].
    rewrite M12. cbn [bind]. rewrite M13. cbn [bind]. rewrite !beq_refl. cbn [guard bind].
    rewrite M14, HNT. rewrite length_zlen.
    erewrite (mapM_table _ (fun x => x)).
    2:{ intros l1 x l2 E. destruct (narc_file l1 x l2 E) as (A & B & C). rewrite Z.add_0_l. unfold narc_loadFile. rewrite A, B. cbn [bind]. rewrite C. reflexivity. }
    cbn [bind]. rewrite map_id. destruct n; reflexivity.
  Qed.
End reading.

Lemma narc_roundtrip n d tail depth : narc_save n = Ok d -> files_named (nFilenames n) -> (height (nFilenames n) <= depth)%nat ->
  narc_load depth (d ++ tail) = Ok n.
Proof.
  intros H HN HH. apply narc_save_inv in H as (nt0 & ES & ED & HD & HS).
  eapply narc_load_ok; [exact ED|exact HD|exact HS|]. unfold pad_to. eapply save_load_tail; eassumption.
Qed.
Lemma narc_save_ok n : tree_ok (nFilenames n) -> folder_count (nFilenames n) <= 4096 ->
  44 + 8 * zlen (nFiles n) + table_size (nFilenames n) + 3 + zlen (body (nFiles n)) < 2 ^ 32 -> exists d, narc_save n = Ok d.
Proof.
  intros T C S. change (2 ^ 32) with 4294967296 in *. pose proof (zlen_nonneg (nFiles n)). pose proof (zlen_nonneg (body (nFiles n))).
  assert (0 <= table_size (nFilenames n)).
  { clear. induction (nFilenames n) as [l files i IH] using folder_ind'. rewrite table_size_eq.
    assert (0 <= sum (map (fun n : list Z => 1 + zlen n) files)) by (clear; induction files as [|x l IH]; cbn [map sum fold_right]; [lia|pose proof (zlen_nonneg x); unfold sum in *; lia]).
    assert (0 <= sum (map (fun p : list Z * folder => 3 + zlen (fst p) + table_size (snd p)) l)); [|lia].
    clear - IH. induction l as [|[x f] l IHl]; cbn [map sum fold_right]; [lia|]. pose proof (zlen_nonneg x). cbn [fst snd].
    specialize (IHl (fun m g I => IH m g (or_intror I))). specialize (IH x f (or_introl eq_refl)). unfold sum in *. lia. }
  unfold narc_save. do_pack. cbn [bind].
  destruct (add_ok (nFiles n) (zeros 8) (rev (asc "FATB") ++ le 4 (12 + 8 * zlen (nFiles n)) ++ le 4 (zlen (nFiles n)))) as [[fi fa] EA]; [reflexivity|rewrite zlen_zeros; lia|rewrite zlen_zeros; lia|].
  rewrite EA. cbn [bind]. apply add_inv in EA as (-> & -> & _); [|reflexivity|rewrite zlen_zeros; lia].
  rewrite pack_u_ok by (p256; rewrite zlen_app, zlen_zeros; lia). cbn [bind].
  rewrite put_hit; [|reflexivity|rewrite zlen_zeros, zlen_app, zlen_le by lia; reflexivity]. cbn [bind].
  destruct (save_ok_size (nFilenames n) T C ltac:(change (2 ^ 32) with 4294967296; lia)) as (nt & ES & LN). rewrite ES. cbn [bind]. cbv zeta.
  assert (LP : table_size (nFilenames n) <= zlen (pad_to 4 255 nt) <= table_size (nFilenames n) + 3) by (rewrite zlen_pad_to by lia; lia).
  rewrite pack_u_ok by (p256; lia). cbn [bind].
  set (data := zeros 16 ++ _).
  assert (LD : 0 <= zlen data < 4294967296).
  { unfold data. rewrite !zlen_app, !zlen_le, zlen_fats, !zlen_zeros by lia. change (zlen (rev (asc "FATB"))) with 4. change (zlen (rev (asc "FNTB"))) with 4. change (zlen (rev (asc "FIMG"))) with 4. lia. }
  destruct (match nEndian n with LE => (65279, 1) | BE => (65534, 256) end) as [bom ver] eqn:EB.
  assert (0 <= bom < 65536 /\ 0 <= ver < 65536) by (destruct (nEndian n); injection EB as <- <-; lia).
  do_pack. cbn [bind]. unfold data at 1. rewrite put_hit; [eexists; reflexivity|reflexivity|rewrite zlen_zeros, !zlen_app, !zlen_le by lia; reflexivity].
Qed.
(** where the files are *)
Lemma narc_layout n d : narc_save n = Ok d -> exists raw starts, raw mod 4 = 0 /\ length starts = length (nFiles n) /\
  raw + zlen (body (nFiles n)) = zlen d /\
  (forall i f, nth_error (nFiles n) i = Some f -> exists s, nth_error starts i = Some s /\
     unpack_u 4 d (0x1C + 8 * Z.of_nat i) = Ok s /\ unpack_u 4 d (0x1C + 8 * Z.of_nat i + 4) = Ok (s + zlen f) /\
     0 <= s /\ (raw + s) mod 4 = 0 /\ raw + s + zlen f <= zlen d /\ slice d (raw + s) (raw + s + zlen f) = f /\
     (forall j t, (i < j)%nat -> nth_error starts j = Some t -> s + zlen f <= t)).
Proof.
  intros H. apply narc_save_inv in H as (nt0 & ES & ED & HD & HS).
  pose proof (narc_len n _ d ED) as LN.
  exists (0x10 + (12 + 8 * zlen (nFiles n)) + (zlen (pad_to 4 255 nt0) + 8) + 8), (map (fun i => zlen (body (firstn i (nFiles n)))) (seq 0 (length (nFiles n)))).
  pose proof (pad_to_mod 4 255 nt0 ltac:(lia)) as PM.
  split; [lia|]. split; [rewrite map_length, seq_length; reflexivity|]. split; [lia|]. intros i f E.
  assert (I : (i < length (nFiles n))%nat) by (apply nth_error_Some; congruence).
  apply nth_error_split in E as (l1 & l2 & EL & <-).
  assert (F1 : firstn (length l1) (nFiles n) = l1) by (rewrite EL; apply firstn_app_exact; reflexivity).
  exists (zlen (body l1)). split.
  { rewrite nth_error_map. rewrite (nth_error_nth' _ 0%nat) by (rewrite seq_length; assumption). rewrite seq_nth by assumption. cbn [option_map Nat.add]. rewrite F1. reflexivity. }
  destruct (narc_file n _ [] d ED HS l1 f l2 EL) as (A & B & C). rewrite app_nil_r in *. change (Z.of_nat (length l1)) with (zlen l1).
  pose proof (body_mod l1). split; [exact A|]. split; [exact B|]. split; [apply zlen_nonneg|]. split; [lia|].
  assert (LB : zlen (body (nFiles n)) = zlen (body l1) + zlen (pad4 f) + zlen (body l2)).
  { rewrite EL, body_app, zlen_app. unfold body at 2. cbn [map concat]. rewrite zlen_app. unfold body. lia. }
  assert (zlen f <= zlen (pad4 f)) by (rewrite zlen_pad_to; lia). pose proof (zlen_nonneg (body l2)).
  split; [lia|]. split; [rewrite <- C at 2; f_equal; lia|].
  intros j t J EJ. assert (J' : (j < length (nFiles n))%nat).
  { assert (HJ : nth_error (map (fun i => zlen (body (firstn i (nFiles n)))) (seq 0 (length (nFiles n)))) j <> None) by congruence. apply nth_error_Some in HJ. rewrite map_length, seq_length in HJ. exact HJ. }
  rewrite nth_error_map in EJ. rewrite (nth_error_nth' _ 0%nat) in EJ by (rewrite seq_length; assumption). rewrite seq_nth in EJ by assumption. cbn [option_map Nat.add] in EJ. injection EJ as <-.
  rewrite EL, firstn_app, firstn_all2 by lia. destruct (j - length l1)%nat as [|m] eqn:EM; [lia|]. cbn [firstn]. rewrite body_app, zlen_app. change (body (f :: firstn m l2)) with (pad4 f ++ body (firstn m l2)). rewrite zlen_app.
  pose proof (zlen_nonneg (body (firstn m l2))). lia.
Qed.

(** ** rejected input *)
Lemma narc_bad_magic depth d : 28 <= zlen d -> slice_to d 4 <> asc "NARC" -> narc_load depth d = Err ValueError.
Proof.
  intros L M. unfold narc_load.
  assert (R : rd d 0 4 = Ok (slice_to d 4)) by (rewrite rd_slice by lia; reflexivity).
  rewrite R. cbn [bind].
  assert (U : forall n off, 0 <= off -> off + Z.of_nat n <= 28 -> exists v, unpack_u n d off = Ok v).
  { intros m off H0 H1. unfold unpack_u, unpack_e. rewrite rd_slice by lia. eexists; reflexivity. }
  destruct (U 2%nat 4) as [bom ->]; [lia|lia|]. destruct (U 2%nat 6) as [ver ->]; [lia|lia|]. destruct (U 4%nat 8) as [a ->]; [lia|lia|].
  destruct (U 2%nat 12) as [b ->]; [lia|lia|]. destruct (U 2%nat 14) as [c ->]; [lia|lia|]. cbn [bind].
  destruct (if bom =? 65534 then _ else _) as [e v]. destruct (v =? 1); [|reflexivity]. cbn [guard bind].
  destruct (beq (slice_to d 4) (asc "NARC")) eqn:E; [apply beq_eq in E; contradiction|]. reflexivity.
Qed.

(** ** get / set by name *)
Lemma setl_inv {A} (l : list A) i x l' : 0 <= i -> setl l i x = Ok l' -> i < zlen l /\ l' = upd l (Z.to_nat i) x.
Proof.
  unfold setl. intros H0. replace (i <? 0) with false by lia. replace (i <? 0) with false by lia. cbn [orb].
  destruct (zlen l <=? i) eqn:E; [discriminate|]. intros H. injection H as <-. split; [lia|reflexivity].
Qed.
Lemma get_upd_same {A} (l : list A) i x : 0 <= i < zlen l -> get (upd l (Z.to_nat i) x) i = Ok x.
Proof.
  intros H. unfold get. replace (i <? 0) with false by lia. replace (i <? 0) with false by lia.
  rewrite nth_error_upd_same by (unfold zlen in H; lia). reflexivity.
Qed.
Lemma get_upd_other {A} (l : list A) i j x : 0 <= i -> 0 <= j -> i <> j -> get (upd l (Z.to_nat i) x) j = get l j.
Proof.
  intros H0 H1 N. unfold get. replace (j <? 0) with false by lia. replace (j <? 0) with false by lia.
  rewrite nth_error_upd_other by lia. reflexivity.
Qed.
Lemma set_get n name v n' fid : idOf (nFilenames n) name = Ok (Some fid) -> 0 <= fid -> setFileByName n name v = Ok n' ->
  nFilenames n' = nFilenames n /\ nEndian n' = nEndian n /\ length (nFiles n') = length (nFiles n) /\
  getFileByName n' name = Ok v /\
  (forall m fm, idOf (nFilenames n) m = Ok (Some fm) -> 0 <= fm -> fm <> fid -> getFileByName n' m = getFileByName n m).
Proof.
  intros E H0 H. unfold setFileByName, narc_fid in H. rewrite E in H. cbn [bind] in H. apply bind_ok in H as (l & EL & H). injection H as <-.
  apply setl_inv in EL as [R ->]; [|assumption]. cbn [nFilenames nFiles nEndian]. split; [reflexivity|]. split; [reflexivity|].
  split; [apply length_upd|]. unfold getFileByName, narc_fid. cbn [nFilenames nFiles]. rewrite E. cbn [bind]. split; [apply get_upd_same; lia|].
  intros m fm Em Hm N. rewrite Em. cbn [bind]. apply get_upd_other; lia.
Qed.
Lemma set_succeeds n name v fid : idOf (nFilenames n) name = Ok (Some fid) -> 0 <= fid < zlen (nFiles n) -> exists n', setFileByName n name v = Ok n'.
Proof.
  intros E R. unfold setFileByName, narc_fid. rewrite E. cbn [bind]. unfold setl. replace (fid <? 0) with false by lia. replace (fid <? 0) with false by lia.
  replace (zlen (nFiles n) <=? fid) with false by lia. cbn. eauto.
Qed.
Lemma unknown_name n name v : idOf (nFilenames n) name = Ok None -> getFileByName n name = Err ValueError /\ setFileByName n name v = Err ValueError.
Proof. intros E. unfold getFileByName, setFileByName, narc_fid. rewrite E. split; reflexivity. Qed.

(** any sequence of assignments: the last one to an ID wins *)
Definition set_all (n : narc) (ops : list (list Z * bytes)) : res narc := foldM (fun n op => setFileByName n (fst op) (snd op)) n ops.
Fixpoint last_for (names : folder) (fid : Z) (ops : list (list Z * bytes)) (d : option bytes) : option bytes :=
  match ops with
  | [] => d
  | (m, v) :: r => last_for names fid r (match idOf names m with Ok (Some i) => if i =? fid then Some v else d | _ => d end)
  end.
Lemma set_all_get ops : forall n n' name fid, tree_ok (nFilenames n) -> idOf (nFilenames n) name = Ok (Some fid) -> set_all n ops = Ok n' ->
  nFilenames n' = nFilenames n /\ length (nFiles n') = length (nFiles n) /\
  getFileByName n' name = match last_for (nFilenames n) fid ops None with Some v => Ok v | None => getFileByName n name end.
Proof.
  assert (POS : forall r s i, tree_ok r -> idOf r s = Ok (Some i) -> 0 <= i).
  { intros r s i T E. unfold idOf in E. apply bind_ok in E as (p & _ & E). apply idOf_find_sound in E. clear - T E.
    induction E as [r n i E|r n f p id I H IH]; [destruct (T r) as (_ & _ & ?); [constructor|lia]|]. apply IH. eapply tree_ok_below; eassumption. }
  assert (LF : forall names fid ops d v, (match last_for names fid ops (Some v) with Some x => Ok x | None => d end) =
                (match last_for names fid ops None with Some x => Ok x | None => @Ok bytes v end)).
  { induction ops0 as [|[m w] r IH]; intros d v; cbn [last_for]; [reflexivity|].
    destruct (idOf names m) as [[i|]|]; try apply IH. destruct (i =? fid); [|apply IH].
    assert (X : forall o, exists y, last_for names fid r (Some o) = Some y).
    { clear. induction r as [|[m w] r IH]; intros o; cbn [last_for]; [eauto|]. destruct (idOf names m) as [[i|]|]; try apply IH. destruct (i =? fid); apply IH. }
    destruct (X w) as [y ->]. reflexivity. }
  induction ops as [|[m v] ops IH]; intros n n' name fid T E H; cbn [set_all foldM] in H.
  - injection H as <-. auto.
  - cbn [fst snd] in H. apply bind_ok in H as (n1 & E1 & H).
    destruct (idOf (nFilenames n) m) as [[i|]|] eqn:Em.
    2:{ unfold setFileByName, narc_fid in E1. rewrite Em in E1. discriminate. }
    2:{ unfold setFileByName, narc_fid in E1. rewrite Em in E1. discriminate. }
    pose proof (POS _ _ _ T Em) as Pi. pose proof (POS _ _ _ T E) as Pf.
    destruct (set_get _ _ _ _ _ Em Pi E1) as (N1 & _ & L1 & G1 & G2).
    destruct (IH n1 n' name fid) as (N2 & L2 & G); [rewrite N1; assumption|rewrite N1; assumption|exact H|].
    split; [congruence|]. split; [congruence|]. rewrite G, N1. cbn [last_for]. rewrite Em. destruct (Z.eqb_spec i fid) as [->|N].
    + rewrite LF. destruct (last_for (nFilenames n) fid ops None); [reflexivity|].
      unfold getFileByName, narc_fid in G1 |- *. rewrite N1 in *. rewrite Em in G1. rewrite E. exact G1.
    + destruct (last_for (nFilenames n) fid ops None); [reflexivity|]. eapply G2; [exact E|exact Pf|congruence].
Qed.
Lemma zlen_body files : zlen (body files) = fold_right (fun f a => (zlen f + 3) / 4 * 4 + a) 0 files.
Proof.
  induction files as [|f l IH]; [reflexivity|]. change (body (f :: l)) with (pad4 f ++ body l). rewrite zlen_app, IH, zlen_pad_to by lia.
  cbn [fold_right]. lia.
Qed.
Lemma narc_save_succeeds n : tree_ok (nFilenames n) -> folder_count (nFilenames n) <= 4096 ->
  47 + 8 * zlen (nFiles n) + table_size (nFilenames n) + fold_right (fun f a => (zlen f + 3) / 4 * 4 + a) 0 (nFiles n) < 2 ^ 32 ->
  exists d, narc_save n = Ok d.
Proof. intros T C S. apply narc_save_ok; [exact T|exact C|]. rewrite zlen_body. lia. Qed.

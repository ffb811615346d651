(** * Saving and loading a whole BMG file *)
From Coq Require Import String.
From Verif Require Import PyBase PyLemmas PyTac AtLemmas BmgModel BmgSpec BmgText BmgScan BmgFile.

Lemma ok_inj {A} (a b : A) : Ok a = Ok b -> a = b.
Proof. congruence. Qed.
Definition il_of (b : bmg) : Z := match bMessages b with m :: _ => zlen (mInfo m) | [] => 0 end.
Definition ic_of (b : bmg) : Z := zlen (bInstructions b) + zlen (bInstructions b) mod 2.
Definition lc_of (b : bmg) : Z := zlen (bLabels b) + (- zlen (bLabels b)) mod 8.
Definition pad32 (h : Z) (x : bytes) : bytes := x ++ zeros ((- (h + zlen x)) mod 32).

Definition inf_body (e : endian) (ens : list (Z * bytes)) : bytes := pad32 16 (concat (map (entry e) ens)).
Definition sec_inf (b : bmg) (ens : list (Z * bytes)) : bytes :=
  asc "INF1" ++ fields_bytes (bEndian b) [(4%nat, 16 + zlen (inf_body (bEndian b) ens)); (2%nat, zlen (bMessages b)); (2%nat, 4 + il_of b); (4%nat, bId b)] ++ inf_body (bEndian b) ens.
Definition sec_dat (b : bmg) (dat : bytes) : bytes :=
  asc "DAT1" ++ fields_bytes (bEndian b) [(4%nat, 8 + zlen (pad32 8 dat))] ++ pad32 8 dat.
Definition flw_body (b : bmg) : bytes :=
  pad32 16 ((concat (bInstructions b) ++ zeros (8 * (zlen (bInstructions b) mod 2))) ++ concat (map (fun p : Z * Z => es (bEndian b) 2 (snd p)) (bLabels b)) ++
    zeros (2 * (lc_of b - zlen (bLabels b))) ++ concat (map (fun p : Z * Z => es (bEndian b) 1 (fst p)) (bLabels b))).
Definition hasflw (b : bmg) : bool := negb (zlen (bInstructions b) =? 0) || negb (zlen (bLabels b) =? 0).
Definition hasfli (b : bmg) : bool := negb (zlen (bScripts b) =? 0).
Definition sec_flw (b : bmg) : bytes :=
  if hasflw b then asc "FLW1" ++ fields_bytes (bEndian b) [(4%nat, 16 + zlen (flw_body b)); (2%nat, ic_of b); (2%nat, lc_of b)] ++ zeros 4 ++ flw_body b else [].
Definition fli_body (b : bmg) : bytes := concat (map (fun p => fields_bytes (bEndian b) [(4%nat, fst p); (4%nat, snd p)]) (bScripts b)).
Definition fli_len (b : bmg) : Z := 16 + zlen (fli_body b) + (- (16 + zlen (fli_body b))) mod 32.
Definition sec_fli (b : bmg) : bytes :=
  if hasfli b then asc "FLI1" ++ fields_bytes (bEndian b) [(4%nat, fli_len b); (2%nat, zlen (bScripts b)); (2%nat, 8)] ++ zeros 4 ++ fli_body b else [].
Definition body_of (b : bmg) (ens : list (Z * bytes)) (dat : bytes) : bytes := sec_inf b ens ++ sec_dat b dat ++ sec_flw b ++ sec_fli b.
Definition nsec (b : bmg) : Z := 2 + (if hasflw b then 1 else 0) + (if hasfli b then 1 else 0).
Definition round32 (n : Z) : Z := n + (- n) mod 32.

Definition u32 (v : Z) : Prop := 0 <= v < 256 ^ Z.of_nat 4.
Definition u16 (v : Z) : Prop := 0 <= v < 256 ^ Z.of_nat 2.

Lemma save_shape sj b data : bmg_save sj b = Ok data ->
  let e := bEndian b in let c := full_codec sj (bEncoding b) e in
  exists nul ens x, encode c [0] = Ok nul /\
    foldM (add_message c e (il_of b)) ([], nul) (bMessages b) = Ok (concat (map (entry e) ens), nul ++ x) /\
    Forall2 (placed c (zlen nul) (il_of b) (nul ++ x)) ens (bMessages b) /\
    Forall (fun i => zlen i = 8) (bInstructions b) /\
    Forall (fun p : Z * Z => signed 1 (fst p) /\ signed 2 (snd p)) (bLabels b) /\
    Forall (fun p : Z * Z => u32 (fst p) /\ u32 (snd p)) (bScripts b) /\
    (u32 (16 + zlen (inf_body e ens)) /\ u16 (zlen (bMessages b)) /\ u16 (4 + il_of b) /\ u32 (bId b)) /\
    u32 (8 + zlen (pad32 8 (nul ++ x))) /\
    (u32 (16 + zlen (flw_body b)) /\ u16 (ic_of b) /\ u16 (lc_of b)) /\
    (u32 (fli_len b) /\ u16 (zlen (bScripts b))) /\
    (u32 (round32 (32 + zlen (body_of b ens (nul ++ x)))) /\ u32 (bUnk14 b) /\ u32 (bUnk18 b) /\ u32 (bUnk1C b)) /\
    data = asc "MESGbmg1" ++ fields_bytes e [(4%nat, round32 (32 + zlen (body_of b ens (nul ++ x)))); (4%nat, nsec b); (1%nat, enc_index (bEncoding b)); (4%nat, bUnk14 b); (4%nat, bUnk18 b); (4%nat, bUnk1C b)]
           ++ zeros 3 ++ body_of b ens (nul ++ x).
Proof.
  intros H e c. unfold bmg_save in H. fold e in H. fold c in H.
  apply bind_ok in H as (nul & EN & H). apply bind_ok in H as ([inf dat] & EM & H).
  pose proof EM as EM0. apply fold_messages in EM as (ens & x & -> & -> & F). cbn [app] in H, EM0.
  apply bind_ok in H as (insts & EI & H).
  apply (mapM_inv _ (fun i : bytes => zlen i = 8) (fun i => i)) in EI as [FI ->].
  2:{ intros i y Hy. apply bind_ok in Hy as (? & G & Hy). apply guard_ok in G. apply Z.eqb_eq in G. injection Hy as <-. split; [exact G|reflexivity]. }
  apply bind_ok in H as (ixs & EX & H). apply (mapM_inv _ (fun p : Z * Z => signed 2 (snd p)) (fun p : Z * Z => es e 2 (snd p))) in EX as [FX ->].
  2:{ intros p y Hy. apply pack_es_inv in Hy. exact Hy. }
  apply bind_ok in H as (ids & ED & H). apply (mapM_inv _ (fun p : Z * Z => signed 1 (fst p)) (fun p : Z * Z => es e 1 (fst p))) in ED as [FD ->].
  2:{ intros p y Hy. apply pack_es_inv in Hy. exact Hy. }
  apply bind_ok in H as (scr & ES & H). apply (mapM_inv _ (fun p : Z * Z => u32 (fst p) /\ u32 (snd p)) (fun p : Z * Z => fields_bytes e [(4%nat, fst p); (4%nat, snd p)])) in ES as [FS ->].
  2:{ intros p y Hy. apply pack_fields_inv in Hy as [-> Hy]. inversion Hy as [|? ? Q1 Hy2]. inversion Hy2 as [|? ? Q2 _]. cbn [fst snd] in *. split; [split; assumption|reflexivity]. }
  rewrite map_id in H.
  apply bind_ok in H as (h1 & E1 & H). apply pack_fields_inv in E1 as [-> P1].
  apply bind_ok in H as (h2 & E2 & H). apply pack_fields_inv in E2 as [-> P2].
  apply bind_ok in H as (h3 & E3 & H). apply pack_fields_inv in E3 as [-> P3].
  apply bind_ok in H as (h4 & E4 & H). apply pack_fields_inv in E4 as [-> P4].
  apply bind_ok in H as (h & E5 & H). apply pack_fields_inv in E5 as [-> P5].
  apply ok_inj in H.
  exists nul, ens, x.
  split; [exact EN|]. split; [exact EM0|]. split; [exact F|]. split; [exact FI|].
  split. { apply Forall_forall. rewrite Forall_forall in FX, FD. intros p Hp. split; [apply FD|apply FX]; exact Hp. }
  split; [exact FS|].
  repeat match goal with P : Forall _ (_ :: _) |- _ => inversion P; clear P; subst end. cbn [fst snd] in *.
  repeat match goal with |- _ /\ _ => split end; try assumption. reflexivity.
Qed.

Lemma zlen_fields e fs : zlen (fields_bytes e fs) = fold_right (fun f a => Z.of_nat (fst f) + a) 0 fs.
Proof. induction fs as [|[n v] r IH]; [reflexivity|]. unfold fields_bytes in *. cbn [map concat fold_right fst snd]. rewrite zlen_app, zlen_enc, IH. reflexivity. Qed.
Lemma fields_at e data i n v r : at_ data i (fields_bytes e ((n, v) :: r)) -> at_ data i (enc e n v) /\ at_ data (i + Z.of_nat n) (fields_bytes e r).
Proof. intros H. unfold fields_bytes in H. cbn [map concat fst snd] in H. apply at_app in H. rewrite zlen_enc in H. exact H. Qed.
Lemma fields_at1 e data i n v : at_ data i (fields_bytes e [(n, v)]) -> at_ data i (enc e n v).
Proof. intros H. apply fields_at in H as [H _]. exact H. Qed.
Lemma zlen_sec_inf b ens : zlen (sec_inf b ens) = 16 + zlen (inf_body (bEndian b) ens).
Proof. unfold sec_inf. rewrite !zlen_app, zlen_fields. change (zlen (asc "INF1")) with 4. cbn [fold_right fst]. lia. Qed.
Lemma zlen_sec_dat b dat : zlen (sec_dat b dat) = 8 + zlen (pad32 8 dat).
Proof. unfold sec_dat. rewrite !zlen_app, zlen_fields. change (zlen (asc "DAT1")) with 4. cbn [fold_right fst]. lia. Qed.
Lemma zlen_sec_flw b : zlen (sec_flw b) = if hasflw b then 16 + zlen (flw_body b) else 0.
Proof. unfold sec_flw. destruct (hasflw b); [|reflexivity]. rewrite !zlen_app, zlen_fields. change (zlen (asc "FLW1")) with 4. change (zlen (zeros 4)) with 4. cbn [fold_right fst]. lia. Qed.

(** FLW1's padding always covers the unwritten tail of its ID table *)
Lemma pad_enough ic nl T p k : k = (- nl) mod 8 -> T = 16 + 8 * ic + 2 * (nl + k) + nl -> p = (- T) mod 32 -> 0 <= k <= p.
Proof. intros. subst. Z.to_euclidean_division_equations. lia. Qed.
Lemma zlen_concat8 l : Forall (fun i : bytes => zlen i = 8) l -> zlen (concat l) = 8 * zlen l.
Proof. induction 1 as [|x l E _ IH]; [reflexivity|]. cbn [concat]. rewrite zlen_app, zlen_cons. lia. Qed.
Lemma zlen_concat_es e n (f : Z * Z -> Z) l : zlen (concat (map (fun p => es e n (f p)) l)) = Z.of_nat n * zlen l.
Proof. induction l as [|x l IH]; [change (zlen (@nil (Z * Z))) with 0; rewrite Z.mul_0_r; reflexivity|]. cbn [map concat]. rewrite zlen_app, zlen_cons, zlen_es. lia. Qed.
Lemma flw_body_pad b : Forall (fun i => zlen i = 8) (bInstructions b) -> exists rest, flw_body b =
  concat (inst_pad (bInstructions b)) ++ concat (map (fun p : Z * Z => es (bEndian b) 2 (snd p)) (label_pad (bLabels b))) ++
  concat (map (fun p : Z * Z => es (bEndian b) 1 (fst p)) (label_pad (bLabels b))) ++ rest.
Proof.
  intros F. unfold flw_body, pad32.
  match goal with |- context [zeros ((- (16 + zlen ?y)) mod 32)] => set (x := y) end.
  set (k := (- zlen (bLabels b)) mod 8). set (p := (- (16 + zlen x)) mod 32).
  assert (K : 0 <= k <= p).
  { apply (pad_enough (ic_of b) (zlen (bLabels b)) (16 + zlen x) p k); try reflexivity. unfold x. rewrite !zlen_app, zlen_concat8, !zlen_concat_es by exact F.
    pose proof (Z.mod_pos_bound (zlen (bInstructions b)) 2 ltac:(lia)). pose proof (Z.mod_pos_bound (- zlen (bLabels b)) 8 ltac:(lia)). rewrite !zlen_zeros by (unfold lc_of; lia). unfold ic_of, lc_of. fold k. lia. }
  exists (zeros (p - k)). rewrite inst_pad_bytes, label_pad_ix, label_pad_id. fold k. unfold x, lc_of. replace (zlen (bLabels b) + (- zlen (bLabels b)) mod 8 - zlen (bLabels b)) with k by (subst k; lia).
  replace (zeros p) with (zeros k ++ zeros (p - k)) by (rewrite <- zeros_app by lia; f_equal; lia). rewrite <- !app_assoc. reflexivity.
Qed.

Section LOAD.
Context (b : bmg) (nul x : bytes) (ens : list (Z * bytes)) (data : bytes).
Let e := bEndian b.
Let dat := nul ++ x.
Context (FI : Forall (fun i => zlen i = 8) (bInstructions b))
        (FL : Forall (fun p : Z * Z => signed 1 (fst p) /\ signed 2 (snd p)) (bLabels b))
        (FS : Forall (fun p : Z * Z => u32 (fst p) /\ u32 (snd p)) (bScripts b))
        (FE : Forall (fun en : Z * bytes => zlen (snd en) = il_of b /\ 0 <= fst en < 256 ^ Z.of_nat 4) ens)
        (LN : zlen ens = zlen (bMessages b))
        (R1 : u32 (16 + zlen (inf_body e ens)) /\ u16 (zlen (bMessages b)) /\ u16 (4 + il_of b) /\ u32 (bId b))
        (R2 : u32 (8 + zlen (pad32 8 dat)))
        (R3 : u32 (16 + zlen (flw_body b)) /\ u16 (ic_of b) /\ u16 (lc_of b))
        (R4 : u32 (fli_len b) /\ u16 (zlen (bScripts b)))
        (AT : at_ data 32 (body_of b ens dat)).

Let o2 := 32 + (16 + zlen (inf_body e ens)).
Let o3 := o2 + (8 + zlen (pad32 8 dat)).
Let o4 := o3 + (if hasflw b then 16 + zlen (flw_body b) else 0).

Lemma at_sections : at_ data 32 (sec_inf b ens) /\ at_ data o2 (sec_dat b dat) /\ at_ data o3 (sec_flw b) /\ at_ data o4 (sec_fli b).
Proof.
  unfold body_of in AT. apply at_app in AT as [A1 A]. rewrite zlen_sec_inf in A. apply at_app in A as [A2 A]. rewrite zlen_sec_dat in A. apply at_app in A as [A3 A4]. rewrite zlen_sec_flw in A4.
  split; [exact A1|]. split; [exact A2|]. split; [exact A3|exact A4].
Qed.

Lemma sections_inf k st : parse_sections (S k) e data 32 st = parse_sections k e data o2 (mkSections (sInf st ++ ens) (sDat st) (sInst st) (sLab st) (sScr st) (bId b)).
Proof.
  destruct at_sections as (A & _). unfold sec_inf in A. fold e in A. destruct R1 as (Q1 & Q2 & Q3 & Q4). unfold u32, u16 in *. p256.
  apply at_app in A as [A0 A]. change (zlen (asc "INF1")) with 4 in A. apply at_app in A as [A1 A2]. rewrite zlen_fields in A2. cbn [fold_right fst] in A2.
  apply fields_at in A1 as [B1 A1]. apply fields_at in A1 as [B2 A1]. apply fields_at in A1 as [B3 A1]. apply fields_at1 in A1.
  rewrite (section_step k e data 32 st (asc "INF1") (16 + zlen (inf_body e ens))); [|apply at_app; split; assumption|reflexivity|lia].
  rewrite beq_self. unfold inf_body, pad32 in A2.
  rewrite (parse_inf1_ok e data 32 st ens (zlen (bMessages b)) (il_of b) (bId b) _ LN ltac:(lia) Q2 Q3 Q4 FE B2 B3 A1 A2). reflexivity.
Qed.
Lemma sections_dat k st : parse_sections (S k) e data o2 st = parse_sections k e data o3 (mkSections (sInf st) (pad32 8 dat) (sInst st) (sLab st) (sScr st) (sId st)).
Proof.
  destruct at_sections as (_ & A & _). unfold sec_dat in A. fold e in A. unfold u32, u16 in *. p256.
  apply at_app in A as [A0 A]. change (zlen (asc "DAT1")) with 4 in A. apply at_app in A as [A1 A2]. rewrite zlen_fields in A2. cbn [fold_right fst] in A2. apply fields_at1 in A1.
  rewrite (section_step k e data o2 st (asc "DAT1") (8 + zlen (pad32 8 dat))); [|apply at_app; split; assumption|reflexivity|lia].
  change (beq (asc "DAT1") (asc "INF1")) with false. rewrite beq_self. cbn [bind]. unfold parse_dat1.
  assert (A3 : at_ data (o2 + 8) (pad32 8 dat)) by (apply (at_eq _ _ _ _ A2); lia). rewrite (at_slice data _ _ (o2 + (8 + zlen (pad32 8 dat))) A3) by lia. reflexivity.
Qed.
Lemma sections_flw k st : hasflw b = true -> parse_sections (S k) e data o3 st = parse_sections k e data o4
  (mkSections (sInf st) (sDat st) (sInst st ++ filter nonzero_inst (bInstructions b)) (sLab st ++ filter nonzero_label (bLabels b)) (sScr st) (sId st)).
Proof.
  intros HF. destruct at_sections as (_ & _ & A & _). unfold o4. unfold sec_flw in A. rewrite HF in A |- *. fold e in A. destruct R3 as (Q1 & Q2 & Q3). unfold u32, u16 in *. p256.
  apply at_app in A as [A0 A]. change (zlen (asc "FLW1")) with 4 in A. apply at_app in A as [A1 A2]. rewrite zlen_fields in A2. cbn [fold_right fst] in A2.
  apply at_app in A2 as [A2 A3]. change (zlen (zeros 4)) with 4 in A3.
  apply fields_at in A1 as [B1 A1]. apply fields_at in A1 as [B2 A1]. apply fields_at1 in A1.
  rewrite (section_step k e data o3 st (asc "FLW1") (16 + zlen (flw_body b))); [|apply at_app; split; assumption|reflexivity|lia].
  change (beq (asc "FLW1") (asc "INF1")) with false. change (beq (asc "FLW1") (asc "DAT1")) with false. rewrite beq_self.
  destruct (flw_body_pad b FI) as (rest & EB). fold e in EB. rewrite EB in A3.
  rewrite (parse_flw1_ok e data o3 st (bInstructions b) (bLabels b) (ic_of b) (lc_of b) rest eq_refl eq_refl); [reflexivity|lia|lia|exact FI|exact FL| | | |]; eapply at_eq; try eassumption; lia.
Qed.
Lemma sections_fli k st : hasfli b = true -> parse_sections (S k) e data o4 st = parse_sections k e data (o4 + fli_len b)
  (mkSections (sInf st) (sDat st) (sInst st) (sLab st) (sScr st ++ map (loaded_script e) (bScripts b)) (sId st)).
Proof.
  intros HF. destruct at_sections as (_ & _ & _ & A). unfold sec_fli in A. rewrite HF in A. fold e in A. destruct R4 as (Q1 & Q2). unfold u32, u16 in *. p256.
  apply at_app in A as [A0 A]. change (zlen (asc "FLI1")) with 4 in A. apply at_app in A as [A1 A2]. rewrite zlen_fields in A2. cbn [fold_right fst] in A2.
  apply at_app in A2 as [A2 A3]. change (zlen (zeros 4)) with 4 in A3.
  apply fields_at in A1 as [B1 A1]. apply fields_at in A1 as [B2 A1]. apply fields_at1 in A1.
  rewrite (section_step k e data o4 st (asc "FLI1") (fli_len b)); [|apply at_app; split; assumption|reflexivity|lia].
  change (beq (asc "FLI1") (asc "INF1")) with false. change (beq (asc "FLI1") (asc "DAT1")) with false. change (beq (asc "FLI1") (asc "FLW1")) with false. rewrite beq_self.
  rewrite (parse_fli1_ok e data o4 st (bScripts b) (zlen (bScripts b)) eq_refl); [reflexivity|lia|exact FS| | | |]; eapply at_eq; try eassumption; lia.
Qed.

Lemma sections_all id0 : parse_sections (Z.to_nat (nsec b)) e data 32 (mkSections [] [] [] [] [] id0) =
  Ok (mkSections ens (pad32 8 dat) (filter nonzero_inst (bInstructions b)) (filter nonzero_label (bLabels b)) (map (loaded_script e) (bScripts b)) (bId b)).
Proof.
  assert (N : Z.to_nat (nsec b) = S (S ((if hasflw b then 1 else 0) + (if hasfli b then 1 else 0))%nat)) by (unfold nsec; destruct (hasflw b), (hasfli b); reflexivity).
  rewrite N, sections_inf, sections_dat. cbn [sInf sDat sInst sLab sScr sId app].
  assert (NF : hasflw b = false -> bInstructions b = [] /\ bLabels b = []).
  { unfold hasflw. intros H. apply orb_false_iff in H as [H1 H2]. apply negb_false_iff, Z.eqb_eq in H1, H2. split; apply length_zero_iff_nil; unfold zlen in *; lia. }
  assert (NS : hasfli b = false -> bScripts b = []).
  { unfold hasfli. intros H. apply negb_false_iff, Z.eqb_eq in H. apply length_zero_iff_nil; unfold zlen in *; lia. }
  assert (T : forall st, parse_sections (if hasfli b then 1 else 0)%nat e data o4 st = Ok (mkSections (sInf st) (sDat st) (sInst st) (sLab st) (sScr st ++ map (loaded_script e) (bScripts b)) (sId st))).
  { intros st. assert (D : hasfli b = true \/ hasfli b = false) by (destruct (hasfli b); auto). destruct D as [HS|HS]; rewrite HS; [rewrite sections_fli by exact HS; reflexivity|]. rewrite (NS HS). cbn [map parse_sections]. rewrite app_nil_r. destruct st. reflexivity. }
  assert (D : hasflw b = true \/ hasflw b = false) by (destruct (hasflw b); auto). destruct D as [HF|HF].
  - rewrite HF. cbn [Nat.add]. rewrite sections_flw by exact HF. rewrite T. reflexivity.
  - destruct (NF HF) as [-> ->]. replace o3 with o4 by (unfold o4; rewrite HF; lia). rewrite HF. cbn [Nat.add]. rewrite T. reflexivity.
Qed.
End LOAD.

(** ** The endianness guess *)
Lemma swap_bytes v : 0 <= v < 4294967296 -> unle (be 4 v) = swap32 v /\ unbe (le 4 v) = swap32 v.
Proof.
  intros H. unfold be, unbe, swap32. cbn [le rev app unle]. rewrite !Z.div_div by lia. change (256 * 256) with 65536. change (65536 * 256) with 16777216.
  rewrite (Z.mod_small (v / 16777216)) by (Z.to_euclidean_division_equations; lia). split; ring.
Qed.
Lemma guess_of e data n : 0 <= n < 4294967296 -> at_ data 8 (enc e 4 n) ->
  guess_endian data = Ok (if match e with LE => n <? swap32 n | BE => swap32 n <? n end then LE else BE).
Proof.
  intros R A. unfold guess_endian. rewrite !(at_raw _ 4 data 8 _ A) by apply zlen_enc. cbn [bind]. destruct (swap_bytes n R) as [S1 S2]. destruct e; cbn [enc dec].
  - rewrite S2, unle_le_id by (p256; lia). reflexivity.
  - rewrite S1. pose proof (dec_enc BE 4 n) as D. cbn [dec enc] in D. rewrite D by (p256; lia). reflexivity.
Qed.
Lemma round32_claimed n : round32 n = (n + 31) / 32 * 32.
Proof. unfold round32. Z.to_euclidean_division_equations. lia. Qed.

Lemma save_at sj b data : bmg_save sj b = Ok data -> exists ens dat, at_ data 8 (enc (bEndian b) 4 (claimed_len data)) /\ 0 <= claimed_len data < 4294967296 /\ zlen data = 32 + zlen (body_of b ens dat).
Proof.
  intros H. apply save_shape in H as (nul & ens & x & H). repeat match goal with Q : _ /\ _ |- _ => destruct Q end. exists ens, (nul ++ x).
  match goal with E : data = _ |- _ => assert (A : at_ data 0 data) by (rewrite <- (app_nil_r data) at 1; apply at_whole); rewrite E in A at 2; assert (L : zlen data = 32 + zlen (body_of b ens (nul ++ x))) by
    (rewrite E, !zlen_app, zlen_fields; change (zlen (asc "MESGbmg1")) with 8; change (zlen (zeros 3)) with 3; cbn [fold_right fst]; lia) end.
  apply at_app in A as [_ A]. change (zlen (asc "MESGbmg1")) with 8 in A. apply at_app in A as [A _]. apply fields_at in A as [A _]. rewrite round32_claimed in A. unfold claimed_len. rewrite L.
  split; [exact A|]. split; [|reflexivity]. unfold u32 in *. p256. rewrite <- round32_claimed. assumption.
Qed.
Lemma guess_saved sj b data : bmg_save sj b = Ok data -> (guess_endian data = Ok (bEndian b) <-> length_tells (bEndian b) (claimed_len data)).
Proof.
  intros H. apply save_at in H as (ens & dat & A & R & _). rewrite (guess_of _ _ _ R A). unfold length_tells. destruct (bEndian b).
  - destruct (Z.ltb_spec (claimed_len data) (swap32 (claimed_len data))); split; intros Q; try reflexivity; try lia; discriminate.
  - destruct (Z.ltb_spec (swap32 (claimed_len data)) (claimed_len data)); split; intros Q; try reflexivity; try lia; discriminate.
Qed.

(** ** The codecs *)
Lemma marks_of sj x e nul : (x = ShiftJis -> c_char sj 0 = Ok [0] /\ c_char sj 26 = Ok [26]) ->
  encode (full_codec sj x e) [0] = Ok nul -> exists esc, marks (full_codec sj x e) nul esc /\
  (x = ShiftJis -> nul = [0] /\ esc = [26]) /\
  (x <> ShiftJis -> forall s, is_text s -> ~ In 0 s -> ~ In 26 s -> framed (full_codec sj x e) nul esc s).
Proof.
  intros HS EN. destruct x; cbn [full_codec] in *.
  - inversion EN; subst nul. exists [26]. split; [unfold marks; repeat split; cbn; (reflexivity || lia || discriminate)|]. split; [discriminate|]. intros _. apply cp1252_framed.
  - exists (enc e 2 26). assert (nul = enc e 2 0) as ->. { unfold encode in EN. cbn [mapM c_char] in EN. unfold utf16_char in EN. cbn [surrogateb Z.leb Z.ltb bind] in EN. apply ok_inj in EN. rewrite <- EN. destruct e; reflexivity. }
    split; [|split; [discriminate|intros _; apply utf16_framed]]. destruct e; unfold marks; repeat split; cbn; (reflexivity || lia || discriminate).
  - destruct (HS eq_refl) as [H0 H26]. rewrite (encode_single _ _ _ H0) in EN. inversion EN; subst nul. exists [26]. split; [|split; [auto|congruence]].
    unfold marks. rewrite (encode_single _ _ _ H0), (encode_single _ _ _ H26). repeat split; (reflexivity || (cbn; lia) || discriminate).
  - inversion EN; subst nul. exists [26]. split; [unfold marks; repeat split; cbn; (reflexivity || lia || discriminate)|]. split; [discriminate|]. intros _. apply utf8_framed.
Qed.

Lemma enc_of_index x : enc_of (enc_index x) = Ok x.
Proof. destruct x; reflexivity. Qed.

Lemma placed_entries c lo il dat ens ms : Forall2 (placed c lo il dat) ens ms ->
  Forall (fun en : Z * bytes => zlen (snd en) = il /\ 0 <= fst en < 256 ^ Z.of_nat 4) ens /\ zlen ens = zlen ms.
Proof.
  induction 1 as [|en m ens ms (P1 & P2 & P3 & _) _ [IH1 IH2]]; [split; [constructor|reflexivity]|]. rewrite !zlen_cons, IH2. split; [|reflexivity]. constructor; [|exact IH1]. rewrite P1. split; assumption.
Qed.
Lemma placed_saved c lo il dat ens ms : Forall2 (placed c lo il dat) ens ms -> forall m, In m ms -> mNull m = false -> exists bs, mapM (part_save c) (mParts m) = Ok bs.
Proof.
  induction 1 as [|en m ens ms (_ & _ & _ & P) _ IH]; intros m' Hm NM; [destruct Hm|]. destruct Hm as [-> |Hm]; [|apply IH; assumption].
  rewrite NM in P. destruct P as (_ & b & E & _). unfold message_save in E. rewrite NM in E. apply bind_ok in E as (bs & E & _). exists bs. exact E.
Qed.
Lemma parts_clean c ps bs : mapM (part_save c) ps = Ok bs -> forall s, In (Txt s) ps -> ~ In 0 s /\ ~ In 26 s.
Proof.
  revert bs. induction ps as [|p r IH]; intros bs E s Hs; [destruct Hs|]. cbn [mapM] in E. apply bind_ok in E as (pb & EP & E). apply bind_ok in E as (rb & ER & _).
  destruct Hs as [-> |Hs]; [|apply (IH rb ER); exact Hs]. apply part_txt in EP as (C0 & C26 & _). split; apply contains_in; assumption.
Qed.

Theorem load_save sj id0 b data : bmg_save sj b = Ok data -> texts_ok b -> (bEncoding b = ShiftJis -> sjis_fits sj b) ->
  length_tells (bEndian b) (claimed_len data) -> bmg_load sj id0 data = Ok (loaded b).
Proof.
  intros H TX SJ LT. pose proof (proj2 (guess_saved sj b data H) LT) as G.
  apply save_shape in H as (nul & ens & x & EN & _ & F & FI & FL & FS & R1 & R2 & R3 & R4 & R5 & E).
  assert (A : at_ data 0 data) by (rewrite <- (app_nil_r data) at 1; apply at_whole). rewrite E in A at 2.
  apply at_app in A as [A0 A]. change (zlen (asc "MESGbmg1")) with 8 in A. apply at_app in A as [AH A]. rewrite zlen_fields in A. cbn [fold_right fst] in A. apply at_app in A as [_ AB]. change (zlen (zeros 3)) with 3 in AB.
  assert (AT : at_ data 32 (body_of b ens (nul ++ x))) by (apply (at_eq _ _ _ _ AB); lia). clear AB.
  apply fields_at in AH as [H1 AH]. apply fields_at in AH as [H2 AH]. apply fields_at in AH as [H3 AH]. apply fields_at in AH as [H4 AH]. apply fields_at in AH as [H5 AH]. apply fields_at1 in AH.
  destruct R5 as (Q1 & Q2 & Q3 & Q4). unfold u32 in Q1, Q2, Q3, Q4.
  unfold bmg_load. change (slice_to data 8) with (slice data 0 8). rewrite (at_slice data 0 _ 8 A0) by reflexivity. rewrite beq_self. cbn [guard bind]. rewrite G. cbn [bind].
  set (e := bEndian b) in *.
  assert (NN : 0 <= nsec b < 5) by (unfold nsec; destruct (hasflw b), (hasfli b); lia).
  rewrite (at_e e 4 (nsec b) data _ 12 H2) by (p256; lia). cbn [bind].
  rewrite (at_e e 1 (enc_index (bEncoding b)) data _ 16 H3) by (destruct (bEncoding b); p256; cbn; lia). cbn [bind].
  rewrite (at_e e 4 (bUnk14 b) data _ 17 H4) by (assumption || lia). cbn [bind].
  rewrite (at_e e 4 (bUnk18 b) data _ 21 H5) by (assumption || lia). cbn [bind].
  rewrite (at_e e 4 (bUnk1C b) data _ 25 AH) by (assumption || lia). cbn [bind].
  rewrite enc_of_index. cbn [bind].
  destruct (placed_entries _ _ _ _ _ _ F) as [FE LN].
  pose proof (sections_all b nul x ens data FI FL FS FE LN R1 R2 R3 R4 AT id0) as SA. fold e in SA. rewrite SA. cbn [bind sDat sInf sInst sLab sScr sId].
  destruct (marks_of sj (bEncoding b) e nul (fun Q => match SJ Q with conj a (conj c _) => conj a c end) EN) as (esc & MK & MS & MT).
  pose proof MK as (_ & EE & _ & L1 & _). fold e in EN. rewrite EN. cbn [bind]. rewrite EE. cbn [bind].
  unfold pad32. rewrite (load_messages _ nul esc (nul ++ x) _ (zlen nul) (il_of b) ens (bMessages b) MK); [reflexivity|apply at_whole|lia| |exact F].
  intros m s Hm Hs NM. destruct (placed_saved _ _ _ _ _ _ F m Hm NM) as (bs & EB).
  destruct (bEncoding b) eqn:EX; try (apply MT; [discriminate| | |]).
  7:{ destruct (MS eq_refl) as [-> ->]. destruct (SJ eq_refl) as (_ & _ & S). apply (S m s Hm Hs). }
  all: revert s Hs; apply join_texts.
  all: try (intros s t Hs Ht; try (apply Forall_app; split; assumption); intros Q; apply in_app_or in Q as [Q|Q]; contradiction).
  all: intros s Hs; try (apply (TX m s Hm Hs)); apply (parts_clean _ _ _ EB s Hs).
Qed.

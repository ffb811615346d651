(** Which NARC archives are reproduced, proofs for C124. *)
From Coq Require Import String.
From Verif Require Import PyBase PyLemmas PyTac CommonModel FntModel NarcModel NarcLemmas RomSpec ViewSpec ViewLemmas ViewFiles ExactSpec Exact ExactStrm ExactFiles.

Lemma narc_save_from n nt : save (nFilenames n) = Ok nt -> 44 + 8 * zlen (nFiles n) + zlen (pad_to 4 0xFF nt) + zlen (body (nFiles n)) < 4294967296 -> exists d, narc_save n = Ok d.
Proof.
  intros ES S. pose proof (zlen_nonneg (nFiles n)). pose proof (zlen_nonneg (body (nFiles n))). pose proof (zlen_nonneg (pad_to 4 0xFF nt)).
  unfold narc_save. do_pack. cbn [bind].
  destruct (add_ok (nFiles n) (zeros 8) (rev (asc "FATB") ++ le 4 (12 + 8 * zlen (nFiles n)) ++ le 4 (zlen (nFiles n)))) as [[fi fa] EA]; [reflexivity|rewrite zlen_zeros; lia|rewrite zlen_zeros; lia|].
  rewrite EA. cbn [bind]. apply add_inv in EA as (-> & -> & _); [|reflexivity|rewrite zlen_zeros; lia].
  rewrite pack_u_ok by (p256; rewrite zlen_app, zlen_zeros; lia). cbn [bind].
  rewrite put_hit; [|reflexivity|rewrite zlen_zeros, zlen_app, zlen_le by lia; reflexivity]. cbn [bind].
  rewrite ES. cbn [bind]. cbv zeta. rewrite pack_u_ok by (p256; lia). cbn [bind].
  set (data := zeros 16 ++ _).
  assert (LD : 0 <= zlen data < 4294967296).
  { unfold data. rewrite !zlen_app, !zlen_le, zlen_fats, !zlen_zeros by lia. change (zlen (rev (asc "FATB"))) with 4. change (zlen (rev (asc "FNTB"))) with 4. change (zlen (rev (asc "FIMG"))) with 4. lia. }
  destruct (match nEndian n with LE => (65279, 1) | BE => (65534, 256) end) as [bom ver] eqn:EB.
  assert (0 <= bom < 65536 /\ 0 <= ver < 65536) by (destruct (nEndian n); injection EB as <- <-; lia).
  do_pack. cbn [bind]. unfold data at 1. rewrite put_hit; [eexists; reflexivity|reflexivity|rewrite zlen_zeros, !zlen_app, !zlen_le by lia; reflexivity].
Qed.

Lemma next_mod d i : narc_next d i mod 4 = 0.
Proof. unfold narc_next. destruct (i =? 0); [reflexivity|]. rewrite Z.mul_comm. apply Z.mod_mul. lia. Qed.
Lemma next_succ d i : 0 <= i -> narc_next d (i + 1) = 4 * ((word d (0x20 + 8 * i) + 3) / 4).
Proof. intros I. unfold narc_next. rewrite (proj2 (Z.eqb_neq _ _)) by lia. replace (0x18 + 8 * (i + 1)) with (0x20 + 8 * i) by lia. reflexivity. Qed.
Section Files.
  Set Default Proof Using "All".
  Variables (d : bytes) (count : Z).
  Hypothesis B : is_bytes d. Hypothesis C0 : 0 <= count. Hypothesis CL : 0x1C + 8 * count <= zlen d.
  Let F := narc_fimg d + 8.
  Hypothesis F0 : 0 <= F.
  Let start i := word d (0x1C + 8 * i).
  Let stop i := word d (0x20 + 8 * i).
  Lemma file_at (k : nat) : narc_file d k = part d (F + start (Z.of_nat k)) (stop (Z.of_nat k) - start (Z.of_nat k)).
  Proof. reflexivity. Qed.
  Lemma next_pos i : 0 <= i <= count -> 0 <= narc_next d i.
  Proof. intros I. unfold narc_next. destruct (Z.eqb_spec i 0); [lia|]. pose proof (word_range d (0x18 + 8 * i) B ltac:(lia) ltac:(lia)). lia. Qed.
  Lemma written r : forall m k, Z.of_nat k + Z.of_nat m = count -> let off := narc_next d (Z.of_nat k) in let fs := map (narc_file d) (seq k m) in
    off + zlen (body fs) < 4294967296 -> zlen d = F + off + zlen (body fs) -> rest d (0x1C + 8 * Z.of_nat k) = fats off fs ++ r -> rest d (F + off) = body fs ->
    (forall i, Z.of_nat k <= i < count -> start i = narc_next d i /\ start i <= stop i) /\ rest d (0x1C + 8 * count) = r /\ zlen d = F + narc_next d count /\
    (forall i o, Z.of_nat k <= i < count -> stop i <= o < narc_next d (i + 1) -> byte d (F + o) = 0).
  Proof.
    induction m as [|m IH]; intros k K off fs S L R1 R2.
    - assert (E : Z.of_nat k = count) by lia. unfold off, fs in *. clear off fs. cbn [seq map body concat fats app] in *. rewrite E in *. change (zlen (@nil Z)) with 0 in L. split; [intros i I; lia|]. split; [exact R1|]. split; [lia|]. intros i o I. lia.
    - pose proof (next_pos (Z.of_nat k) ltac:(lia)) as P0. change (fs) with (narc_file d k :: map (narc_file d) (seq (Datatypes.S k) m)) in *. set (f := narc_file d k) in *. set (fs' := map (narc_file d) (seq (Datatypes.S k) m)) in *. clear fs.
      unfold body in S, L, R2. cbn [map concat] in S, L, R2. fold (body fs') in S, L, R2. rewrite zlen_app in S, L. cbn [fats] in R1. rewrite <- !app_assoc in R1.
      pose proof (zlen_nonneg f) as Pf. pose proof (zlen_nonneg (body fs')) as Pb. assert (LP : zlen (pad4 f) = 4 * ((zlen f + 3) / 4)) by (rewrite zlen_pad_to by lia; lia).
      rewrite cut4 in R1 by first [exact B|lia]. destruct R1 as (E1 & R1). rewrite cut4 in R1 by first [exact B|lia]. destruct R1 as (E2 & R1). replace (0x1C + 8 * Z.of_nat k + 4) with (0x20 + 8 * Z.of_nat k) in * by lia.
      replace (0x20 + 8 * Z.of_nat k + 4) with (0x1C + 8 * Z.of_nat (Datatypes.S k)) in R1 by lia. rewrite (cut d (F + off) (zlen (pad4 f)) _ _ eq_refl) in R2 by lia. destruct R2 as (R2 & R3).
      assert (N : off + zlen (pad4 f) = narc_next d (Z.of_nat (Datatypes.S k))).
      { rewrite Nat2Z.inj_succ. unfold Z.succ. rewrite next_succ, E2, LP by lia. pose proof (next_mod d (Z.of_nat k)) as M. fold off in M. clearbody off. lia. }
      destruct (IH (Datatypes.S k) ltac:(lia)) as (G1 & G2 & G3 & G4); [rewrite <- N; fold fs'; lia|rewrite <- N; fold fs'; lia|rewrite <- N; exact R1|rewrite <- N; rewrite Z.add_assoc; exact R3|].
      split; [|split; [exact G2|split; [exact G3|]]].
      + intros i I. destruct (Z.eq_dec i (Z.of_nat k)) as [->|NE]; [|apply G1; lia]. unfold start, stop. rewrite E1, E2. split; [reflexivity|lia].
      + intros i o I J. destruct (Z.eq_dec i (Z.of_nat k)) as [->|NE]; [|apply (G4 i); lia]. unfold stop in J. rewrite E2 in J. replace (Z.of_nat k + 1) with (Z.of_nat (Datatypes.S k)) in J by lia. rewrite <- N in J.
        replace (F + o) with (F + off + (o - off)) by lia. rewrite <- (byte_nth d (F + off) (zlen (pad4 f)) (o - off)) by lia. rewrite R2. unfold pad_to. rewrite app_nth2 by (unfold zlen in *; lia).
        apply (repeat_spec (Z.to_nat ((- zlen f) mod 4)) 0). apply nth_In. rewrite repeat_length. rewrite zlen_pad_to in J by lia. unfold zlen in *. lia.
  Qed.
  Lemma next_mono : (forall i, 0 <= i < count -> start i = narc_next d i /\ start i <= stop i) -> forall i j, 0 <= i <= j -> j <= count -> narc_next d i <= narc_next d j.
  Proof.
    intros H i j I J. assert (Q : forall n : nat, i + Z.of_nat n <= count -> narc_next d i <= narc_next d (i + Z.of_nat n)); [|specialize (Q (Z.to_nat (j - i))); rewrite Z2Nat.id in Q by lia; replace (i + (j - i)) with j in Q by lia; exact (Q J)].
    assert (I0 : 0 <= i) by lia. clear j I J. intros n. induction n as [|n IH]; intros J; [rewrite Z.add_0_r; lia|].
    rewrite Nat2Z.inj_succ in *. specialize (IH ltac:(lia)). replace (i + Z.succ (Z.of_nat n)) with (i + Z.of_nat n + 1) by lia. rewrite next_succ by lia. destruct (H (i + Z.of_nat n) ltac:(lia)) as (E & LE). fold (stop (i + Z.of_nat n)). lia.
  Qed.
  Lemma rewritten : (forall i, 0 <= i < count -> start i = narc_next d i /\ start i <= stop i) -> zlen d = F + narc_next d count ->
    (forall i o, 0 <= i < count -> stop i <= o < narc_next d (i + 1) -> byte d (F + o) = 0) -> forall m k, Z.of_nat k + Z.of_nat m = count ->
    let off := narc_next d (Z.of_nat k) in let fs := map (narc_file d) (seq k m) in
    off + zlen (body fs) = narc_next d count /\ rest d (0x1C + 8 * Z.of_nat k) = fats off fs ++ rest d (0x1C + 8 * count) /\ rest d (F + off) = body fs.
  Proof.
    intros H L Z0. induction m as [|m IH]; intros k K off fs.
    - assert (E : Z.of_nat k = count) by lia. unfold off, fs. clear off fs. cbn [seq map body concat fats app]. rewrite E. split; [change (zlen (@nil Z)) with 0; lia|]. split; [reflexivity|]. unfold rest. apply skipn_all2. unfold zlen in L. lia.
    - destruct (IH (Datatypes.S k) ltac:(lia)) as (G1 & G2 & G3). change (fs) with (narc_file d k :: map (narc_file d) (seq (Datatypes.S k) m)) in *. set (f := narc_file d k) in *. set (fs' := map (narc_file d) (seq (Datatypes.S k) m)) in *. clear fs.
      destruct (H (Z.of_nat k) ltac:(lia)) as (E & LE). pose proof (next_pos (Z.of_nat k) ltac:(lia)) as P0. pose proof (next_mono H (Z.of_nat k + 1) count ltac:(lia) ltac:(lia)) as MO. pose proof (next_succ d (Z.of_nat k) ltac:(lia)) as NS.
      assert (Lf : zlen f = stop (Z.of_nat k) - start (Z.of_nat k)) by (unfold f; rewrite file_at; apply zlen_part; [lia|lia|]; unfold stop in *; lia).
      assert (LP : zlen (pad4 f) = 4 * ((zlen f + 3) / 4)) by (rewrite zlen_pad_to by lia; lia). fold (stop (Z.of_nat k)) in NS. pose proof (next_mod d (Z.of_nat k)) as M4.
      assert (N : off + zlen (pad4 f) = narc_next d (Z.of_nat (Datatypes.S k))) by (replace (Z.of_nat (Datatypes.S k)) with (Z.of_nat k + 1) by lia; rewrite NS, LP, Lf, E; unfold off; lia).
      assert (EF : part d (F + off) (zlen (pad4 f)) = pad4 f).
      { unfold pad_to. set (z := (- zlen f) mod 4). pose proof (Z.mod_pos_bound (- zlen f) 4 ltac:(lia)). apply part_split; [lia|rewrite zlen_app; reflexivity|]. rewrite zlen_rep by (unfold z; lia). split.
        - rewrite Lf. unfold f. rewrite file_at. rewrite E. reflexivity.
        - apply part_rep; [lia|unfold z; lia| |].
          + assert (zlen f + z = zlen (pad4 f)) by (rewrite zlen_pad_to by lia; reflexivity). replace (Z.of_nat (Datatypes.S k)) with (Z.of_nat k + 1) in N by lia. lia.
          + intros i I. replace i with (F + (i - F)) by lia. apply (Z0 (Z.of_nat k)); [lia|]. assert (zlen f + z = zlen (pad4 f)) by (rewrite zlen_pad_to by lia; reflexivity). replace (Z.of_nat (Datatypes.S k)) with (Z.of_nat k + 1) in N by lia. unfold off in *. lia. }
      rewrite <- N in G1, G2, G3. unfold body. cbn [map concat fats]. fold (body fs'). split; [rewrite zlen_app; lia|]. split.
      + rewrite <- !app_assoc. rewrite cut4; [|exact B|lia|lia|unfold off; rewrite <- E; apply word_range; [exact B|lia|lia]]. split; [exact E|]. replace (0x1C + 8 * Z.of_nat k + 4) with (0x20 + 8 * Z.of_nat k) by lia.
        rewrite cut4; [|exact B|lia|lia|replace (off + zlen f) with (stop (Z.of_nat k)) by (unfold off; lia); apply word_range; [exact B|lia|lia]]. split; [change (word d (0x20 + 8 * Z.of_nat k)) with (stop (Z.of_nat k)); unfold off; lia|]. replace (0x20 + 8 * Z.of_nat k + 4) with (0x1C + 8 * Z.of_nat (Datatypes.S k)) by lia. exact G2.
      + rewrite (cut d (F + off) (zlen (pad4 f)) _ _ eq_refl) by (unfold off; lia). split; [exact EF|]. rewrite <- Z.add_assoc. exact G3.
  Qed.
End Files.
Lemma all_rep x (l : bytes) n : zlen l = n -> Forall (eq x) l -> l = rep x n.
Proof. intros <- F. unfold rep, zlen. rewrite Nat2Z.id. induction F as [|y l <- _ IH]; [reflexivity|]. cbn [List.length repeat]. f_equal. exact IH. Qed.
Lemma rep_all (x : Z) n : Forall (eq x) (rep x n).
Proof. apply Forall_forall. intros y I. apply repeat_spec in I. congruence. Qed.
Lemma narc_exact depth d n : is_bytes d -> narc_load depth d = Ok n -> narc_save n = Ok d <-> exists t, save (nFilenames n) = Ok t /\ exact_narc d t.
Proof.
  intros B H. apply narc_inv in H as (S & E & FS & LD); [|exact B]. pose proof S as (L0 & M & V & BT & CL & FN & FL & GM & GL).
  pose proof (word_range d 0x18 B ltac:(lia) ltac:(lia)) as R18. pose proof (word_range d 0x14 B ltac:(lia) ltac:(lia)) as R14. set (count := word d 0x18) in *.
  assert (ZF : zlen (nFiles n) = count) by (rewrite FS, zlen_map; unfold zlen; rewrite seq_length; lia). assert (P0 : 0 <= narc_fntb d) by (unfold narc_fntb; lia). pose proof (word_range d (narc_fntb d + 4) B ltac:(lia) ltac:(lia)) as RF.
  assert (P1 : 0 <= narc_fimg d) by (unfold narc_fimg; lia). assert (P2 : 0 <= narc_fimg d + 8) by lia.
  assert (BE : (half d 4 = 0xFFFE \/ half d 4 = 0xFEFF) <-> half d 4 = fst (bomv (nEndian n)) /\ half d 6 = snd (bomv (nEndian n))).
  { rewrite E. destruct (Z.eqb_spec (half d 4) 0xFFFE) as [Q|Q]; cbn [bomv fst snd]; lia. }
  assert (BR : 0 <= fst (bomv (nEndian n)) < 65536 /\ 0 <= snd (bomv (nEndian n)) < 65536) by (destruct (nEndian n); cbn; lia).
  assert (CUT : forall nt, zlen d < 4294967296 -> 44 + 8 * count + zlen nt + zlen (body (nFiles n)) = zlen d -> d = narc_bytes n nt (zlen d) <->
    half d 4 = fst (bomv (nEndian n)) /\ half d 6 = snd (bomv (nEndian n)) /\ word d 8 = zlen d /\ half d 12 = 0x10 /\ half d 14 = 3 /\ word d 0x14 = 0x0C + 8 * count /\
    exists r, rest d 0x1C = fats 0 (nFiles n) ++ r /\ rest d (0x1C + 8 * count) = r /\ word d (0x20 + 8 * count) = zlen nt + 8 /\
      part d (0x24 + 8 * count) (zlen nt) = nt /\ word d (0x28 + 8 * count + zlen nt) = 8 + zlen (body (nFiles n)) /\ rest d (0x2C + 8 * count + zlen nt) = body (nFiles n)).
  { intros nt SZ TOT. pose proof (zlen_nonneg nt) as Pn. pose proof (zlen_nonneg (body (nFiles n))) as Pb. unfold narc_bytes. rewrite ZF. rewrite <- !app_assoc. rewrite <- (rest0 d) at 1. rewrite (cut d 0 4) by (reflexivity || lia). change (0 + 4) with 4. do 5 cutw.
    rewrite (cut d 16 4) by (reflexivity || lia). change (16 + 4) with 20. do 2 cutw. rewrite (cut d 28 (8 * count)) by (rewrite ?zlen_fats; lia).
    rewrite (cut d (28 + 8 * count) 4) by (reflexivity || lia). rewrite cut4 by first [exact B|lia]. replace (28 + 8 * count + 4) with (0x20 + 8 * count) by lia. replace (0x20 + 8 * count + 4) with (0x24 + 8 * count) by lia.
    rewrite (cut d (0x24 + 8 * count) (zlen nt) _ _ eq_refl) by lia. rewrite (cut d _ 4) by (reflexivity || lia). rewrite cut4 by first [exact B|lia]. replace (0x24 + 8 * count + zlen nt + 4) with (0x28 + 8 * count + zlen nt) by lia. replace (0x28 + 8 * count + zlen nt + 4) with (0x2C + 8 * count + zlen nt) by lia.
    split.
    - intros (_ & A1 & A2 & A3 & A4 & A5 & _ & A6 & _ & A7 & A8 & A9 & A10 & A11 & A12 & A13). repeat (split; [assumption|]). exists (rest d (28 + 8 * count)). split; [apply (cut d 28 (8 * count)); [rewrite zlen_fats; lia|lia|split; [exact A7|reflexivity]]|]. repeat (split; [first [reflexivity|assumption]|]). assumption.
    - intros (A1 & A2 & A3 & A4 & A5 & A6 & r & A7 & A8 & A9 & A10 & A11 & A12). apply (cut d 28 (8 * count)) in A7 as (A7 & _); [|rewrite zlen_fats; lia|lia].
      assert (EF : narc_fntb d = 0x1C + 8 * count) by (unfold narc_fntb; lia). assert (EG : narc_fimg d = 0x24 + 8 * count + zlen nt) by (unfold narc_fimg; rewrite EF; replace (0x1C + 8 * count + 4) with (0x20 + 8 * count) by lia; lia).
      rewrite EF in FN. rewrite EG in GM. repeat (split; [first [assumption|reflexivity]|]). exact A12. }
  split.
  - intros H. apply narc_save_inv in H as (t & ST & ED & SZ & _). exists t. split; [exact ST|]. set (nt := pad_to 4 0xFF t) in *.
    assert (TOT : 44 + 8 * count + zlen nt + zlen (body (nFiles n)) = zlen d).
    { apply (f_equal zlen) in ED. unfold narc_bytes in ED. rewrite !zlen_app, !zlen_le, zlen_fats, ZF in ED. change (zlen (asc "NARC")) with 4 in ED. change (zlen (asc "BTAF")) with 4 in ED. change (zlen (asc "BTNF")) with 4 in ED. change (zlen (asc "GMIF")) with 4 in ED. lia. }
    pose proof (zlen_nonneg nt) as Pn. apply (CUT nt SZ TOT) in ED as (A1 & A2 & A3 & A4 & A5 & A6 & r & A7 & A8 & A9 & A10 & A11 & A12).
    assert (EF : narc_fntb d = 0x1C + 8 * count) by (unfold narc_fntb; lia). assert (E4 : narc_fntb d + 4 = 0x20 + 8 * count) by lia. assert (EG : narc_fimg d = 0x24 + 8 * count + zlen nt) by (unfold narc_fimg; rewrite E4; lia).
    rewrite FS in A7, A12, TOT. destruct (written d count B ltac:(lia) CL P2 r (Z.to_nat count) 0 ltac:(lia)) as (G1 & _ & G3 & G4).
    { change (narc_next d (Z.of_nat 0)) with 0. lia. }
    { change (narc_next d (Z.of_nat 0)) with 0. lia. }
    { change (narc_next d (Z.of_nat 0)) with 0. exact A7. }
    { change (narc_next d (Z.of_nat 0)) with 0. rewrite <- A12. f_equal. lia. }
    unfold exact_narc. cbv zeta. fold count. split; [apply BE; split; assumption|]. do 4 (split; [assumption|]). split; [exact G1|]. split.
    { exists (rep 0xFF ((- zlen t) mod 4)). split; [|split; [apply zlen_rep; pose proof (Z.mod_pos_bound (- zlen t) 4); lia|apply rep_all]]. rewrite E4, A9. replace (zlen nt + 8 - 8) with (zlen nt) by lia. replace (narc_fntb d + 8) with (0x24 + 8 * count) by lia. exact A10. }
    split; [rewrite EG; replace (0x24 + 8 * count + zlen nt + 4) with (0x28 + 8 * count + zlen nt) by lia; rewrite A11, FS; lia|]. split; [exact G3|]. exact G4.
  - intros (t & ST & A0 & A3 & A4 & A5 & A6 & G1 & (fill & A10 & LF & AF) & A11 & A12 & G4). fold count in A6, G1, A12, G4. pose proof (word_range d 8 B ltac:(lia) ltac:(lia)) as R8. apply BE in A0 as (A1 & A2).
    assert (EN : part d (narc_fntb d + 8) (word d (narc_fntb d + 4) - 8) = pad_to 4 0xFF t) by (rewrite A10; unfold pad_to; f_equal; apply all_rep; assumption). set (nt := pad_to 4 0xFF t) in *.
    assert (EF : narc_fntb d = 0x1C + 8 * count) by (unfold narc_fntb; lia). assert (E4 : narc_fntb d + 4 = 0x20 + 8 * count) by lia.
    assert (W8 : 8 <= word d (narc_fntb d + 4)).
    { destruct (Z.le_gt_cases 8 (word d (narc_fntb d + 4))) as [Q|Q]; [exact Q|]. exfalso. unfold part in LD. replace (Z.to_nat (word d (narc_fntb d + 4) - 8)) with 0%nat in LD by lia. cbn [firstn] in LD. destruct depth; discriminate. }
    assert (LN : zlen nt = word d (narc_fntb d + 4) - 8) by (rewrite <- EN; apply zlen_part; [lia|lia|]; unfold narc_fimg in GL; lia).
    assert (EG : narc_fimg d = 0x24 + 8 * count + zlen nt) by (unfold narc_fimg; lia).
    destruct (rewritten d count B ltac:(lia) CL P2 G1 A12 G4 (Z.to_nat count) 0 ltac:(lia)) as (B1 & B2 & B3). change (narc_next d (Z.of_nat 0)) with 0 in *. rewrite <- FS in B1, B2, B3.
    assert (TOT : 44 + 8 * count + zlen nt + zlen (body (nFiles n)) = zlen d) by lia. assert (SZ : zlen d < 4294967296) by lia.
    assert (EDB : d = narc_bytes n nt (zlen d)).
    { apply (CUT nt SZ TOT). repeat (split; [assumption|]). exists (rest d (0x1C + 8 * count)). split; [exact B2|]. split; [reflexivity|]. split; [rewrite <- E4; lia|].
      split; [rewrite <- EN at 2; rewrite LN; f_equal; lia|]. split; [replace (0x28 + 8 * count + zlen nt) with (narc_fimg d + 4) by lia; rewrite A11; lia|]. rewrite <- B3. f_equal. lia. }
    destruct (narc_save_from n t ST) as (d' & SD); [fold nt; lia|]. rewrite SD. f_equal. apply narc_save_inv in SD as (t' & ST' & ED' & _). rewrite ST in ST'. apply SeqRead.ok_inj in ST'. subst t'. fold nt in ED'.
    assert (LL : zlen d' = zlen d).
    { apply (f_equal zlen) in ED'. unfold narc_bytes in ED'. rewrite !zlen_app, !zlen_le, zlen_fats, ZF in ED'. change (zlen (asc "NARC")) with 4 in ED'. change (zlen (asc "BTAF")) with 4 in ED'. change (zlen (asc "BTNF")) with 4 in ED'. change (zlen (asc "GMIF")) with 4 in ED'. lia. }
    rewrite ED', EDB, LL. rewrite <- EDB. reflexivity.
Qed.

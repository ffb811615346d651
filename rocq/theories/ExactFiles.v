(** Which touch area files, image position files and archives are reproduced, proofs for C124. *)
From Coq Require Import String.
From Verif Require Import PyBase PyLemmas PyTac CommonModel CommonLemmas BnModel FntModel NarcModel NarcLemmas RomSpec ViewSpec ViewLemmas ViewFiles ExactSpec Exact ExactStrm.

Lemma cut_rows d m (g : nat -> bytes) : 0 <= m -> (forall i, zlen (g i) = m) -> forall n k o r, 0 <= o ->
  rest d o = concat (map g (seq k n)) ++ r <-> (forall i, (i < n)%nat -> part d (o + m * Z.of_nat i) m = g (k + i)%nat) /\ rest d (o + m * Z.of_nat n) = r.
Proof.
  intros M G. induction n as [|n IH]; intros k o r O.
  - cbn [seq map concat app]. replace (o + m * Z.of_nat 0) with o by lia. split; [intros H; split; [intros i I; lia|exact H]|intros (_ & H); exact H].
  - cbn [seq map concat]. rewrite <- app_assoc, (cut d o m _ _ (G k) O), IH by lia. replace (o + m + m * Z.of_nat n) with (o + m * Z.of_nat (S n)) by lia. split.
    + intros (E & F & R). split; [|exact R]. intros [|i] I; [rewrite Nat.add_0_r; replace (o + m * Z.of_nat 0) with o by lia; exact E|]. rewrite <- Nat.add_succ_comm, <- F by lia. f_equal. lia.
    + intros (F & R). split; [specialize (F 0%nat ltac:(lia)); rewrite Nat.add_0_r in F; replace (o + m * Z.of_nat 0) with o in F by lia; exact F|]. split; [|exact R].
      intros i I. specialize (F (S i) ltac:(lia)). rewrite <- Nat.add_succ_comm in F. rewrite <- F. f_equal. lia.
Qed.
(** the bits that are kept *)
Definition kept (v : Z) : Z := if v / 4096 mod 4 =? 3 then v mod 4096 else v mod 16384.
Lemma kept_range v : 0 <= kept v < 65536.
Proof. unfold kept. destruct (_ =? _); lia. Qed.
Lemma kept_id v : 0 <= v < 65536 -> v = kept v <-> v < 0x3000.
Proof. intros V. unfold kept. destruct (Z.eqb_spec (v / 4096 mod 4) 3); lia. Qed.
Lemma pack_kept x y : 0 <= x < 65536 -> 0 <= y < 65536 -> packAlignmentIntoPos (x mod 4096) (y mod 4096) (h_align x + v_align y) = (kept x, kept y).
Proof.
  intros X Y. unfold packAlignmentIntoPos, h_align, v_align, kept. rewrite !land_fff, !Z.mod_mod by lia.
  pose proof (lor_add_12 (x mod 4096) 1 ltac:(lia)) as X1. pose proof (lor_add_12 (x mod 4096) 2 ltac:(lia)) as X2. pose proof (lor_add_12 (y mod 4096) 1 ltac:(lia)) as Y1. pose proof (lor_add_12 (y mod 4096) 2 ltac:(lia)) as Y2.
  change (Z.shiftl 1 12) with 0x1000 in *. change (Z.shiftl 2 12) with 0x2000 in *.
  assert (A : x / 4096 mod 4 = 0 \/ x / 4096 mod 4 = 1 \/ x / 4096 mod 4 = 2 \/ x / 4096 mod 4 = 3) by lia. assert (C : y / 4096 mod 4 = 0 \/ y / 4096 mod 4 = 1 \/ y / 4096 mod 4 = 2 \/ y / 4096 mod 4 = 3) by lia.
  destruct A as [A|[A|[A|A]]]; destruct C as [C|[C|[C|C]]]; rewrite A, C; cbv iota; repeat match goal with |- context [Z.land (?p + ?q) ?r] => let v := eval vm_compute in (Z.land (p + q) r) in change (Z.land (p + q) r) with v end; cbn [Z.eqb Pos.eqb negb]; rewrite ?X1, ?X2, ?Y1, ?Y2; f_equal; lia.
Qed.

Lemma area_kept d o : is_bytes d -> 0 <= o -> o + 6 <= zlen d ->
  touchArea_save (area_at d o) = Ok (le 2 (kept (half d o)) ++ le 2 (kept (half d (o + 2))) ++ le 1 (byte d (o + 4)) ++ le 1 (byte d (o + 5))).
Proof.
  intros B O L. unfold touchArea_save, area_at. cbn [taX taY taW taH taAlign]. rewrite pack_kept by (apply half_range; [exact B|lia|lia]).
  pose proof (kept_range (half d o)). pose proof (kept_range (half d (o + 2))). pose proof (byte_range d (o + 4) B ltac:(lia)). pose proof (byte_range d (o + 5) B ltac:(lia)). do_pack. reflexivity.
Qed.
Lemma position_kept d o : is_bytes d -> 0 <= o -> o + 8 <= zlen d ->
  imagePosition_save (position_at d o) = Ok (le 2 (kept (half d o)) ++ le 2 (kept (half d (o + 2))) ++ le 4 (word d (o + 4))).
Proof.
  intros B O L. unfold imagePosition_save, position_at. cbn [ipX ipY ipImageID ipAlign]. rewrite pack_kept by (apply half_range; [exact B|lia|lia]).
  pose proof (kept_range (half d o)). pose proof (kept_range (half d (o + 2))). pose proof (word_range d (o + 4) B ltac:(lia) ltac:(lia)). do_pack. reflexivity.
Qed.
Lemma part_word d o : is_bytes d -> 0 <= o -> o + 4 <= zlen d -> part d o 4 = le 4 (word d o).
Proof. intros B O L. apply (part_le d o 4); [exact B|exact O|lia|apply word_range; [exact B|lia|lia]|symmetry; apply word_part; lia]. Qed.
Lemma part_byte d o : is_bytes d -> 0 <= o -> o + 1 <= zlen d -> part d o 1 = le 1 (byte d o).
Proof. intros B O L. apply (part_le d o 1); [exact B|exact O|lia|apply byte_range; [exact B|lia]|symmetry; apply byte_part; lia]. Qed.
Lemma part_half d o v : is_bytes d -> 0 <= o -> o + 2 <= zlen d -> 0 <= v < 65536 -> part d o 2 = le 2 v <-> half d o = v.
Proof. intros B O L V. rewrite half_part by exact O. apply (part_le d o 2); [exact B|exact O|lia|exact V]. Qed.
Lemma part_split d o n x y : 0 <= o -> zlen x + zlen y = n -> part d o n = x ++ y <-> part d o (zlen x) = x /\ part d (o + zlen x) (zlen y) = y.
Proof.
  intros O <-. pose proof (zlen_nonneg x). pose proof (zlen_nonneg y). unfold part. replace (Z.to_nat (zlen x + zlen y)) with (List.length x + List.length y)%nat by (unfold zlen; lia). rewrite firstn_plus.
  replace (Z.to_nat (o + zlen x)) with (Z.to_nat o + List.length x)%nat by (unfold zlen; lia). rewrite <- skipn_skipn_. replace (Z.to_nat (zlen x)) with (List.length x) by (unfold zlen; lia). replace (Z.to_nat (zlen y)) with (List.length y) by (unfold zlen; lia).
  set (l := skipn (Z.to_nat o) d). split; [|intros (-> & ->); reflexivity]. intros E.
  assert (LL : List.length (firstn (List.length x) l) = List.length x).
  { apply (f_equal (@List.length Z)) in E. rewrite !app_length, !firstn_length, skipn_length in E. rewrite firstn_length. lia. }
  split; [apply (f_equal (firstn (List.length x))) in E|apply (f_equal (skipn (List.length x))) in E].
  - rewrite !firstn_app_exact in E by (rewrite ?LL; reflexivity). exact E.
  - rewrite !skipn_app_exact in E by (rewrite ?LL; reflexivity). exact E.
Qed.
Lemma bnbl_exact d b : is_bytes d -> bnbl_load d = Ok b -> bnbl_save b = Ok d <-> exact_places d 6.
Proof.
  intros B H. apply bnbl_view in H as (M & L & L2 & ->); [|exact B]. pose proof (half_range d 4 B ltac:(lia) ltac:(lia)) as R4. pose proof (half_range d 6 B ltac:(lia) ltac:(lia)) as R6.
  set (g := fun i : nat => le 2 (kept (half d (8 + 6 * Z.of_nat i))) ++ le 2 (kept (half d (8 + 6 * Z.of_nat i + 2))) ++ le 1 (byte d (8 + 6 * Z.of_nat i + 4)) ++ le 1 (byte d (8 + 6 * Z.of_nat i + 5))).
  assert (LG : forall i, zlen (g i) = 6) by (intros i; unfold g; rewrite !zlen_app, !zlen_le; reflexivity).
  unfold bnbl_save. cbn [blUnk04 blAreas]. rewrite zlen_map. assert (LS : zlen (seq 0 (Z.to_nat (half d 6))) = half d 6) by (unfold zlen; rewrite seq_length; lia). rewrite LS. do_pack. cbn [bind].
  assert (E : mapM touchArea_save (map (fun i => area_at d (8 + 6 * Z.of_nat i)) (seq 0 (Z.to_nat (half d 6)))) = Ok (map g (seq 0 (Z.to_nat (half d 6))))).
  { generalize (fun i (I : In i (seq 0 (Z.to_nat (half d 6)))) => proj1 (in_seq _ _ _) I). generalize (seq 0 (Z.to_nat (half d 6))). intros l LI. induction l as [|i l IH]; [reflexivity|]. cbn [map mapM]. rewrite area_kept; [|exact B|lia|specialize (LI i (or_introl eq_refl)); lia].
    cbn [bind]. rewrite IH by (intros j J; apply LI; right; exact J). reflexivity. }
  rewrite E. cbn [bind]. transitivity (d = asc "JNBL" ++ (le 2 (half d 4) ++ le 2 (half d 6)) ++ concat (map g (seq 0 (Z.to_nat (half d 6)))) ++ []).
  { rewrite app_nil_r. split; [intros Q; apply SeqRead.ok_inj in Q; symmetry; exact Q|intros Q; rewrite <- Q; reflexivity]. }
  rewrite <- app_assoc. rewrite <- (rest0 d) at 1. rewrite (cut d 0 4) by (reflexivity || lia). change (0 + 4) with 4. do 2 cutw. rewrite (cut_rows d 6 g) by (lia || exact LG). rewrite Z2Nat.id by lia.
  unfold exact_places. assert (EB : forall i, 0 <= i < half d 6 -> part d (8 + 6 * i) 6 = g (Z.to_nat i) <-> half d (8 + 6 * i) < 0x3000 /\ half d (8 + 6 * i + 2) < 0x3000).
  { intros i I. unfold g. rewrite Z2Nat.id by lia. pose proof (kept_range (half d (8 + 6 * i))). pose proof (kept_range (half d (8 + 6 * i + 2))). pose proof (byte_range d (8 + 6 * i + 4) B ltac:(lia)). pose proof (byte_range d (8 + 6 * i + 5) B ltac:(lia)).
    rewrite !part_split by (rewrite ?zlen_app, ?zlen_le; lia). rewrite !zlen_le. change (Z.of_nat 2) with 2. change (Z.of_nat 1) with 1. rewrite !part_half by first [exact B|lia].
    replace (8 + 6 * i + 2 + 2) with (8 + 6 * i + 4) by lia. replace (8 + 6 * i + 4 + 1) with (8 + 6 * i + 5) by lia. rewrite !part_byte by first [exact B|lia]. rewrite !kept_id by (apply half_range; [exact B|lia|lia]). tauto. }
  split.
  - intros (_ & _ & _ & F & R). split; [apply (f_equal zlen) in R; rewrite zlen_rest in R by lia; change (zlen (@nil Z)) with 0 in R; lia|]. intros i I. apply EB; [exact I|]. specialize (F (Z.to_nat i) ltac:(lia)). rewrite Z2Nat.id in F by lia. exact F.
  - intros (LD & F). split; [exact M|]. split; [reflexivity|]. split; [reflexivity|]. split; [|unfold rest; apply skipn_all2; unfold zlen in LD; lia].
    intros i I. cbn [Nat.add]. specialize (F (Z.of_nat i) ltac:(lia)). apply EB in F; [|lia]. rewrite Nat2Z.id in F. exact F.
Qed.
Lemma bncl_exact d b : is_bytes d -> bncl_load d = Ok b -> bncl_save b = Ok d <-> exact_places d 8.
Proof.
  intros B H. apply bncl_view in H as (M & L & L2 & ->); [|exact B]. pose proof (half_range d 4 B ltac:(lia) ltac:(lia)) as R4. pose proof (half_range d 6 B ltac:(lia) ltac:(lia)) as R6.
  set (g := fun i : nat => le 2 (kept (half d (8 + 8 * Z.of_nat i))) ++ le 2 (kept (half d (8 + 8 * Z.of_nat i + 2))) ++ le 4 (word d (8 + 8 * Z.of_nat i + 4))).
  assert (LG : forall i, zlen (g i) = 8) by (intros i; unfold g; rewrite !zlen_app, !zlen_le; reflexivity).
  unfold bncl_save. cbn [clUnk04 clPositions]. rewrite zlen_map. assert (LS : zlen (seq 0 (Z.to_nat (half d 6))) = half d 6) by (unfold zlen; rewrite seq_length; lia). rewrite LS. do_pack. cbn [bind].
  assert (E : mapM imagePosition_save (map (fun i => position_at d (8 + 8 * Z.of_nat i)) (seq 0 (Z.to_nat (half d 6)))) = Ok (map g (seq 0 (Z.to_nat (half d 6))))).
  { generalize (fun i (I : In i (seq 0 (Z.to_nat (half d 6)))) => proj1 (in_seq _ _ _) I). generalize (seq 0 (Z.to_nat (half d 6))). intros l LI. induction l as [|i l IH]; [reflexivity|]. cbn [map mapM]. rewrite position_kept; [|exact B|lia|specialize (LI i (or_introl eq_refl)); lia].
    cbn [bind]. rewrite IH by (intros j J; apply LI; right; exact J). reflexivity. }
  rewrite E. cbn [bind]. transitivity (d = asc "JNCL" ++ (le 2 (half d 4) ++ le 2 (half d 6)) ++ concat (map g (seq 0 (Z.to_nat (half d 6)))) ++ []).
  { rewrite app_nil_r. split; [intros Q; apply SeqRead.ok_inj in Q; symmetry; exact Q|intros Q; rewrite <- Q; reflexivity]. }
  rewrite <- app_assoc. rewrite <- (rest0 d) at 1. rewrite (cut d 0 4) by (reflexivity || lia). change (0 + 4) with 4. do 2 cutw. rewrite (cut_rows d 8 g) by (lia || exact LG). rewrite Z2Nat.id by lia.
  unfold exact_places. assert (EB : forall i, 0 <= i < half d 6 -> part d (8 + 8 * i) 8 = g (Z.to_nat i) <-> half d (8 + 8 * i) < 0x3000 /\ half d (8 + 8 * i + 2) < 0x3000).
  { intros i I. unfold g. rewrite Z2Nat.id by lia. pose proof (kept_range (half d (8 + 8 * i))). pose proof (kept_range (half d (8 + 8 * i + 2))). pose proof (word_range d (8 + 8 * i + 4) B ltac:(lia) ltac:(lia)).
    rewrite !part_split by (rewrite ?zlen_app, ?zlen_le; lia). rewrite !zlen_le. change (Z.of_nat 2) with 2. change (Z.of_nat 4) with 4. rewrite !part_half by first [exact B|lia].
    replace (8 + 8 * i + 2 + 2) with (8 + 8 * i + 4) by lia. rewrite !part_word by first [exact B|lia]. rewrite !kept_id by (apply half_range; [exact B|lia|lia]). tauto. }
  split.
  - intros (_ & _ & _ & F & R). split; [apply (f_equal zlen) in R; rewrite zlen_rest in R by lia; change (zlen (@nil Z)) with 0 in R; lia|]. intros i I. apply EB; [exact I|]. specialize (F (Z.to_nat i) ltac:(lia)). rewrite Z2Nat.id in F by lia. exact F.
  - intros (LD & F). split; [exact M|]. split; [reflexivity|]. split; [reflexivity|]. split; [|unfold rest; apply skipn_all2; unfold zlen in LD; lia].
    intros i I. cbn [Nat.add]. specialize (F (Z.of_nat i) ltac:(lia)). apply EB in F; [|lia]. rewrite Nat2Z.id in F. exact F.
Qed.

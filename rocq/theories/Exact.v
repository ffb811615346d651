(** Which wave files are reproduced, proofs for C124. *)
From Coq Require Import String.
From Verif Require Import PyBase PyLemmas PyTac CommonModel WaveModel WaveLemmas RomSpec ViewSpec ViewLemmas ViewFiles ViewWave ExactSpec.

Definition rest (d : bytes) (o : Z) : bytes := skipn (Z.to_nat o) d.
Lemma rest0 d : rest d 0 = d. Proof. reflexivity. Qed.
Lemma cut d o n x r : zlen x = n -> 0 <= o -> rest d o = x ++ r <-> part d o n = x /\ rest d (o + n) = r.
Proof.
  intros <- O. unfold rest, part. replace (Z.to_nat (o + zlen x)) with (Z.to_nat o + List.length x)%nat by (unfold zlen; lia). rewrite <- skipn_skipn_.
  replace (Z.to_nat (zlen x)) with (List.length x) by (unfold zlen; lia). split.
  - intros ->. split; [apply firstn_app_exact; reflexivity|apply skipn_app_exact; reflexivity].
  - intros (A & B). rewrite <- A at 1. rewrite <- B. symmetry. apply firstn_skipn.
Qed.
Lemma part_le d o n v : is_bytes d -> 0 <= o -> o + Z.of_nat n <= zlen d -> 0 <= v < 256 ^ Z.of_nat n -> part d o (Z.of_nat n) = le n v <-> unle (part d o (Z.of_nat n)) = v.
Proof.
  intros B O L V. split; [intros ->; apply unle_le_id; exact V|]. intros <-. symmetry. apply le_unle_n; [apply is_bytes_part, B|]. pose proof (zlen_part d o (Z.of_nat n) ltac:(lia) ltac:(lia) L) as E. unfold zlen in E. lia.
Qed.
Lemma cut4 d o v r : is_bytes d -> 0 <= o -> o + 4 <= zlen d -> 0 <= v < 4294967296 -> rest d o = le 4 v ++ r <-> word d o = v /\ rest d (o + 4) = r.
Proof. intros B O L V. rewrite (cut d o 4) by (rewrite ?zlen_le; lia). rewrite (part_le d o 4 v B) by (p256; lia). rewrite word_part by exact O. reflexivity. Qed.
Lemma cut2 d o v r : is_bytes d -> 0 <= o -> o + 2 <= zlen d -> 0 <= v < 65536 -> rest d o = le 2 v ++ r <-> half d o = v /\ rest d (o + 2) = r.
Proof. intros B O L V. rewrite (cut d o 2) by (rewrite ?zlen_le; lia). rewrite (part_le d o 2 v B) by (p256; lia). rewrite half_part by exact O. reflexivity. Qed.
Lemma byte_part d o : 0 <= o < zlen d -> byte d o = unle (part d o 1).
Proof. intros O. unfold part. rewrite skipn_byte by exact O. change (Z.to_nat 1) with 1%nat. cbn [firstn unle]. lia. Qed.
Lemma cut1 d o v r : is_bytes d -> 0 <= o < zlen d -> 0 <= v < 256 -> rest d o = le 1 v ++ r <-> byte d o = v /\ rest d (o + 1) = r.
Proof. intros B O V. rewrite (cut d o 1) by (rewrite ?zlen_le; lia). rewrite (part_le d o 1 v B) by (p256; lia). rewrite byte_part by exact O. reflexivity. Qed.
Lemma rest_part d o : 0 <= o -> rest d o = part d o (zlen d - o).
Proof. intros O. unfold rest, part. symmetry. apply firstn_all2. rewrite skipn_length. unfold zlen. lia. Qed.
Lemma zlen_rest d o : 0 <= o <= zlen d -> zlen (rest d o) = zlen d - o.
Proof. intros O. unfold rest. rewrite zlen_skipn. lia. Qed.

Lemma cut_head d m s n r : is_bytes d -> List.length m = 4%nat -> part d 0 4 = m -> half d 6 = 0x100 -> 16 <= zlen d -> 0 <= s < 4294967296 -> 0 <= n < 65536 ->
  d = std_bytes m 0x100 s n ++ r <-> half d 4 = 0xFEFF /\ word d 8 = s /\ half d 12 = 0x10 /\ half d 14 = n /\ rest d 16 = r.
Proof.
  intros B LM M V L S N. unfold std_bytes. rewrite <- !app_assoc. rewrite <- (rest0 d) at 1. rewrite (cut d 0 4) by (unfold zlen; lia). cbn [Z.add].
  rewrite cut2 by first [exact B|lia]. cbn [Z.add Pos.add Pos.succ]. rewrite cut2 by first [exact B|lia]. cbn [Z.add Pos.add Pos.succ]. rewrite cut4 by first [exact B|lia]. cbn [Z.add Pos.add Pos.succ].
  rewrite cut2 by first [exact B|lia]. cbn [Z.add Pos.add Pos.succ]. rewrite cut2 by first [exact B|lia]. cbn [Z.add Pos.add Pos.succ]. tauto.
Qed.
Lemma b2b_flag v : 0 <= v < 256 -> v = b2b (negb (v =? 0)) <-> v <= 1.
Proof. intros V. destruct (Z.eqb_spec v 0); cbn; lia. Qed.
Lemma cut_info d o n w r : is_bytes d -> 0 <= o -> o + 12 <= zlen d -> wave_at d o n w ->
  rest d o = info_bytes w ++ r <-> byte d (o + 1) <= 1 /\ rest d (o + 12) = r.
Proof.
  intros B O L (T & F & R & M & P & U & _). unfold info_bytes. rewrite <- !app_assoc. pose proof (wt_val_range (wType w)).
  pose proof (half_range d (o + 2) B ltac:(lia) ltac:(lia)). pose proof (half_range d (o + 4) B ltac:(lia) ltac:(lia)). pose proof (half_range d (o + 6) B ltac:(lia) ltac:(lia)). pose proof (word_range d (o + 8) B ltac:(lia) ltac:(lia)).
  pose proof (byte_range d (o + 1) B ltac:(lia)).
  rewrite cut1 by first [exact B|lia]. rewrite cut1 by first [exact B|destruct (wLooped w); cbn; lia|lia]. replace (o + 1 + 1) with (o + 2) by lia. rewrite cut2 by first [exact B|lia]. replace (o + 2 + 2) with (o + 4) by lia.
  rewrite cut2 by first [exact B|lia]. replace (o + 4 + 2) with (o + 6) by lia. rewrite cut2 by first [exact B|lia]. replace (o + 6 + 2) with (o + 8) by lia.
  rewrite cut4 by first [exact B|lia]. replace (o + 8 + 4) with (o + 12) by lia. rewrite F. rewrite b2b_flag by assumption. intuition lia.
Qed.

(** ** waves *)
Lemma swav_exact d w : is_bytes d -> swav_load d = Ok w -> swav_save0 w = Ok d <-> exact_swav d.
Proof.
  intros B L. pose proof (swav_load_ok d w B L) as OK. apply swav_view in L as (((L0 & M & V & D) & L1) & W); [|exact B]. rewrite (swav_save0_ok w OK).
  assert (WD : wData w = part d 0x24 (word d 8 - 0x24)) by (destruct W as (_ & _ & _ & _ & _ & _ & ->); f_equal; lia).
  pose proof (word_range d 8 B ltac:(lia) ltac:(lia)) as R8. pose proof (zlen_nonneg (wData w)) as Z0. destruct OK as (_ & _ & _ & _ & OL).
  assert (E : swav_bytes w = d <-> half d 4 = 0xFEFF /\ word d 8 = 0x24 + zlen (wData w) /\ half d 12 = 0x10 /\ half d 14 = 1 /\ word d 0x14 = 0x14 + zlen (wData w) /\ byte d 0x19 <= 1 /\ rest d 0x24 = wData w).
  { split; intros H; [symmetry in H|symmetry]; revert H; unfold swav_bytes; rewrite (cut_head d) by first [exact B|exact M|exact V|reflexivity|lia];
      rewrite (cut d 0x10 4) by (reflexivity || lia); cbn [Z.add Pos.add Pos.succ]; rewrite cut4 by first [exact B|lia]; cbn [Z.add Pos.add Pos.succ];
      rewrite (cut_info d 0x18 _ w _ B ltac:(lia) ltac:(lia) W); cbn [Z.add Pos.add Pos.succ]; tauto. }
  transitivity (swav_bytes w = d); [split; intros H; [apply SeqRead.ok_inj; exact H|rewrite H; reflexivity]|]. rewrite E. unfold exact_swav, exact_head. pose proof (zlen_rest d 0x24 ltac:(lia)) as LR. rewrite rest_part in * by lia. split.
  - intros (A & S & C & N & P & F & R). assert (zlen (wData w) = zlen d - 0x24) by (rewrite <- R; exact LR). repeat split; lia.
  - intros ((A & S & C & N) & P & F). rewrite WD, S. repeat split; lia.
Qed.

(** ** wave archives *)
Lemma cut_les d vs : is_bytes d -> forall o r, 0 <= o -> o + 4 * zlen vs <= zlen d -> Forall (fun v => 0 <= v < 4294967296) vs ->
  rest d o = concat (map (le 4) vs) ++ r <-> (forall i v, nth_error vs i = Some v -> word d (o + 4 * Z.of_nat i) = v) /\ rest d (o + 4 * zlen vs) = r.
Proof.
  intros B. induction vs as [|v vs IH]; intros o r O L F.
  - cbn [map concat app]. change (zlen (@nil Z)) with 0. rewrite Z.add_0_r. split; [intros H; split; [intros [|i] v; discriminate|exact H]|intros (_ & H); exact H].
  - cbn [map concat]. rewrite zlen_cons in *. pose proof (zlen_nonneg vs). apply Forall_cons_iff in F as (V & F). rewrite <- app_assoc, cut4 by first [exact B|lia]. rewrite IH by first [exact F|lia]. replace (o + 4 + 4 * zlen vs) with (o + 4 * (1 + zlen vs)) by lia.
    split.
    + intros (E & G & R). split; [|exact R]. intros [|i] x X; [injection X as <-; rewrite Z.add_0_r; exact E|]. rewrite <- (G i x X). f_equal. lia.
    + intros (G & R). split; [rewrite <- (G 0%nat v eq_refl); f_equal; lia|]. split; [|exact R]. intros i x X. rewrite <- (G (S i) x X). f_equal. lia.
Qed.
Lemma byte_nth d o n i : 0 <= o -> 0 <= i < n -> o + n <= zlen d -> nth (Z.to_nat i) (part d o n) 0 = byte d (o + i).
Proof.
  intros O I L. unfold part, byte. rewrite <- (firstn_skipn (Z.to_nat o) d) at 2. rewrite app_nth2 by (rewrite firstn_length; lia). rewrite firstn_length. unfold zlen in L.
  replace (Z.to_nat (o + i) - Nat.min (Z.to_nat o) (List.length d))%nat with (Z.to_nat i) by lia.
  rewrite <- (firstn_skipn (Z.to_nat n) (skipn (Z.to_nat o) d)) at 2. rewrite app_nth1 by (rewrite firstn_length, skipn_length; lia). reflexivity.
Qed.
Lemma part_rep d o n x : 0 <= o -> 0 <= n -> o + n <= zlen d -> part d o n = rep x n <-> forall i, o <= i < o + n -> byte d i = x.
Proof.
  intros O N L. split.
  - intros E i I. replace i with (o + (i - o)) by lia. rewrite <- (byte_nth d o n (i - o)) by lia. rewrite E. unfold rep.
    apply (repeat_spec (Z.to_nat n) x). apply nth_In. rewrite repeat_length. lia.
  - intros H. apply nth_ext with (d := 0) (d' := 0).
    + pose proof (zlen_part d o n O N L) as E. unfold rep. rewrite repeat_length. unfold zlen in E. lia.
    + intros i I. pose proof (zlen_part d o n O N L) as E. unfold zlen in E. assert (I2 : (i < Z.to_nat n)%nat) by lia.
      rewrite <- (Nat2Z.id i) at 1. rewrite (byte_nth d o n) by lia. rewrite H by lia. symmetry. unfold rep. apply (repeat_spec (Z.to_nat n) x). apply nth_In. rewrite repeat_length. exact I2.
Qed.
Lemma chunks_exact d (n : Z) : is_bytes d -> word d 8 = zlen d -> word d 0x38 = n -> forall ws k, ws <> [] -> Z.of_nat k + zlen ws = n ->
  (forall i w, nth_error ws i = Some w -> 0x44 + 4 * Z.of_nat (k + i) <= zlen d /\ 12 <= swar_stop d (k + i) - swar_start d (k + i) /\
    swar_start d (k + i) + 12 <= zlen d /\ wave_at d (swar_start d (k + i)) (swar_stop d (k + i) - swar_start d (k + i)) w) ->
  offs (swar_start d k) ws = map (swar_start d) (seq k (List.length ws)) /\ swar_start d k + chunks_len ws = zlen d /\
  (rest d (swar_start d k) = concat (map chunk ws) <-> forall i, (i < List.length ws)%nat -> byte d (swar_start d (k + i) + 1) <= 1).
Proof.
  intros B E8 E38. induction ws as [|w ws IH]; intros k N K W; [congruence|]. clear N. rewrite zlen_cons in K. pose proof (W 0%nat w eq_refl) as (A & G & S0 & V). rewrite Nat.add_0_r in *.
  assert (R0 : 0 <= swar_start d k) by (unfold swar_start; apply word_range; [exact B|lia|lia]).
  assert (SE : swar_stop d k <= zlen d).
  { unfold swar_stop. rewrite E38. destruct (Z.eqb_spec (Z.of_nat k) (n - 1)) as [Q|Q]; [lia|]. destruct ws as [|w1 ws]; [change (zlen (@nil swav)) with 0 in K; lia|].
    pose proof (W 1%nat w1 eq_refl) as (_ & _ & S1 & _). unfold swar_start in S1. replace (0x3C + 4 * Z.of_nat (k + 1)) with (0x40 + 4 * Z.of_nat k) in S1 by lia. lia. }
  assert (WD : wData w = part d (swar_start d k + 12) (swar_stop d k - swar_start d k - 12)) by apply V.
  assert (LW : zlen (wData w) = swar_stop d k - swar_start d k - 12) by (rewrite WD, zlen_part by lia; reflexivity).
  assert (C1 : forall r, rest d (swar_start d k) = chunk w ++ r <-> byte d (swar_start d k + 1) <= 1 /\ rest d (swar_stop d k) = r).
  { intros r. unfold chunk. rewrite <- app_assoc, (cut_info d _ _ w _ B R0 S0 V). rewrite (cut d _ (swar_stop d k - swar_start d k - 12)) by lia. replace (swar_start d k + 12 + (swar_stop d k - swar_start d k - 12)) with (swar_stop d k) by lia. rewrite WD. tauto. }
  cbn [offs List.length seq map concat]. rewrite chunks_len_cons, LW, C1. destruct ws as [|w1 ws].
  - assert (Q : swar_stop d k = zlen d) by (unfold swar_stop; rewrite E38; change (zlen (@nil swav)) with 0 in K; rewrite (proj2 (Z.eqb_eq _ _)) by lia; exact E8).
    split; [reflexivity|]. split; [unfold chunks_len; cbn; unfold zlen at 1; cbn; lia|]. cbn [map concat]. split.
    + intros (H & _) [|i] I; [rewrite Nat.add_0_r; exact H|cbn in I; lia].
    + intros H. split; [specialize (H 0%nat ltac:(cbn; lia)); rewrite Nat.add_0_r in H; exact H|]. rewrite Q. unfold rest. apply skipn_all2. unfold zlen. lia.
  - assert (Q : swar_stop d k = swar_start d (S k)).
    { unfold swar_stop, swar_start. rewrite E38. rewrite zlen_cons in K. pose proof (zlen_nonneg ws). rewrite (proj2 (Z.eqb_neq _ _)) by lia. f_equal. lia. }
    destruct (IH (S k)) as (I1 & I2 & I3); [discriminate|lia|intros i w' X; specialize (W (S i) w' X); rewrite Nat.add_succ_r in W; exact W|].
    replace (swar_start d k + 12 + (swar_stop d k - swar_start d k - 12)) with (swar_start d (S k)) by lia.
    split; [f_equal; exact I1|]. split; [lia|]. rewrite Q, I3. split.
    + intros (H & T) [|i] I; [rewrite Nat.add_0_r; exact H|]. specialize (T i ltac:(cbn [List.length] in *; lia)). rewrite <- Nat.add_succ_comm. exact T.
    + intros H. split; [specialize (H 0%nat ltac:(cbn; lia)); rewrite Nat.add_0_r in H; exact H|]. intros i I. specialize (H (S i) ltac:(cbn [List.length] in *; lia)). rewrite <- Nat.add_succ_comm in H. exact H.
Qed.
Lemma swav_at_ok d o n w : is_bytes d -> 0 <= o -> o + 12 <= zlen d -> wave_at d o n w -> zlen (wData w) + 0x24 < 4294967296 -> swav_ok w.
Proof.
  intros B O L (T & F & R & M & P & U & _) Z0. unfold swav_ok. pose proof (half_range d (o + 2) B ltac:(lia) ltac:(lia)). pose proof (half_range d (o + 4) B ltac:(lia) ltac:(lia)). pose proof (half_range d (o + 6) B ltac:(lia) ltac:(lia)). pose proof (word_range d (o + 8) B ltac:(lia) ltac:(lia)).
  lia.
Qed.
Lemma zlen_swar_bytes ws : zlen (swar_bytes ws) = 0x3C + 4 * zlen ws + chunks_len ws.
Proof. unfold swar_bytes. rewrite !zlen_app, zlen_std, !zlen_le, zlen_offsets, zlen_zeros by lia. unfold chunks_len. change (zlen (asc "SWAR")) with 4. change (zlen (asc "DATA")) with 4. lia. Qed.
Lemma in_split_chunk ws w : In w ws -> 12 + zlen (wData w) + 12 * (zlen ws - 1) <= chunks_len ws.
Proof.
  induction ws as [|x ws IH]; intros I; [destruct I|]. rewrite chunks_len_cons, zlen_cons. pose proof (zlen_nonneg (wData x)). destruct I as [->|I]; [|specialize (IH I); lia].
  clear. induction ws as [|y ws IH]; [change (chunks_len []) with 0; change (zlen (@nil swav)) with 0; lia|]. rewrite chunks_len_cons, zlen_cons. pose proof (zlen_nonneg (wData y)). lia.
Qed.
Lemma swar_exact d u r : is_bytes d -> swar_load d u = Ok r -> swar_save r = Ok (d, u) <-> exact_swar d.
Proof.
  intros B H. apply swar_view in H as (((L0 & M & V & D) & L1) & U & N & W); [|exact B]. set (ws := rWaves r) in *.
  pose proof (zlen_nonneg ws) as PW. pose proof (chunks_len_nonneg ws) as PC.
  assert (H0 : 0x3C + 4 * zlen ws <= zlen d).
  { destruct ws as [|w0 ws0] eqn:E; [change (zlen (@nil swav)) with 0; lia|]. rewrite <- E in *. destruct (nth_error ws (List.length ws - 1)) as [x|] eqn:X; [|apply nth_error_None in X; rewrite E in X; cbn in X; lia].
    specialize (W _ _ X). rewrite E in W at 1. unfold zlen in *. rewrite E in *. cbn [List.length] in *. lia. }
  assert (K : 0x3C + 4 * zlen ws + chunks_len ws < 4294967296 -> (swar_bytes ws = d <-> half d 4 = 0xFEFF /\ word d 8 = 0x3C + 4 * zlen ws + chunks_len ws /\ half d 12 = 0x10 /\ half d 14 = 1 /\
     word d 0x14 = 0x3C + 4 * zlen ws + chunks_len ws - 0x10 /\ (forall i, 0x18 <= i < 0x38 -> byte d i = 0) /\
     (forall i v, nth_error (offs (0x3C + 4 * zlen ws) ws) i = Some v -> swar_start d i = v) /\ rest d (0x3C + 4 * zlen ws) = concat (map chunk ws))).
  { intros LT. assert (RO : Forall (fun v => 0 <= v < 4294967296) (offs (0x3C + 4 * zlen ws) ws)) by (apply Forall_forall; intros v I; apply offs_range in I; lia).
    assert (KK : d = swar_bytes ws <-> half d 4 = 0xFEFF /\ word d 8 = 0x3C + 4 * zlen ws + chunks_len ws /\ half d 12 = 0x10 /\ half d 14 = 1 /\
     word d 0x14 = 0x3C + 4 * zlen ws + chunks_len ws - 0x10 /\ (forall i, 0x18 <= i < 0x38 -> byte d i = 0) /\
     (forall i v, nth_error (offs (0x3C + 4 * zlen ws) ws) i = Some v -> swar_start d i = v) /\ rest d (0x3C + 4 * zlen ws) = concat (map chunk ws)); [|rewrite <- KK; split; intros Q; symmetry; exact Q].
    unfold swar_bytes. cbv zeta. rewrite (cut_head d) by first [exact B|exact M|exact V|reflexivity|lia].
      rewrite (cut d 0x10 4) by (reflexivity || lia); cbn [Z.add Pos.add Pos.succ]; rewrite cut4 by first [exact B|lia]; cbn [Z.add Pos.add Pos.succ].
      rewrite (cut d 0x18 32) by (reflexivity || lia). unfold zeros. rewrite part_rep by lia. cbn [Z.add Pos.add Pos.succ]. rewrite cut4 by first [exact B|lia]. cbn [Z.add Pos.add Pos.succ].
      rewrite cut_les by first [exact B|exact RO|rewrite ?zlen_offs; lia]. rewrite zlen_offs. unfold swar_start. split; [intros (P1 & P2 & P3 & P4 & _ & P5 & P6 & _ & P7 & P8); repeat split; assumption|intros (P1 & P2 & P3 & P4 & P5 & P6 & P7 & P8); repeat split; try assumption; symmetry; assumption]. }
  unfold exact_swar, exact_head. rewrite <- N. split.
  - intros H. pose proof (swar_save_inv _ _ _ H) as OK. rewrite (swar_save_ok r OK) in H. fold ws in H. apply SeqRead.ok_inj in H. assert (E : swar_bytes ws = d) by congruence. destruct OK as (_ & LT). fold ws in LT.
    pose proof (zlen_swar_bytes ws) as ZL. rewrite E in ZL. apply (K LT) in E as (A1 & A2 & A3 & A4 & A5 & A6 & A7 & A8). split; [repeat split; lia|]. split; [lia|]. split; [exact A6|].
    destruct ws as [|w0 ws0] eqn:EW.
    + change (zlen (@nil swav)) with 0 in *. unfold chunks_len in ZL. cbn [map concat] in ZL. change (zlen (@nil Z)) with 0 in ZL. cbn [Z.eqb]. split; [lia|]. intros i I. lia.
    + rewrite <- EW in *. assert (S0 : swar_start d 0 = 0x3C + 4 * zlen ws) by (apply A7; rewrite EW; reflexivity). rewrite (proj2 (Z.eqb_neq _ _)) by (rewrite EW, zlen_cons; pose proof (zlen_nonneg ws0); lia).
      split; [exact S0|]. destruct (chunks_exact d (zlen ws) B ltac:(lia) ltac:(lia) ws 0) as (_ & _ & C); [congruence|lia|exact W|]. rewrite S0 in C. intros i I. pose proof (proj1 C A8 (Z.to_nat i) ltac:(unfold zlen in I; lia)) as F. cbn [Nat.add] in F. unfold swar_start in F. rewrite Z2Nat.id in F by lia. exact F.
  - intros ((A1 & A2 & A3 & A4) & A5 & A6 & A7 & A8). pose proof (word_range d 8 B ltac:(lia) ltac:(lia)) as R8.
    assert (C : zlen d = 0x3C + 4 * zlen ws + chunks_len ws /\ (forall i v, nth_error (offs (0x3C + 4 * zlen ws) ws) i = Some v -> swar_start d i = v) /\ rest d (0x3C + 4 * zlen ws) = concat (map chunk ws)).
    { destruct ws as [|w0 ws0] eqn:EW.
      - change (zlen (@nil swav)) with 0 in *. cbn [Z.eqb] in A7. split; [rewrite A7; reflexivity|]. split; [intros [|i] v; discriminate|]. cbn [map concat]. unfold rest. apply skipn_all2. unfold zlen in A7. lia.
      - rewrite <- EW in *. rewrite (proj2 (Z.eqb_neq _ _)) in A7 by (rewrite EW, zlen_cons; pose proof (zlen_nonneg ws0); lia).
        assert (S0 : swar_start d 0 = 0x3C + 4 * zlen ws) by exact A7. destruct (chunks_exact d (zlen ws) B ltac:(lia) ltac:(lia) ws 0) as (C1 & C2 & C3); [congruence|lia|exact W|]. rewrite S0 in *. split; [lia|]. split.
        + intros i v X. rewrite C1, nth_error_map in X. destruct (nth_error (seq 0 (List.length ws)) i) as [j|] eqn:J; [|discriminate]. injection X as <-.
          assert (I : (i < List.length (seq 0 (List.length ws)))%nat) by (apply nth_error_Some; congruence). rewrite (nth_error_nth' _ 0%nat I) in J. rewrite seq_length in I. rewrite seq_nth in J by exact I. injection J as <-. reflexivity.
        + apply C3. intros i I. specialize (A8 (Z.of_nat i) ltac:(unfold zlen; lia)). exact A8. }
    destruct C as (C1 & C2 & C3). assert (LT : 0x3C + 4 * zlen ws + chunks_len ws < 4294967296) by lia.
    assert (OK : swar_ok r).
    { split; fold ws; [|exact LT]. apply Forall_forall. intros w I. apply In_nth_error in I as (i & I). destruct (W i w I) as (B1 & B2 & B3 & B4).
      apply (swav_at_ok d _ _ w B) with (3 := B4); [unfold swar_start; apply word_range; [exact B|lia|lia]|exact B3|]. pose proof (in_split_chunk ws w (nth_error_In _ _ I)). assert (1 <= zlen ws) by (destruct ws; [destruct i; discriminate|rewrite zlen_cons; pose proof (zlen_nonneg ws); lia]). lia. }
    rewrite (swar_save_ok r OK). fold ws. rewrite U. do 2 f_equal. apply (K LT). repeat split; try assumption; lia.
Qed.

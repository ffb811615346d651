(** Which streams are reproduced, proofs for C124. *)
From Coq Require Import String.
From Verif Require Import PyBase PyLemmas PyTac CommonModel WaveModel WaveLemmas RomSpec ViewSpec ViewLemmas ViewFiles ViewWave ExactSpec Exact.

Ltac adds := repeat match goal with |- context [Zpos ?a + Zpos ?b] => let v := eval compute in (Zpos a + Zpos b) in change (Zpos a + Zpos b) with v end.
Ltac cutw := match goal with B : is_bytes ?d |- context [rest ?d ?o = le 4 ?v ++ ?r] => rewrite (cut4 d o v r B) by lia | B : is_bytes ?d |- context [rest ?d ?o = le 2 ?v ++ ?r] => rewrite (cut2 d o v r B) by lia
  | B : is_bytes ?d |- context [rest ?d ?o = le 1 ?v ++ ?r] => rewrite (cut1 d o v r B) by lia end; adds.
Lemma strm_cut d info s nb pb il : is_bytes d -> strm_load d info = Ok s -> strm_ranges s nb pb il -> 0x68 <= zlen d -> 0 <= nb ->
  d = strm_bytes s nb pb il <-> exact_head d 2 /\ zlen d = 0x68 + zlen (wave (sChannels s) (Z.to_nat nb)) /\ word d 0x14 = 0x50 /\ byte d 0x19 <= 1 /\
    word d 0x24 = (nb - 1) * word d 0x34 + word d 0x3C /\ word d 0x2C = nb /\ word d 0x30 = pb - strm_adj s nb /\ word d 0x38 = il - strm_adj s nb /\
    word d 0x64 = zlen d - 0x60 /\ rest d 0x68 = wave (sChannels s) (Z.to_nat nb).
Proof.
  intros B L R L2 NB. apply strm_view in L as (((L0 & M & V & D) & L1 & A & _ & D2) & T & F & K3 & RT & TM & LP & PB & IL & UN & _ & CH); [|exact B].
  destruct R as (H1 & H2 & H3 & H4 & H5 & H6 & H7 & H8 & H9 & H10 & H11 & H12 & H13). unfold u8r, u16r, u32r in *. pose proof (wt_val_range (sType s)) as HT. pose proof (zlen_nonneg (sChannels s)).
  assert (HB : 0 <= b2b (sLooped s) < 2) by (destruct (sLooped s); cbn; lia). unfold strm_bytes, exact_head. cbv zeta. set (W := wave _ _) in *. pose proof (zlen_nonneg W).
  pose proof (byte_range d 0x1A B ltac:(lia)). pose proof (byte_range d 0x19 B ltac:(lia)) as R19.
  assert (ZC : zlen (sChannels s) = byte d 0x1A) by (rewrite CH, zlen_map; unfold zlen; rewrite seq_length; lia).
  assert (ZU : zlen (sUnks s) = 8) by (rewrite UN; reflexivity).
  assert (D3 : word d 0x14 = 0x50 -> part d 0x60 4 = asc "DATA") by (intros E; unfold strm_data in D2; rewrite E in D2; exact D2).
  assert (LW : rest d 0x68 = W -> zlen d = 0x68 + zlen W) by (intros <-; rewrite zlen_rest by lia; lia).
  rewrite (cut_head d) by first [exact B|exact M|exact V|reflexivity|lia].
  rewrite (cut d 0x10 4) by (reflexivity || lia). adds. cutw. unfold strm_fields. rewrite <- !app_assoc. do 14 cutw.
  rewrite cut_les by first [exact B|exact H12|rewrite ?ZU; lia]. rewrite ZU. change (4 * 8) with 32; adds. rewrite (cut d 0x60 4) by (reflexivity || lia). adds. cutw.
  rewrite F, b2b_flag by exact R19. rewrite PB, IL.
  assert (UE : forall i v, nth_error (sUnks s) i = Some v -> word d (64 + 4 * Z.of_nat i) = v).
  { intros i v X. rewrite UN, nth_error_map in X. destruct (nth_error (seq 0 8) i) as [j|] eqn:J; [|discriminate]. injection X as <-.
    do 8 (destruct i as [|i]; [cbn in J; injection J as <-; reflexivity|]). destruct i; discriminate. }
  split.
  - intros (A1 & A2 & A3 & A4 & _ & A5 & _ & A6 & _ & _ & _ & _ & _ & A7 & _ & A8 & A9 & _ & A10 & _ & _ & _ & A11 & A12). specialize (LW A12). repeat split; try assumption; lia.
  - intros ((A1 & A2 & A3 & A4) & A0 & A5 & A6 & A7 & A8 & A9 & A10 & A11 & A12). specialize (D3 A5). repeat split; try assumption; lia.
Qed.

(** *** the rows of blocks *)
Lemma firstn_plus {A} (l : list A) : forall a b, firstn (a + b) l = firstn a l ++ firstn b (skipn a l).
Proof. induction l as [|x l IH]; intros [|a] b; try reflexivity; [rewrite !firstn_nil; reflexivity|]. cbn. f_equal. apply IH. Qed.
Lemma concat_parts W o n : 0 <= o -> 0 <= n -> forall k c, o + Z.of_nat (c + k) * n <= zlen W -> concat (map (fun c => part W (o + Z.of_nat c * n) n) (seq c k)) = part W (o + Z.of_nat c * n) (Z.of_nat k * n).
Proof.
  intros O N. induction k as [|k IH]; intros c L; [rewrite Z.mul_0_l; reflexivity|].
  assert (0 <= Z.of_nat c * n) by (apply Z.mul_nonneg_nonneg; lia). assert (0 <= Z.of_nat k * n) by (apply Z.mul_nonneg_nonneg; lia).
  cbn [seq map concat]. rewrite IH by (replace (S c + k)%nat with (c + S k)%nat by lia; exact L). replace (Z.of_nat (S c) * n) with (Z.of_nat c * n + n) by lia. replace (Z.of_nat (S k) * n) with (n + Z.of_nat k * n) by lia.
  unfold part. replace (Z.to_nat (n + Z.of_nat k * n)) with (Z.to_nat n + Z.to_nat (Z.of_nat k * n))%nat by lia.
  replace (Z.to_nat (o + (Z.of_nat c * n + n))) with (Z.to_nat (o + Z.of_nat c * n) + Z.to_nat n)%nat by lia. rewrite <- skipn_skipn_. symmetry. apply firstn_plus.
Qed.
Lemma part_app W a b : 0 <= a -> 0 <= b -> a + b <= zlen W -> part W 0 a ++ part W a b = part W 0 (a + b).
Proof.
  intros A B L. unfold part. cbn [Z.to_nat skipn]. replace (Z.to_nat (a + b)) with (Z.to_nat a + Z.to_nat b)%nat by lia. symmetry. apply firstn_plus.
Qed.
Lemma up4 x : 0 <= x -> x + (- x) mod 4 = 4 * ((x + 3) / 4).
Proof. intros X. lia. Qed.
Lemma round_zeros W o n : 0 <= o -> 0 <= n -> o mod 4 = 0 -> o + 4 * ((n + 3) / 4) <= zlen W -> (forall i, n <= i < 4 * ((n + 3) / 4) -> byte W (o + i) = 0) ->
  pad_to 4 0 (part W 0 o ++ part W o n) = part W 0 (o + 4 * ((n + 3) / 4)).
Proof.
  intros O N M L F. rewrite part_app by lia. unfold pad_to. rewrite zlen_part by lia. replace ((- (o + n)) mod 4) with (4 * ((n + 3) / 4) - n) by lia.
  assert (E : part W (o + n) (4 * ((n + 3) / 4) - n) = rep 0 (4 * ((n + 3) / 4) - n)) by (apply part_rep; [lia|lia|lia|]; intros i I; replace i with (o + (i - o)) by lia; apply F; lia).
  rewrite <- E. rewrite part_app by lia. f_equal. lia.
Qed.
Section Rows.
  Variables (W : bytes) (n : nat) (k size last : Z).
  Let sz (b : Z) : Z := if b =? k - 1 then last else size.
  Let rw (b : Z) : Z := Z.of_nat n * sz b.
  Let fl (b : Z) : Z := 4 * ((rw b + 3) / 4).
  Hypothesis S0 : 0 <= size. Hypothesis L0 : 0 <= last. Hypothesis K0 : 0 < k.
  Lemma fl_pos b : 0 <= rw b <= fl b.
  Proof. assert (0 <= rw b) by (unfold rw, sz; apply Z.mul_nonneg_nonneg; [lia|destruct (_ =? _); lia]). unfold fl. lia. Qed.
  Lemma fl_0 b : 0 <= b < k - 1 -> fl b = fl 0.
  Proof. intros I. unfold fl, rw, sz. rewrite !(proj2 (Z.eqb_neq _ _)) by lia. reflexivity. Qed.
  (** reading *)
  Let chans := map (fun c => map (strm_block W (Z.of_nat n) k size last c) (seq 0 (Z.to_nat k))) (seq 0 n).
  Hypothesis LW : zlen W = (k - 1) * fl 0 + fl (k - 1).
  Lemma place b : 0 <= b < k -> 0 <= b * fl 0 /\ b * fl 0 + fl b <= zlen W.
  Proof.
    intros I. pose proof (fl_pos 0). pose proof (fl_pos (k - 1)). pose proof (fl_pos b). split; [apply Z.mul_nonneg_nonneg; lia|]. rewrite LW. destruct (Z.eq_dec b (k - 1)) as [->|N]; [lia|]. rewrite (fl_0 b) by lia.
    assert ((b + 1) * fl 0 <= (k - 1) * fl 0) by (apply Z.mul_le_mono_nonneg_r; lia). lia.
  Qed.
  Lemma block_at c b : 0 <= b < k -> strm_block W (Z.of_nat n) k size last c (Z.to_nat b) = part W (b * fl 0 + Z.of_nat c * sz b) (sz b).
  Proof.
    intros I. unfold strm_block. rewrite Z2Nat.id by lia. fold (sz b). f_equal. f_equal. destruct (Z.eq_dec k 1) as [E|E]; [replace b with 0 by lia; lia|]. unfold fl at 1, rw, sz at 1. rewrite (proj2 (Z.eqb_neq _ _)) by lia. reflexivity.
  Qed.
  Lemma read_rows b : 0 <= b < k -> concat (WaveLemmas.row chans (Z.to_nat b)) = part W (b * fl 0) (rw b).
  Proof.
    intros I. destruct (place b I) as (P1 & P2). pose proof (fl_pos b). unfold WaveLemmas.row, chans. rewrite map_map.
    rewrite (map_ext_in _ (fun c => part W (b * fl 0 + Z.of_nat c * sz b) (sz b))).
    2:{ intros c _. rewrite <- block_at by exact I. rewrite (nth_indep _ [] (strm_block W (Z.of_nat n) k size last c 0%nat)) by (rewrite map_length, seq_length; lia). rewrite map_nth, seq_nth by lia. reflexivity. }
    rewrite concat_parts; [|lia|unfold sz; destruct (_ =? _); lia|cbn [Nat.add]; fold (rw b); lia]. rewrite Z.mul_0_l, Z.add_0_r. reflexivity.
  Qed.
  Lemma read_sizes : blocks_ok k size last chans.
  Proof.
    intros c I. unfold chans in I. apply in_map_iff in I as (j & <- & J). apply in_seq in J. split; [rewrite zlen_map; unfold zlen; rewrite seq_length; lia|]. intros b x X. rewrite nth_error_map in X. destruct (nth_error (seq 0 (Z.to_nat k)) b) as [b'|] eqn:Q; [|discriminate]. injection X as <-.
    assert (Ib : (b < List.length (seq 0 (Z.to_nat k)))%nat) by (apply nth_error_Some; congruence). rewrite (nth_error_nth' _ 0%nat Ib) in Q. rewrite seq_length in Ib. rewrite seq_nth in Q by exact Ib. injection Q as <-. cbn [Nat.add].
    rewrite <- (Nat2Z.id b) at 1. rewrite block_at by lia. destruct (place (Z.of_nat b) ltac:(lia)) as (P1 & P2). pose proof (fl_pos (Z.of_nat b)) as P3. assert (SP : 0 <= sz (Z.of_nat b)) by (unfold sz; destruct (_ =? _); lia).
    assert (Z.of_nat j * sz (Z.of_nat b) + sz (Z.of_nat b) <= rw (Z.of_nat b)).
    { unfold rw. replace (Z.of_nat j * sz (Z.of_nat b) + sz (Z.of_nat b)) with ((Z.of_nat j + 1) * sz (Z.of_nat b)) by lia. apply Z.mul_le_mono_nonneg_r; lia. }
    assert (0 <= Z.of_nat j * sz (Z.of_nat b)) by (apply Z.mul_nonneg_nonneg; lia). fold (sz (Z.of_nat b)). apply zlen_part; [lia|exact SP|lia].
  Qed.
  Hypothesis Fill : forall b i, 0 <= b < k -> rw b <= i < fl b -> byte W (b * fl 0 + i) = 0.
  Lemma wave_rows b : 0 <= b < k -> wave chans (Z.to_nat b) = part W 0 (b * fl 0) /\ wave chans (S (Z.to_nat b)) = part W 0 (b * fl 0 + fl b).
  Proof.
    intros I. assert (ST : forall b, 0 <= b < k -> wave chans (Z.to_nat b) = part W 0 (b * fl 0) -> wave chans (S (Z.to_nat b)) = part W 0 (b * fl 0 + fl b)).
    { clear b I. intros b I E. destruct (place b I). pose proof (fl_pos b). rewrite wave_S, E, read_rows by exact I. apply round_zeros; [lia|lia| |exact (proj2 (place b I))|intros i J; apply Fill; [exact I|exact J]].
      unfold fl. replace (b * (4 * ((rw 0 + 3) / 4))) with (4 * (b * ((rw 0 + 3) / 4))) by lia. rewrite Z.mul_comm. apply Z.mod_mul. lia. }
    split; [|apply ST; [exact I|]]; rewrite <- (Z2Nat.id b) in * by lia; set (m := Z.to_nat b) in *; clearbody m; clear b; rewrite Nat2Z.id; induction m as [|m IH].
    1, 3: rewrite Z.mul_0_l; reflexivity.
    all: specialize (ST (Z.of_nat m) ltac:(lia)); rewrite Nat2Z.id in ST; rewrite (ST (IH ltac:(lia))), (fl_0 (Z.of_nat m)) by lia; f_equal; lia.
  Qed.
  Lemma wave_all : wave chans (Z.to_nat k) = W.
  Proof.
    destruct (wave_rows (k - 1) ltac:(lia)) as (_ & E). replace (S (Z.to_nat (k - 1))) with (Z.to_nat k) in E by lia. rewrite E, <- LW. unfold part. cbn [Z.to_nat skipn]. apply firstn_all2. unfold zlen. lia.
  Qed.
End Rows.
(** *** and the rows that are written *)
Section Written.
  Set Default Proof Using "All".
  Variables (chans : list (list bytes)) (nb pb il : Z).
  Hypothesis BO : blocks_ok nb pb il chans. Hypothesis P0 : 0 <= pb. Hypothesis I0 : 0 <= il. Hypothesis N0 : 0 < nb.
  Let sz (b : Z) : Z := if b =? nb - 1 then il else pb.
  Let rw (b : Z) : Z := zlen chans * sz b.
  Let fl (b : Z) : Z := 4 * ((rw b + 3) / 4).
  Lemma wfl_pos b : 0 <= rw b <= fl b.
  Proof. pose proof (zlen_nonneg chans). assert (0 <= rw b) by (unfold rw, sz; apply Z.mul_nonneg_nonneg; [lia|destruct (_ =? _); lia]). unfold fl. lia. Qed.
  Lemma wfl_0 b : 0 <= b < nb - 1 -> fl b = fl 0.
  Proof. intros I. unfold fl, rw, sz. rewrite !(proj2 (Z.eqb_neq _ _)) by lia. reflexivity. Qed.
  Lemma row_len b : 0 <= b < nb -> zlen (concat (WaveLemmas.row chans (Z.to_nat b))) = rw b.
  Proof.
    intros I. unfold rw, WaveLemmas.row. rewrite (zlen_concat_map _ _ (sz b)); [reflexivity|]. intros c C. destruct (BO c C) as (LC & E).
    destruct (nth_error c (Z.to_nat b)) as [x|] eqn:X; [|apply nth_error_None in X; unfold zlen in LC; lia]. rewrite (nth_error_nth _ _ _ X), (E _ _ X). rewrite Z2Nat.id by lia. reflexivity.
  Qed.
  Lemma mod4_fl b : (b * fl 0) mod 4 = 0.
  Proof. unfold fl. replace (b * (4 * ((rw 0 + 3) / 4))) with (b * ((rw 0 + 3) / 4) * 4) by lia. apply Z.mod_mul. lia. Qed.
  Lemma wave_len b : 0 <= b < nb -> zlen (wave chans (Z.to_nat b)) = b * fl 0 /\ zlen (wave chans (S (Z.to_nat b))) = b * fl 0 + fl b.
  Proof.
    assert (ST : forall b, 0 <= b < nb -> zlen (wave chans (Z.to_nat b)) = b * fl 0 -> zlen (wave chans (S (Z.to_nat b))) = b * fl 0 + fl b).
    { intros b' I' E. rewrite wave_S, zlen_pad_to, zlen_app, E, row_len by lia. pose proof (mod4_fl b') as Q. change (fl b') with (4 * ((rw b' + 3) / 4)). revert Q. generalize (b' * fl 0). intros z Q. lia. }
    intros I. assert (Q : zlen (wave chans (Z.to_nat b)) = b * fl 0); [|split; [exact Q|apply ST; assumption]].
    rewrite <- (Z2Nat.id b) in * by lia. set (m := Z.to_nat b) in *. clearbody m. clear b. rewrite Nat2Z.id. induction m as [|m IH]; [rewrite Z.mul_0_l; reflexivity|].
    specialize (ST (Z.of_nat m) ltac:(lia)); rewrite Nat2Z.id in ST. rewrite (ST (IH ltac:(lia))), (wfl_0 (Z.of_nat m)) by lia. lia.
  Qed.
  Lemma wave_fill b i : 0 <= b < nb -> rw b <= i < fl b -> byte (wave chans (Z.to_nat nb)) (b * fl 0 + i) = 0.
  Proof.
    intros I J. destruct (wave_len b I) as (L1 & L2). pose proof (wfl_pos b). assert (0 <= b * fl 0) by (rewrite <- L1; apply zlen_nonneg).
    destruct (wave_prefix chans (S (Z.to_nat b)) (Z.to_nat nb - S (Z.to_nat b))) as (r & E). replace (S (Z.to_nat b) + (Z.to_nat nb - S (Z.to_nat b)))%nat with (Z.to_nat nb) in E by lia. rewrite E. clear E.
    rewrite wave_S in *. unfold pad_to in *. set (a := wave chans (Z.to_nat b) ++ concat (WaveLemmas.row chans (Z.to_nat b))) in *. assert (LA : zlen a = b * fl 0 + rw b) by (unfold a; rewrite zlen_app, L1, row_len by exact I; reflexivity).
    rewrite zlen_app in L2. assert (LP : zlen (rep 0 ((- zlen a) mod 4)) = fl b - rw b) by lia. rewrite <- app_assoc. unfold byte. rewrite app_nth2 by (unfold zlen in *; lia). rewrite app_nth1 by (unfold zlen in *; lia).
    unfold rep in *. apply (repeat_spec (Z.to_nat ((- zlen a) mod 4)) 0). apply nth_In. unfold zlen in *. lia.
  Qed.
End Written.
Lemma byte_rest d o i : 0 <= o -> 0 <= i -> byte (rest d o) i = byte d (o + i).
Proof. intros O I. unfold byte, rest. replace (Z.to_nat (o + i)) with (Z.to_nat o + Z.to_nat i)%nat by lia. generalize (Z.to_nat o) (Z.to_nat i). clear. intros n m. revert d. induction n as [|n IH]; intros [|x d]; try reflexivity; [cbn; destruct m; reflexivity|]. cbn [skipn Nat.add nth]. apply IH. Qed.

Lemma full_pos d b : 0 <= byte d 0x1A -> 0 <= strm_last d -> 0 <= word d 0x30 -> 0 <= strm_full d b.
Proof. intros A L S. unfold strm_full, strm_row. assert (0 <= byte d 26 * (if b =? word d 0x2C - 1 then strm_last d else word d 48)) by (apply Z.mul_nonneg_nonneg; [lia|destruct (_ =? _); lia]). lia. Qed.
Lemma strm_exact d info s : is_bytes d -> strm_load d info = Ok s -> strm_save0 s = Ok (d, info) <-> exact_strm d.
Proof.
  intros B L. pose proof L as LV. apply strm_view in LV as (((L0 & M & V & D) & L1 & A & L2 & D2) & T & F & K3 & RT & TM & LP & PB & IL & UN & IN & CH); [|exact B].
  pose proof (byte_range d 0x1A B ltac:(lia)) as RC. assert (ZC : zlen (sChannels s) = byte d 0x1A) by (rewrite CH, zlen_map; unfold zlen; rewrite seq_length; lia).
  pose proof (word_range d 0x30 B ltac:(lia) ltac:(lia)) as R30. pose proof (word_range d 0x38 B ltac:(lia) ltac:(lia)) as R38. pose proof (word_range d 0x2C B ltac:(lia) ltac:(lia)) as R2C.
  assert (AD : strm_last d = word d 0x38 + strm_adj s (word d 0x2C)) by (unfold strm_last, strm_adj; rewrite T; change (wt_val ADPCM) with 2; rewrite andb_comm; destruct (_ && _); lia).
  assert (ADR : 0 <= strm_adj s (word d 0x2C)) by (unfold strm_adj; destruct (_ && _); lia).
  split.
  - intros H. apply strm_save0_inv in H as (nb & pb & il & SZ & R & E & _). assert (L68 : 0x68 <= zlen d).
    { rewrite E. unfold strm_bytes. cbv zeta. rewrite !zlen_app, zlen_std, !zlen_le. unfold strm_fields. rewrite !zlen_app, !zlen_le. rewrite (zlen_concat_map _ _ 4) by (intros; apply zlen_le). rewrite UN. change (zlen (map _ (seq 0 8))) with 8. change (zlen (asc "STRM")) with 4. change (zlen (asc "HEAD")) with 4. change (zlen (asc "DATA")) with 4.
      pose proof (zlen_nonneg (wave (sChannels s) (Z.to_nat nb))). lia. }
    pose proof (strm_sizes_inv _ _ _ _ SZ) as (NB & BO). apply (strm_cut d info s nb pb il B L R L68 NB) in E as (A1 & A2 & A3 & A4 & A5 & A6 & A7 & A8 & A9 & A10). unfold exact_strm. cbv zeta.
    rewrite <- A6 in *. clear A6 nb. set (nb := word d 0x2C) in *.
    assert (PI : 0 <= pb) by lia. assert (PL : il = strm_last d) by lia. assert (PL0 : 0 <= il) by lia.
    assert (W0 : nb = 0 -> pb = 0 /\ il = 0).
    { intros E0. unfold strm_sizes in SZ. destruct (sChannels s) as [|c0 cs]; [injection SZ; lia|]. apply bind_ok in SZ as (? & _ & SZ). destruct (Z.ltb_spec 0 (zlen c0)); [apply bind_ok in SZ as (? & _ & SZ); injection SZ; lia|injection SZ; lia]. }
    assert (W1 : nb = 1 -> pb = il).
    { intros E1. unfold strm_sizes in SZ. destruct (sChannels s) as [|c0 cs]; [injection SZ; lia|]. apply bind_ok in SZ as (? & _ & SZ). destruct (Z.ltb_spec 0 (zlen c0)); [apply bind_ok in SZ as (? & _ & SZ)|injection SZ; lia].
      injection SZ as Q1 Q2 Q3. destruct c0 as [|b0 [|b1 c0]]; [change (zlen (@nil bytes)) with 0 in Q1; lia|cbn in Q2, Q3; lia|rewrite !zlen_cons in Q1; pose proof (zlen_nonneg c0); lia]. }
    assert (ADN : nb <> 1 -> strm_adj s nb = 0) by (intros Q; unfold strm_adj; rewrite (proj2 (Z.eqb_neq nb 1) Q), andb_false_r; reflexivity).
    assert (RW : forall b, 0 <= b < nb -> strm_row d b = zlen (sChannels s) * (if b =? nb - 1 then il else pb)).
    { intros b I. unfold strm_row. rewrite ZC. fold nb. destruct (Z.eqb_spec b (nb - 1)); [rewrite PL; reflexivity|]. f_equal. rewrite ADN in A7 by lia. lia. }
    split; [exact A1|]. split; [exact A3|]. split; [exact A9|]. split; [exact A4|]. split; [exact A5|].
    split; [intros Q; rewrite Q in ZC; apply zlen_0 in ZC; rewrite ZC in SZ; injection SZ; lia|].
    split; [intros Q; destruct (W0 Q); rewrite ADN in * by lia; rewrite Q in A2; change (zlen (wave (sChannels s) (Z.to_nat 0))) with 0 in A2; lia|].
    split; [intros Q; specialize (W1 Q); lia|].
    assert (FL : forall b, 0 <= b < nb -> strm_full d b = 4 * ((zlen (sChannels s) * (if b =? nb - 1 then il else pb) + 3) / 4)) by (intros b I; unfold strm_full; rewrite RW by exact I; reflexivity).
    split.
    + intros Q. destruct (wave_len _ nb pb il BO PI PL0 Q (nb - 1) ltac:(lia)) as (_ & WL). replace (S (Z.to_nat (nb - 1))) with (Z.to_nat nb) in WL by lia. rewrite (FL 0), (FL (nb - 1)) by lia. rewrite A2, WL. cbv beta zeta. apply Z.add_assoc.
    + intros b i I J. rewrite (FL 0) by lia. rewrite (FL b), (RW b) in J by lia. pose proof (wave_fill _ nb pb il BO PI PL0 ltac:(lia) b i I J) as WF. rewrite <- A10 in WF. rewrite byte_rest in WF; [rewrite Z.add_assoc in WF; exact WF|lia|].
      destruct (wave_len _ nb pb il BO PI PL0 ltac:(lia) b I) as (WL & _). pose proof (zlen_nonneg (wave (sChannels s) (Z.to_nat b))). pose proof (wfl_pos (sChannels s) nb pb il BO PI PL0 ltac:(lia) b) as WP. cbv beta zeta in WL, WP. rewrite <- WL. lia.
  - intros (A1 & A2 & A3 & A4 & A5 & A6 & A7 & A8 & A9 & A10). assert (L68 : 0x68 <= zlen d) by (unfold strm_data in L2; rewrite A2 in L2; lia).
    pose proof A1 as (_ & E8 & _ & _). pose proof (word_range d 8 B ltac:(lia) ltac:(lia)) as R8. set (nb := word d 0x2C) in *.
    assert (EW : part d (strm_data d + 8) (word d (strm_data d + 4) - 8) = rest d 0x68).
    { unfold strm_data. rewrite A2. change (16 + 80 + 8) with 0x68. change (16 + 80 + 4) with 0x64. rewrite A3, rest_part by lia. f_equal. lia. }
    assert (Q : exists pb il, strm_sizes (sChannels s) = Ok (nb, pb, il) /\ word d 0x30 = pb - strm_adj s nb /\ word d 0x38 = il - strm_adj s nb /\ rest d 0x68 = wave (sChannels s) (Z.to_nat nb)).
    { destruct (Z.eq_dec nb 0) as [N|N].
      - destruct (A7 N) as (Q1 & Q2 & Q3). exists 0, 0. rewrite N in *. assert (AZ : strm_adj s 0 = 0) by (unfold strm_adj; cbn [Z.eqb]; rewrite andb_false_r; reflexivity). split; [|split; [lia|split; [lia|]]].
        + rewrite CH. unfold strm_channel. fold nb. rewrite N. cbn [Z.to_nat seq map]. unfold strm_sizes. generalize (seq 0 (Z.to_nat (byte d 0x1A))). intros l. destruct l as [|x l]; [reflexivity|]. cbn [map]. change (zlen (@nil bytes)) with 0.
          rewrite (proj2 (forallb_forall _ _)); [reflexivity|]. intros c [<-|C]; [reflexivity|]. apply in_map_iff in C as (? & <- & _). reflexivity.
        + unfold rest. change (wave (sChannels s) (Z.to_nat 0)) with (@nil Z). apply skipn_all2. unfold zlen in Q3. lia.
      - assert (K0 : 0 < nb) by lia. assert (C0 : byte d 0x1A <> 0) by (intros Q; apply N, A6, Q).
        assert (CE : sChannels s = map (fun c => map (strm_block (rest d 0x68) (Z.of_nat (Z.to_nat (byte d 0x1A))) nb (word d 0x30) (strm_last d) c) (seq 0 (Z.to_nat nb))) (seq 0 (Z.to_nat (byte d 0x1A)))).
        { rewrite CH. apply map_ext. intros c. unfold strm_channel. rewrite EW, Z2Nat.id by lia. reflexivity. }
        assert (LW : zlen (rest d 0x68) = (nb - 1) * strm_full d 0 + strm_full d (nb - 1)) by (rewrite zlen_rest by lia; specialize (A9 K0); lia).
        assert (RWE : forall b, strm_full d b = 4 * ((Z.of_nat (Z.to_nat (byte d 0x1A)) * (if b =? nb - 1 then strm_last d else word d 0x30) + 3) / 4)) by (intros b; unfold strm_full, strm_row; rewrite Z2Nat.id by lia; reflexivity).
        exists (if nb =? 1 then strm_last d else word d 0x30), (strm_last d). rewrite !RWE in LW. split; [|split; [|split; [lia|]]].
        + apply (strm_sizes_ok _ nb (word d 0x30)); [|rewrite CH; destruct (Z.to_nat (byte d 0x1A)) eqn:E; [lia|discriminate]|exact K0]. rewrite CE. apply read_sizes; try lia; exact LW.
        + destruct (Z.eqb_spec nb 1) as [E1|E1]; [specialize (A8 E1); lia|]. unfold strm_adj. rewrite (proj2 (Z.eqb_neq nb 1) E1), andb_false_r. lia.
        + rewrite CE. symmetry. apply wave_all; try lia. intros b i I J. rewrite <- !RWE in *. rewrite byte_rest; [|lia|].
          * rewrite Z.add_assoc. apply A10; [exact I|]. unfold strm_row. fold nb. rewrite Z2Nat.id in J by lia. exact J.
          * pose proof (full_pos d 0 ltac:(lia) ltac:(lia) ltac:(lia)).
            assert (LP0 : 0 <= strm_last d) by lia. assert (0 <= Z.of_nat (Z.to_nat (byte d 26)) * (if b =? nb - 1 then strm_last d else word d 48)) by (apply Z.mul_nonneg_nonneg; [lia|destruct (b =? nb - 1); [exact LP0|apply R30]]). assert (0 <= b * strm_full d 0) by (apply Z.mul_nonneg_nonneg; lia). lia. }
    destruct Q as (pb & il & SZ & Q1 & Q2 & Q3). assert (LD : zlen d = 0x68 + zlen (wave (sChannels s) (Z.to_nat nb))) by (rewrite <- Q3, zlen_rest by lia; lia).
    assert (R : strm_ranges s nb pb il).
    { unfold strm_ranges, u8r, u16r, u32r. rewrite K3, RT, TM, LP, PB, IL, <- A5, ZC. pose proof (byte_range d 0x1B B ltac:(lia)). pose proof (half_range d 0x1C B ltac:(lia) ltac:(lia)). pose proof (half_range d 0x1E B ltac:(lia) ltac:(lia)).
      pose proof (word_range d 0x20 B ltac:(lia) ltac:(lia)). pose proof (word_range d 0x24 B ltac:(lia) ltac:(lia)). pose proof (word_range d 0x34 B ltac:(lia) ltac:(lia)). pose proof (word_range d 0x3C B ltac:(lia) ltac:(lia)).
      repeat (split; [lia|]). split; [|lia]. rewrite UN. apply Forall_map. apply Forall_forall. intros i I. apply in_seq in I. apply word_range; [exact B|lia|lia]. }
    rewrite (strm_save0_ok s nb pb il SZ R), IN. do 2 f_equal. symmetry. apply (strm_cut d info s nb pb il B L R L68 ltac:(lia)). repeat split; try assumption; try apply A1; lia.
Qed.

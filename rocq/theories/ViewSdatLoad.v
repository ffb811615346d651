(** How sound archives are read, proofs for C109, continued. *)
From Coq Require Import String.
From Verif Require Import PyBase PyLemmas PyTac CommonModel CommonLemmas WaveModel SeqModel SsarModel SbnkModel SdatModel SdatFat RomSpec SdatSpec ViewSpec ViewSdatSpec ViewLemmas ViewFiles ViewWave ViewSdat.

Lemma in_file_4 d t : is_bytes d -> in_file d t -> t + 4 <= zlen d.
Proof. intros B. unfold in_file. pose proof (word_nonneg d t B). lia. Qed.
Lemma zip_nth {A C} (a : list A) (b : list C) : forall j, nth_error (zip_longest a b) j = if (j <? Nat.max (List.length a) (List.length b))%nat then Some (nth_error a j, nth_error b j) else None.
Proof.
  revert b. assert (N : forall j, nth_error (@nil A) j = None) by (intros [|j]; reflexivity). assert (N' : forall j, nth_error (@nil C) j = None) by (intros [|j]; reflexivity).
  induction a as [|x a IH]; intros [|y b] j.
  - destruct j; reflexivity.
  - cbn [zip_longest]. change ((None, Some y) :: map (fun y => (None, Some y)) b) with (map (fun y : C => (@None A, Some y)) (y :: b)). rewrite nth_error_map, N. destruct (Nat.ltb_spec j (Nat.max (List.length (@nil A)) (List.length (y :: b)))) as [L|L]; cbn in L.
    + destruct (nth_error (y :: b) j) eqn:E; [reflexivity|]. apply nth_error_None in E. cbn in E. lia.
    + rewrite (proj2 (nth_error_None (y :: b) j)) by (cbn; lia). reflexivity.
  - cbn [zip_longest]. destruct j as [|j]; [reflexivity|]. cbn [nth_error]. rewrite IH, N'. replace (Nat.max (List.length (x :: a)) (List.length (@nil C))) with (S (Nat.max (List.length a) (List.length (@nil C)))) by (cbn; lia). reflexivity.
  - cbn [zip_longest]. destruct j as [|j]; [reflexivity|]. cbn [nth_error]. rewrite IH. reflexivity.
Qed.
Lemma zip_length {A C} (a : list A) (b : list C) : List.length (zip_longest a b) = Nat.max (List.length a) (List.length b).
Proof.
  revert b. induction a as [|x a IH]; intros [|y b]; cbn [zip_longest List.length]; [reflexivity|rewrite map_length; lia| |]; rewrite IH; cbn; lia.
Qed.
Lemma get_inv {A} (l : list A) i x : 0 <= i -> get l i = Ok x -> nth_error l (Z.to_nat i) = Some x.
Proof. intros I H. unfold get in H. destruct (Z.ltb_spec i 0); [lia|]. destruct (Z.ltb_spec i 0); [lia|]. destruct (nth_error l (Z.to_nat i)); [congruence|discriminate]. Qed.
Lemma zlen_map {A C} (f : A -> C) l : zlen (map f l) = zlen l.
Proof. unfold zlen. rewrite map_length. reflexivity. Qed.
Section Parts.
  Variable d : bytes. Hypothesis B : is_bytes d. Hypothesis L0 : 0x30 <= zlen d.
  Let info := word d 0x18.
  Definition entries_of (k : nat) : list (option Z) := map (fun j => if entry_offset d k j =? 0 then None else Some (entry d k j)) (seq 0 (Z.to_nat (entry_count d k))).
  Lemma info0 : 0 <= info.
  Proof. apply word_range; [exact B|lia|lia]. Qed.
  Lemma offsets_iff k l : info + 0x28 <= zlen d -> (k < 8)%nat -> info_offsets d info (word d (info + 8 + 4 * Z.of_nat k)) = Ok l <-> in_file d (info_part d k) /\ l = entries_of k.
  Proof.
    intros L K. pose proof info0. pose proof (word_range d (info + 8 + 4 * Z.of_nat k) B ltac:(lia) ltac:(lia)). unfold info_offsets, entries_of. change (info + word d (info + 8 + 4 * Z.of_nat k)) with (info_part d k).
    assert (P : 0 <= info_part d k) by (unfold info_part; fold info; lia). unfold in_file. split.
    - intros H1. stp H1. pose proof (word_range d (info_part d k) B ltac:(lia) ltac:(lia)). apply bind_ok in H1 as (x & X & H1). apply rd_inv in X as (X & _); [|lia|lia]. split; [lia|].
      apply mapM_range_inv in H1 as (LL & M). apply list_of_nth; [exact LL|]. intros i y Y. apply M in Y. stp Y. unfold entry_offset, entry. injection Y as <-. reflexivity.
    - intros (I & ->). pose proof (word_nonneg d (info_part d k) B). fwd. rewrite rd_in by lia. cbn [bind]. apply (mapM_range _ (fun j => if entry_offset d k j =? 0 then None else Some (entry d k j))). unfold entry_count. intros i I2. rewrite unpack_word by lia. reflexivity.
  Qed.
  Lemma entries_nth k j : join (nth_error (entries_of k) j) = if (Z.of_nat j <? entry_count d k) && negb (entry_offset d k j =? 0) then Some (entry d k j) else None.
  Proof.
    unfold entries_of. rewrite nth_error_map. destruct (Z.ltb_spec (Z.of_nat j) (entry_count d k)) as [L|L]; cbn [andb].
    - rewrite (nth_error_nth' _ 0%nat) by (rewrite seq_length; lia). rewrite seq_nth by lia. cbn [option_map join Nat.add]. destruct (_ =? 0); reflexivity.
    - rewrite (proj2 (nth_error_None _ _)) by (rewrite seq_length; lia). reflexivity.
  Qed.
  Lemma entries_length k : List.length (entries_of k) = Z.to_nat (entry_count d k).
  Proof. unfold entries_of. rewrite map_length, seq_length. reflexivity. Qed.

  (** a part whose entry [j] is read by [one j] *)
  Lemma part_iff {A C} (one : nat -> Z -> res A) (R : nat -> Z -> A -> Prop) (f : option (option Z) * option C -> res (name * option A)) (nm : option C -> name) (cs : list C) k l :
    (forall j o y, 0 <= o -> one j o = Ok y <-> R j o y) ->
    (forall j p, nth_error (zip_longest (entries_of k) cs) j = Some p -> f p = (x <- match join (fst p) with None => Ok None | Some o => x <- one j o ;; Ok (Some x) end ;; Ok (nm (snd p), x))) ->
    nm None = None -> part_names d k = map (fun c => nm (Some c)) cs -> 0 <= entry_count d k ->
    mapM f (zip_longest (entries_of k) cs) = Ok l <-> listed d k R l.
  Proof.
    intros HR HF N0 NM EC. rewrite mapM_iff, zip_length, entries_length. unfold listed. rewrite NM.
    assert (EL : List.length l = Nat.max (Z.to_nat (entry_count d k)) (List.length cs) <-> zlen l = Z.max (entry_count d k) (zlen (map (fun c => nm (Some c)) cs))) by (unfold zlen; rewrite map_length; lia).
    assert (E0 : forall j, 0 <= entry d k j) by (intros j; unfold entry, entry_offset; pose proof (word_nonneg d 0x18 B); pose proof (word_nonneg d (info_part d k + 4 + 4 * Z.of_nat j) B); lia).
    assert (NN : forall j, nth j (map (fun c => nm (Some c)) cs) None = nm (nth_error cs j)).
    { intros j. destruct (nth_error cs j) as [c|] eqn:E; [apply nth_error_nth; rewrite nth_error_map, E; reflexivity|]. rewrite N0. apply nth_overflow. rewrite map_length. apply nth_error_None. exact E. }
    rewrite EL. split.
    - intros (L & H). split; [exact L|]. intros j n x X. assert (J : (j < Nat.max (Z.to_nat (entry_count d k)) (List.length cs))%nat) by (apply EL in L; rewrite <- L; apply nth_error_Some; congruence).
      pose proof (zip_nth (entries_of k) cs j) as Z. rewrite entries_length, (proj2 (Nat.ltb_lt _ _) J) in Z. specialize (H j _ _ Z X). rewrite (HF j _ Z) in H. cbn [fst snd] in H. rewrite entries_nth in H.
      apply bind_ok in H as (y & Y & H). injection H as <- <-. split; [symmetry; apply NN|].
      destruct (Z.ltb_spec (Z.of_nat j) (entry_count d k)) as [Q|Q]; cbn [andb] in Y; [|injection Y as <-; left; exact Q]. destruct (Z.eqb_spec (entry_offset d k j) 0) as [O|O]; cbn [negb] in Y; [injection Y as <-; right; exact O|].
      apply bind_ok in Y as (v & V & Y). injection Y as <-. split; [exact Q|]. split; [exact O|]. apply HR; [apply E0|exact V].
    - intros (L & H). split; [exact L|]. intros j p (n, x) Z X. rewrite (HF j p Z). assert (J : (j < Nat.max (Z.to_nat (entry_count d k)) (List.length cs))%nat) by (apply EL in L; rewrite <- L; apply nth_error_Some; congruence).
      rewrite zip_nth, entries_length, (proj2 (Nat.ltb_lt _ _) J) in Z. injection Z as <-. cbn [fst snd]. rewrite entries_nth. destruct (H j n x X) as (-> & Y). rewrite NN. destruct x as [y|].
      + destruct Y as (Q & O & Y). rewrite (proj2 (Z.ltb_lt _ _) Q), (proj2 (Z.eqb_neq _ _) O). cbn [andb negb]. apply HR in Y; [|apply E0]. rewrite Y. reflexivity.
      + destruct Y as [Q|O]; [rewrite (proj2 (Z.ltb_ge _ _) Q)|rewrite (proj2 (Z.eqb_eq _ _) O), andb_false_r]; reflexivity.
  Qed.

  (** ** the objects *)
  Let fs := map (file_view d) (range_z 0 (Z.to_nat (file_count d))).
  Lemma get_file {A} i (load : bytes -> res A) y : 0 <= i -> (f <- get fs i ;; x <- load f ;; Ok (i, x)) = Ok y <-> fst y = i /\ i < file_count d /\ load (file_view d i) = Ok (snd y).
  Proof.
    intros I. assert (LF : zlen fs = Z.max 0 (file_count d)) by (unfold fs; rewrite zlen_map, zlen_range_z; lia).
    split.
    - intros H. apply bind_ok in H as (f & G & H). apply bind_ok in H as (x & X & H). injection H as <-. cbn [fst snd]. pose proof (get_inv fs i f I G) as N. assert (i < file_count d) by (assert (i < zlen fs); [unfold zlen; assert (Z.to_nat i < List.length fs)%nat by (apply nth_error_Some; congruence); lia|lia]).
      unfold fs in N. rewrite nth_error_map in N. rewrite nth_error_range_z in N by lia. injection N as <-. rewrite Z.add_0_l, Z2Nat.id in X by lia. split; [reflexivity|]. split; [assumption|exact X].
    - intros (E & L & X). rewrite (get_nth fs i (file_view d i)); [|lia|unfold fs; rewrite nth_error_map, nth_error_range_z by lia; cbn; do 2 f_equal; lia]. cbn [bind]. rewrite X. cbn [bind]. destruct y. cbn in *. congruence.
  Qed.
  Lemma seq_iff o y : 0 <= o -> load_seq d fs o = Ok y <-> filed d o 10 (fun f => sseq_load f (half d (o + 2), half d (o + 4), byte d (o + 6), byte d (o + 7), byte d (o + 8), byte d (o + 9))) y.
  Proof.
    intros O. unfold filed, load_seq. split.
    - intros H. repeat stp H. apply (get_file (half d o) (fun f => sseq_load f _)) in H; [|apply half_range; [exact B|lia|lia]]. split; [lia|exact H].
    - intros (L & H). repeat fwd. apply (get_file (half d o) (fun f => sseq_load f _)); [apply half_range; [exact B|lia|lia]|exact H].
  Qed.
  Lemma arch_iff subs o y : 0 <= o -> load_arch d fs subs o = Ok y <-> filed d o 4 (fun f => ssar_load f (half d (o + 2)) subs) y.
  Proof.
    intros O. unfold filed, load_arch. split.
    - intros H. repeat stp H. apply (get_file (half d o) (fun f => ssar_load f _ _)) in H; [|apply half_range; [exact B|lia|lia]]. split; [lia|exact H].
    - intros (L & H). repeat fwd. apply (get_file (half d o) (fun f => ssar_load f _ _)); [apply half_range; [exact B|lia|lia]|exact H].
  Qed.
  Lemma war_iff o y : 0 <= o -> load_war d fs o = Ok y <-> filed d o 4 (fun f => swar_load f (half d (o + 2))) y.
  Proof.
    intros O. unfold filed, load_war. split.
    - intros H. repeat stp H. apply (get_file (half d o) (fun f => swar_load f _)) in H; [|apply half_range; [exact B|lia|lia]]. split; [lia|exact H].
    - intros (L & H). repeat fwd. apply (get_file (half d o) (fun f => swar_load f _)); [apply half_range; [exact B|lia|lia]|exact H].
  Qed.
  Lemma strm_iff o y : 0 <= o -> load_strm d fs o = Ok y <-> filed d o 8 (fun f => strm_load f (half d (o + 2), byte d (o + 4), byte d (o + 5), byte d (o + 6), byte d (o + 7))) y.
  Proof.
    intros O. unfold filed, load_strm. split.
    - intros H. repeat stp H. apply (get_file (half d o) (fun f => strm_load f _)) in H; [|apply half_range; [exact B|lia|lia]]. split; [lia|exact H].
    - intros (L & H). repeat fwd. apply (get_file (half d o) (fun f => strm_load f _)); [apply half_range; [exact B|lia|lia]|exact H].
  Qed.
  Lemma ids_iff o l : 0 <= o -> mapM (fun k => unpack_s 2 d (o + 4 + 2 * k)) (range_z 0 4) = Ok l <-> o + 12 <= zlen d /\ l = map (fun i => signed 16 (half d (o + 4 + 2 * Z.of_nat i))) (seq 0 4).
  Proof.
    intros O. assert (F : o + 12 <= zlen d -> mapM (fun k => unpack_s 2 d (o + 4 + 2 * k)) (range_z 0 4) = Ok (map (fun i => signed 16 (half d (o + 4 + 2 * Z.of_nat i))) (seq 0 4))).
    { intros L. apply (mapM_range _ (fun i => signed 16 (half d (o + 4 + 2 * Z.of_nat i)))). intros i I. unfold unpack_s. fwd. rewrite (signed_ok 2 16) by first [reflexivity|lia|apply half_range; [exact B|lia|lia]]. reflexivity. }
    split; [|intros (L & ->); apply F, L]. intros H. assert (L : o + 12 <= zlen d).
    { apply mapM_range_inv in H as (LL & M). destruct (nth_error l 3) as [x|] eqn:X; [|apply nth_error_None in X; lia]. apply M in X. unfold unpack_s in X. stp X. lia. }
    split; [exact L|]. rewrite (F L) in H. congruence.
  Qed.
  Lemma bank_iff order o y : 0 <= o -> load_bank order d fs o = Ok y <-> filed d o 12 (fun f => sbnk_load order f (half d (o + 2))
    (Some (map (fun i => let w := signed 16 (half d (o + 4 + 2 * Z.of_nat i)) in if w =? -1 then None else Some w) (seq 0 4)))) y.
  Proof.
    intros O. rewrite <- (map_map (fun i => signed 16 (half d (o + 4 + 2 * Z.of_nat i))) (fun w => if w =? -1 then None else Some w)). unfold filed, load_bank. split.
    - intros H. repeat stp H. apply bind_ok in H as (l & M & H). apply ids_iff in M as (M & ->); [|exact O]. apply (get_file (half d o) (fun f => sbnk_load order f _ _)) in H; [|apply half_range; [exact B|lia|lia]]. split; [lia|exact H].
    - intros (L & H). repeat fwd. rewrite (proj2 (ids_iff o _ O) (conj L eq_refl)). cbn [bind]. apply (get_file (half d o) (fun f => sbnk_load order f _ _)); [apply half_range; [exact B|lia|lia]|exact H].
  Qed.
  Lemma bit_land v i : 0 <= i -> negb (Z.land (Z.shiftr v i) 1 =? 0) = Z.testbit v i.
  Proof.
    intros I. replace (Z.testbit v i) with (Z.testbit (Z.shiftr v i) 0) by (rewrite Z.shiftr_spec by lia; f_equal; lia). change 1 with (Z.ones 1). rewrite Z.land_ones by lia. change (2 ^ 1) with 2. rewrite Zmod_odd, Z.bit0_odd. destruct (Z.odd _); reflexivity.
  Qed.
  Lemma player_iff o y : 0 <= o -> load_player d o = Ok y <-> o + 8 <= zlen d /\ y = (half d o, filter (Z.testbit (half d (o + 2))) (range_z 0 16), word d (o + 4)).
  Proof.
    intros O. assert (E : filter (fun i => negb (Z.land (Z.shiftr (half d (o + 2)) i) 1 =? 0)) (range_z 0 16) = filter (Z.testbit (half d (o + 2))) (range_z 0 16)).
    { apply filter_ext_in. intros i I. apply in_range_z in I. apply bit_land. lia. }
    unfold load_player. split.
    - intros H. repeat stp H. apply SeqRead.ok_inj in H. rewrite <- H, E. split; [lia|reflexivity].
    - intros (L & ->). repeat fwd. rewrite E. reflexivity.
  Qed.
  Lemma land_bit v i : 0 <= i -> negb (Z.land v (2 ^ i) =? 0) = Z.testbit v i.
  Proof.
    intros I. destruct (Z.testbit v i) eqn:T.
    - apply negb_true_iff, Z.eqb_neq. intros E. apply (f_equal (fun x => Z.testbit x i)) in E. rewrite Z.land_spec, T, Z.pow2_bits_true, Z.bits_0 in E by lia. discriminate.
    - apply negb_false_iff, Z.eqb_eq. apply Z.bits_inj'. intros n N. rewrite Z.land_spec, Z.bits_0, Z.pow2_bits_eqb by lia. destruct (Z.eqb_spec i n) as [<-|]; [rewrite T; reflexivity|apply andb_false_r].
  Qed.
  Lemma group_iff o y : 0 <= o -> load_group d o = Ok y <-> o + 4 <= zlen d /\ zlen y = word d o /\ forall i g, nth_error y i = Some g -> let q := o + 4 + 8 * Z.of_nat i in
    q + 8 <= zlen d /\ gType g = byte d q /\ byte d q < 4 /\ gId g = word d (q + 4) /\ [gLoadSSEQ g; gSwarIds g; gLoadSWAR g; gLoadSSAR g] = map (Z.testbit (half d (q + 1))) [0; 1; 2; 3].
  Proof.
    intros O. unfold load_group. cbv zeta. split.
    - intros H. stp H. pose proof (word_range d o B ltac:(lia) ltac:(lia)). apply mapM_range_inv in H as (LL & M). split; [lia|]. split; [unfold zlen; lia|]. intros i g G. apply M in G. repeat stp G. unfold group_new in G. repeat stp G.
      apply andb_true_iff in G0 as (_ & G0). injection G as <-. cbn [gType gId gLoadSSEQ gSwarIds gLoadSWAR gLoadSSAR map]. split; [lia|]. split; [reflexivity|]. split; [lia|]. split; [reflexivity|].
      rewrite <- (land_bit _ 0), <- (land_bit _ 1), <- (land_bit _ 2), <- (land_bit _ 3) by lia. reflexivity.
    - intros (L & N & G). fwd. apply mapM_range_of; [unfold zlen in N; lia|]. intros i g X. destruct (G i g X) as (G1 & G2 & G3 & G4 & G5). pose proof (byte_range d (o + 4 + 8 * Z.of_nat i) B ltac:(lia)). repeat fwd. unfold group_new.
      rewrite (proj2 (Z.leb_le _ _)), (proj2 (Z.ltb_lt _ _)) by lia. cbn [andb guard bind]. f_equal. destruct g as [g1 g2 g3 g4 g5 g6]. cbn [gType gId gLoadSSEQ gSwarIds gLoadSWAR gLoadSSAR map] in G2, G4, G5.
      rewrite <- (land_bit _ 0), <- (land_bit _ 1), <- (land_bit _ 2), <- (land_bit _ 3) in G5 by lia. change (2 ^ 0) with 1 in G5. change (2 ^ 1) with 2 in G5. change (2 ^ 2) with 4 in G5. change (2 ^ 3) with 8 in G5.
      injection G5 as -> -> -> ->. subst. reflexivity.
  Qed.
  Lemma splayer_iff o y : 0 <= o -> load_splayer d o = Ok y <-> o < zlen d /\ o + 1 + byte d o <= zlen d /\ y = part d (o + 1) (byte d o).
  Proof.
    intros O. unfold load_splayer. split.
    - intros H. stp H. pose proof (byte_range d o B ltac:(lia)). apply rd_inv in H as (H1 & ->); [|lia|lia]. split; [lia|]. split; [lia|reflexivity].
    - intros (L & L2 & ->). fwd. pose proof (byte_range d o B ltac:(lia)). apply rd_in; lia.
  Qed.

  (** ** the allocation table *)
  Let fat := word d 0x20.
  Definition fat_state (e0 : Z) (n : nat) : fatState :=
    {| tFiles := map (file_view d) (range_z 0 n); tAlign := fold_left Z.gcd (map (file_start d) (range_z 0 n)) 0x200;
       tFirst := match n with O => None | _ => Some (Z.gcd 0x200 (file_start d 0)) end;
       tPad := forallb (fun i => file_start d (i + 1) - file_start d i =? file_length d i) (range_z 0 (Nat.min n (Z.to_nat (file_count d - 1))));
       tEnd := match n with O => e0 | S m => file_start d (Z.of_nat m) + file_length d (Z.of_nat m) end |}.
  Lemma align_512 n : 0 < fold_left Z.gcd (map (file_start d) (range_z 0 n)) 0x200 /\ (fold_left Z.gcd (map (file_start d) (range_z 0 n)) 0x200 | 512).
  Proof.
    induction n as [|n IH]; [split; [reflexivity|apply Z.divide_refl]|]. rewrite range_z_snoc, map_app, fold_left_app. cbn [map fold_left]. apply gcd_512; apply IH.
  Qed.
  Lemma fat_step_iff e0 n t : fat + 12 <= zlen d -> Z.of_nat n < file_count d -> fat_step d fat (file_count d) (fat_state e0 n) (Z.of_nat n) = Ok t <->
    fat + 12 + 16 * Z.of_nat n + (if Z.of_nat n =? file_count d - 1 then 8 else 20) <= zlen d /\ t = fat_state e0 (S n).
  Proof.
    intros L N. assert (F0 : 0 <= fat) by apply word_nonneg, B. destruct (align_512 n) as (A1 & A2). unfold fat_step. cbv zeta. cbn [fat_state tFiles tAlign tFirst tPad tEnd].
    assert (K : forall pad, fat + 12 + 16 * Z.of_nat n + 8 <= zlen d -> pad = tPad (fat_state e0 (S n)) ->
      {| tFiles := map (file_view d) (range_z 0 n) ++ [slice d (word d (fat + 12 + 16 * Z.of_nat n)) (word d (fat + 12 + 16 * Z.of_nat n) + word d (fat + 12 + 16 * Z.of_nat n + 4))];
         tAlign := detect (fold_left Z.gcd (map (file_start d) (range_z 0 n)) 512) (word d (fat + 12 + 16 * Z.of_nat n));
         tFirst := if Z.of_nat n =? 0 then Some (detect (fold_left Z.gcd (map (file_start d) (range_z 0 n)) 512) (word d (fat + 12 + 16 * Z.of_nat n))) else match n with O => None | S _ => Some (Z.gcd 512 (file_start d 0)) end;
         tPad := pad; tEnd := word d (fat + 12 + 16 * Z.of_nat n) + word d (fat + 12 + 16 * Z.of_nat n + 4) |} = fat_state e0 (S n)).
    { intros pad L2 ->. rewrite detect_gcd by assumption. unfold fat_state. cbn [tPad]. rewrite !range_z_snoc, !map_app, fold_left_app. cbn [map fold_left]. rewrite !Z.add_0_l.
      destruct n as [|n]; reflexivity. }
    assert (PD : tPad (fat_state e0 (S n)) = if Z.of_nat n =? file_count d - 1 then tPad (fat_state e0 n) else if file_start d (Z.of_nat n + 1) - file_start d (Z.of_nat n) =? file_length d (Z.of_nat n) then tPad (fat_state e0 n) else false).
    { cbn [fat_state tPad]. destruct (Z.eqb_spec (Z.of_nat n) (file_count d - 1)) as [E|E].
      - replace (Nat.min (S n) (Z.to_nat (file_count d - 1))) with (Nat.min n (Z.to_nat (file_count d - 1))) by lia. reflexivity.
      - replace (Nat.min (S n) (Z.to_nat (file_count d - 1))) with (S n) by lia. replace (Nat.min n (Z.to_nat (file_count d - 1))) with n by lia. rewrite range_z_snoc, forallb_app. cbn [forallb]. rewrite andb_true_r, !Z.add_0_l. destruct (file_start d (Z.of_nat n + 1) - _ =? _); [apply andb_true_r|apply andb_false_r]. }
    split.
    - intros H. repeat stp H. apply bind_ok in H as (pad & P & H). injection H as <-.
      destruct (Z.of_nat n =? file_count d - 1) eqn:E.
      + injection P as <-. split; [lia|]. apply K; [lia|]. rewrite PD. reflexivity.
      + stp P. injection P as <-. split; [lia|]. apply K; [lia|]. rewrite PD. unfold file_start, file_length. fold fat. replace (fat + 12 + 16 * (Z.of_nat n + 1)) with (fat + 12 + 16 * Z.of_nat n + 16) by lia. reflexivity.
    - intros (L2 & ->). assert (fat + 12 + 16 * Z.of_nat n + 8 <= zlen d) by (revert L2; destruct (Z.of_nat n =? file_count d - 1); lia). repeat fwd. destruct (Z.of_nat n =? file_count d - 1) eqn:E; cbn [bind].
      + f_equal. apply K; [lia|]. rewrite PD. reflexivity.
      + rewrite unpack_word by lia. cbn [bind]. f_equal. apply K; [lia|]. rewrite PD. unfold file_start, file_length. fold fat. replace (fat + 12 + 16 * (Z.of_nat n + 1)) with (fat + 12 + 16 * Z.of_nat n + 16) by lia. reflexivity.
  Qed.
  Lemma fat_iff e0 t : fat + 12 <= zlen d -> foldM (fat_step d fat (file_count d)) {| tFiles := []; tAlign := 0x200; tFirst := None; tPad := true; tEnd := e0 |} (range_z 0 (Z.to_nat (file_count d))) = Ok t <->
    (file_count d = 0 \/ fat + 4 + 16 * file_count d <= zlen d) /\ t = fat_state e0 (Z.to_nat (file_count d)).
  Proof.
    intros L. pose proof (word_nonneg d (fat + 8) B) as C0. fold (file_count d) in C0. change (0 <= file_count d) in C0.
    assert (G : forall n, Z.of_nat n <= file_count d -> forall t, foldM (fat_step d fat (file_count d)) {| tFiles := []; tAlign := 0x200; tFirst := None; tPad := true; tEnd := e0 |} (range_z 0 n) = Ok t <->
      (n = 0%nat \/ fat + 12 + 16 * (Z.of_nat n - 1) + (if Z.of_nat n =? file_count d then 8 else 20) <= zlen d) /\ t = fat_state e0 n).
    { induction n as [|n IH]; intros N u.
      - change (range_z 0 0) with (@nil Z). cbn [foldM]. split; [intros H; injection H as <-; split; [left; reflexivity|reflexivity]|intros (_ & ->); reflexivity].
      - rewrite range_z_snoc, foldM_app. cbn [foldM]. rewrite Z.add_0_l. replace (Z.of_nat (S n) =? file_count d) with (Z.of_nat n =? file_count d - 1) by lia. replace (Z.of_nat (S n) - 1) with (Z.of_nat n) by lia. split.
        + intros H. apply bind_ok in H as (v & V & H). apply IH in V as (V & ->); [|lia]. apply bind_ok in H as (w & W & H). injection H as <-. apply fat_step_iff in W as (W & ->); [|lia|lia]. split; [right; exact W|reflexivity].
        + intros ([H|H] & ->); [discriminate|]. rewrite (proj2 (IH ltac:(lia) (fat_state e0 n))).
          * cbn [bind]. rewrite (proj2 (fat_step_iff e0 n (fat_state e0 (S n)) L ltac:(lia))); [reflexivity|]. split; [exact H|reflexivity].
          * split; [|reflexivity]. destruct n as [|n]; [left; reflexivity|right]. destruct (_ =? file_count d); destruct (_ =? _); lia. }
    rewrite (G (Z.to_nat (file_count d)) ltac:(lia) t). rewrite Z2Nat.id, Z.eqb_refl by lia. split; (intros (H & ->); split; [lia|reflexivity]).
  Qed.
End Parts.

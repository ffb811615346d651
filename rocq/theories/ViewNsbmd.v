(** How model files are read, proofs for C112. *)
From Coq Require Import String.
From Verif Require Import PyBase PyLemmas PyTac CommonModel ColorModel WaveModel TexModel NsbmdModel NsbmdLemmas RomSpec ViewSpec ViewTexSpec ViewNsbmdSpec ViewLemmas ViewFiles ViewWave ViewSdat ViewTex.

Lemma byte_nonneg d o : is_bytes d -> 0 <= ViewSpec.byte d o.
Proof. intros B. pose proof (count_nonneg d (o - 1) B) as H. unfold info_count in H. replace (o - 1 + 1) with o in H by lia. exact H. Qed.
Lemma count_is d o : is_bytes d -> Z.of_nat (table_count d o) = ViewSpec.byte d (o + 1).
Proof. intros B. unfold table_count. pose proof (byte_nonneg d (o + 1) B). lia. Qed.
Lemma mapM_fit (f : Z -> res Z) (h : nat -> Z) (o : Z) (n : nat) r L : 0 <= o -> o <= L ->
  (forall i y, f (Z.of_nat i) = Ok y <-> o + 4 * Z.of_nat i + 4 <= L /\ y = h i) ->
  mapM f (range_z 0 n) = Ok r <-> o + 4 * Z.of_nat n <= L /\ r = map h (seq 0 n).
Proof.
  intros O OL E. split.
  - intros H. pose proof H as H0. apply mapM_range_inv in H as (N & V). assert (FIT : o + 4 * Z.of_nat n <= L).
    { destruct n as [|n]; [lia|]. destruct (nth_error r n) as [y|] eqn:Y; [|apply nth_error_None in Y; lia]. specialize (V n y Y). apply E in V. lia. }
    split; [exact FIT|]. rewrite (mapM_range _ h) in H0; [apply SeqRead.ok_inj in H0; symmetry; exact H0|]. intros i I. apply E. split; [lia|reflexivity].
  - intros (FIT & ->). apply mapM_range. intros i I. apply E. split; [lia|reflexivity].
Qed.
Section One.
  Variable d : bytes. Hypothesis B : is_bytes d.
  Lemma words_iff o n r : 0 <= o <= zlen d -> 0 <= n -> words d o n = Ok r <-> o + 4 * n <= zlen d /\ r = map (fun i => word d (o + 4 * Z.of_nat i)) (seq 0 (Z.to_nat n)).
  Proof.
    intros O N. unfold words. rewrite (mapM_fit _ (fun i => word d (o + 4 * Z.of_nat i)) o (Z.to_nat n) r (zlen d)); [rewrite Z2Nat.id by lia; reflexivity|lia|lia|].
    intros i y. split; [intros H; apply word_inv in H as (L & ->); [split; [lia|reflexivity]|lia]|]. intros (L & ->). apply unpack_word; lia.
  Qed.
  Lemma words_fwd o n : 0 <= o <= zlen d -> 0 <= n -> o + 4 * n <= zlen d -> words d o n = Ok (map (fun i => word d (o + 4 * Z.of_nat i)) (seq 0 (Z.to_nat n))).
  Proof. intros O N L. apply words_iff; [exact O|exact N|]. split; [exact L|reflexivity]. Qed.
  Lemma skip_iff o n r : 0 <= o <= zlen d -> 0 <= n -> skip_pairs d o n = Ok r <-> o + 4 * n <= zlen d /\ r = tt.
  Proof.
    intros O N. unfold skip_pairs. assert (E : forall l, mapM (fun i => _ <- unpack_u 2 d (o + 4 * i) ;; unpack_u 2 d (o + 4 * i + 2)) (range_z 0 (Z.to_nat n)) = Ok l <-> o + 4 * n <= zlen d /\ l = map (fun i => half d (o + 4 * Z.of_nat i + 2)) (seq 0 (Z.to_nat n))).
    { intros l. rewrite (mapM_fit _ (fun i => half d (o + 4 * Z.of_nat i + 2)) o (Z.to_nat n) l (zlen d)); [rewrite Z2Nat.id by lia; reflexivity|lia|lia|].
      intros i y. split; [intros H; stp H; apply half_inv in H as (L1 & ->); [split; [lia|reflexivity]|lia]|]. intros (L & ->). fwd. apply unpack_half; lia. }
    split.
    - intros H. apply bind_ok in H as (l & X & H). apply E in X. destruct r. split; [apply X|reflexivity].
    - intros (L & ->). rewrite (proj2 (E _) (conj L eq_refl)). reflexivity.
  Qed.
  Lemma table_names_eq o n : 0 <= o -> table_names d o n = map (fun i => rstrip 0 (part d (o + 16 * Z.of_nat i) 16)) (seq 0 (Z.to_nat n)).
  Proof.
    intros O. unfold table_names. assert (G : forall m k, map (fun i => rstrip 0 (slice d (o + 16 * i) (o + 16 * i + 16))) (range_z (Z.of_nat k) m) = map (fun i => rstrip 0 (part d (o + 16 * Z.of_nat i) 16)) (seq k m)).
    { induction m as [|m IH]; intros k; [reflexivity|]. cbn [range_z seq map]. rewrite slice_part0 by lia. f_equal. replace (Z.of_nat k + 1) with (Z.of_nat (Datatypes.S k)) by lia. apply IH. }
    apply (G _ 0%nat).
  Qed.
  Lemma table_iff o r : 0 <= o -> read_table d o = Ok r <-> table_shape d o /\ r = (map (table_word d o) (seq 0 (table_count d o)), map (table_name d o) (seq 0 (table_count d o)), table_end d o).
  Proof.
    intros O. pose proof (count_is d o B) as C. pose proof (byte_nonneg d (o + 1) B) as C0. unfold read_table, table_shape, table_frame, table_word, table_name, table_end.
    assert (NC : table_count d o = Z.to_nat (ViewSpec.byte d (o + 1))) by reflexivity. rewrite C.
    split.
    - intros H. apply bind_ok in H as (x & X & H). apply rd_inv in X as (X & _); [|lia|lia]. repeat stp H. cbv zeta in H. repeat stp H. apply bind_ok in H as (u & U & H). apply skip_iff in U as (U & ->); [|lia|lia]. repeat stp H.
      apply bind_ok in H as (ws & W & H). apply words_iff in W as (W & ->); [|lia|lia]. apply SeqRead.ok_inj in H. rewrite <- H, table_names_eq by lia. rewrite <- NC.
      set (c := ViewSpec.byte d (o + 1)) in *. replace (o + 4 + 4) with (o + 8) in * by lia. replace (o + 4 + 8 + 4 * c) with (o + 12 + 4 * c) in * by lia.
      apply Z.eqb_eq in G, G0, G1. split; [split; [split; [lia|split; assumption]|exact G1]|]. 
      replace (o + 12 + 4 * c + 4) with (o + 16 + 4 * c) by lia. replace (o + 16 + 4 * c + 4 * c) with (o + 16 + 8 * c) by lia. replace (o + 16 + 8 * c + 16 * c) with (o + 16 + 24 * c) by lia. reflexivity.
    - intros (((L & H1 & H2) & H3) & ->). rewrite rd_in by lia. cbn [bind]. repeat fwd. cbv zeta. repeat fwd.
      set (c := ViewSpec.byte d (o + 1)) in *. replace (o + 4 + 4) with (o + 8) by lia. rewrite H1, H2. cbn [Z.eqb Pos.eqb guard bind]. rewrite (proj2 (skip_iff (o + 4 + 8) c tt ltac:(lia) C0)) by (split; [lia|reflexivity]). cbn [bind].
      replace (o + 4 + 8 + 4 * c) with (o + 12 + 4 * c) by lia. repeat fwd. rewrite H3. cbn [Z.eqb Pos.eqb guard bind]. rewrite (words_fwd (o + 12 + 4 * c + 4) c) by lia. cbn [bind].
      rewrite table_names_eq by lia. rewrite <- NC.
      replace (o + 12 + 4 * c + 4) with (o + 16 + 4 * c) by lia. replace (o + 16 + 4 * c + 4 * c) with (o + 16 + 8 * c) by lia. replace (o + 16 + 8 * c + 16 * c) with (o + 16 + 24 * c) by lia. reflexivity.
  Qed.
  Lemma polygon_iff base p : 0 <= base -> 0 <= p -> (exists c, read_polygon d base p = Ok c) <-> base + p + 16 <= zlen d.
  Proof.
    intros Ba P. split; [intros (c & H)|intros L; apply read_polygon_ok; lia]. unfold read_polygon in H. cbv zeta in H. repeat stp H. lia.
  Qed.
  Lemma mapM_exists {A C} (f : A -> res C) l : (exists r, mapM f l = Ok r) <-> forall x, In x l -> exists y, f x = Ok y.
  Proof.
    induction l as [|a l IH]; [split; [intros _ x []|intros _; exists []; reflexivity]|]. cbn [mapM]. split.
    - intros (r & H). apply bind_ok in H as (y & Y & H). apply bind_ok in H as (ys & Ys & H). intros x [<-|X]; [exists y; exact Y|]. apply IH; [exists ys; exact Ys|exact X].
    - intros H. destruct (H a (or_introl eq_refl)) as (y & Y). destruct (proj2 IH (fun x X => H x (or_intror X))) as (r & R). rewrite Y. cbn [bind]. rewrite R. eexists. reflexivity.
  Qed.
  Lemma word_pos o : 0 <= o -> o + 4 <= zlen d -> 0 <= word d o.
  Proof. intros O L. apply word_range; assumption. Qed.
  Lemma end_pos o : 0 <= o -> 0 <= table_end d o.
  Proof. intros O. unfold table_end. lia. Qed.
  Lemma model_iff m r : 0 <= m -> read_model d m = Ok r <-> model_shape d m.
  Proof.
    intros M. unfold read_model, model_shape. cbv zeta. split.
    - intros H. apply bind_ok in H as (x & X & H). apply rd_inv in X as (X & _); [|lia|lia]. repeat stp H. pose proof (word_pos (m + 8) ltac:(lia) ltac:(lia)) as W1. pose proof (word_pos (m + 12) ltac:(lia) ltac:(lia)) as W2.
      apply bind_ok in H as (t1 & T1 & H). apply table_iff in T1 as (T1 & ->); [|lia]. pose proof (end_pos (m + word d (m + 8) + 4) ltac:(lia)) as E1.
      apply bind_ok in H as (t2 & T2 & H). apply table_iff in T2 as (T2 & ->); [|lia]. pose proof (end_pos _ E1) as E2.
      apply bind_ok in H as (t3 & T3 & H). apply table_iff in T3 as (T3 & ->); [|lia].
      apply bind_ok in H as (t4 & T4 & H). apply table_iff in T4 as (T4 & ->); [|lia]. apply bind_ok in H as (ps & PS & H).
      split; [lia|]. split; [exact T1|]. split; [exact T2|]. split; [exact T3|]. split; [exact T4|]. intros i I. set (q := m + word d (m + 12)) in *.
      pose proof (proj1 (mapM_exists (read_polygon d q) _) (ex_intro _ ps PS) (table_word d q i)) as Q. apply polygon_iff in Q; [exact Q|unfold q; lia| |apply in_map, in_seq; lia].
      destruct T4 as ((TL & _) & _). unfold table_word. apply word_pos; lia.
    - intros (L & T1 & T2 & T3 & T4 & P). pose proof (word_pos (m + 8) ltac:(lia) ltac:(lia)) as W1. pose proof (word_pos (m + 12) ltac:(lia) ltac:(lia)) as W2. rewrite rd_in by lia. cbn [bind]. repeat fwd.
      pose proof (end_pos (m + word d (m + 8) + 4) ltac:(lia)) as E1. pose proof (end_pos _ E1) as E2.
      rewrite (proj2 (table_iff (m + word d (m + 8) + 4) _ ltac:(lia)) (conj T1 eq_refl)). cbn [bind]. rewrite (proj2 (table_iff _ _ E1) (conj T2 eq_refl)). cbn [bind]. rewrite (proj2 (table_iff _ _ E2) (conj T3 eq_refl)). cbn [bind].
      rewrite (proj2 (table_iff (m + word d (m + 12)) _ ltac:(lia)) (conj T4 eq_refl)). cbn [bind]. set (q := m + word d (m + 12)) in *.
      destruct (proj2 (mapM_exists (read_polygon d q) (map (table_word d q) (seq 0 (table_count d q))))) as (ps & PS).
      { intros x X. apply in_map_iff in X as (i & <- & I). apply in_seq in I. apply polygon_iff; [unfold q; lia| |apply P; lia]. destruct T4 as ((TL & _) & _). unfold table_word. apply word_pos; unfold q in *; lia. }
      rewrite PS. cbn [bind]. destruct r. reflexivity.
  Qed.
  Lemma mdl0_iff r : parse_mdl0 d = Ok r <-> mdl0_shape d /\ r = model_names d.
  Proof.
    pose proof (count_is d 8 B) as C. pose proof (byte_nonneg d (8 + 1) B) as C0. unfold parse_mdl0, mdl0_shape, table_frame, model_names. rewrite C. change (8 + 1) with 9 in *. change (8 + 4) with 12 in *. change (8 + 8) with 16 in *. change (8 + 16) with 24 in *.
    assert (NC : table_count d 8 = Z.to_nat (ViewSpec.byte d 9)) by reflexivity.
    assert (WN : 24 + 8 * ViewSpec.byte d 9 <= zlen d -> forall l, mapM (read_model d) (map (table_word d 8) (seq 0 (table_count d 8))) = Ok l -> forall i, (i < table_count d 8)%nat -> model_shape d (table_word d 8 i)).
    { intros L l H i I. destruct (proj1 (mapM_exists (read_model d) _) (ex_intro _ l H) (table_word d 8 i)) as (u & U); [apply in_map, in_seq; lia|]. apply model_iff in U; [exact U|]. unfold table_word. apply word_pos; lia. }
    split.
    - intros H. stp H. apply prefixb_part in G; [|reflexivity]. apply bind_ok in H as (x & X & H). apply rd_inv in X as (X & _); [|lia|lia]. repeat stp H. cbv zeta in H. repeat stp H. change (12 + 2) with 14 in *. change (12 + 4) with 16 in *. change (12 + 8) with 20 in *.
      apply bind_ok in H as (u & U & H). apply skip_iff in U as (U & ->); [|lia|lia]. repeat stp H. apply bind_ok in H as (ws & W & H). set (c := ViewSpec.byte d 9) in *. replace (20 + 4 * c + 4) with (24 + 4 * c) in * by lia. apply words_iff in W as (W & ->); [|lia|lia].
      apply bind_ok in H as (ms & MS & H). apply SeqRead.ok_inj in H. rewrite table_names_eq in H by lia. apply Z.eqb_eq in G0, G1.
      split; [|rewrite <- H; replace (24 + 4 * c + 4 * c) with (24 + 8 * c) by lia; unfold table_name; rewrite C; reflexivity].
      split; [exact G|]. split; [split; [lia|split; assumption]|]. apply (WN ltac:(lia) ms). unfold table_word. rewrite C. exact MS.
    - intros ((M & (L & H1 & H2) & H3) & ->). rewrite (proj2 (prefixb_part d (asc "MDL0") eq_refl) M). cbn [guard bind]. rewrite rd_in by lia. cbn [bind]. repeat fwd. cbv zeta. repeat fwd. change (12 + 2) with 14 in *. change (12 + 4) with 16 in *. change (12 + 8) with 20 in *.
      rewrite H1, H2. cbn [Z.eqb Pos.eqb guard bind]. set (c := ViewSpec.byte d 9) in *. rewrite (proj2 (skip_iff 20 c tt ltac:(lia) C0)) by (split; [lia|reflexivity]). cbn [bind]. repeat fwd.
      replace (20 + 4 * c + 4) with (24 + 4 * c) in * by lia. rewrite (words_fwd (24 + 4 * c) c) by lia. cbn [bind].
      destruct (proj2 (mapM_exists (read_model d) (map (table_word d 8) (seq 0 (table_count d 8))))) as (ms & MS).
      { intros x X. apply in_map_iff in X as (i & <- & I). apply in_seq in I. exists tt. apply model_iff; [unfold table_word; apply word_pos; lia|]. apply H3. lia. }
      unfold table_word in MS. rewrite C in MS. change (8 + 16) with 24 in MS. rewrite NC in MS. rewrite MS. cbn [bind]. rewrite table_names_eq by lia. replace (24 + 4 * c + 4 * c) with (24 + 8 * c) by lia. unfold table_name. rewrite C. reflexivity.
  Qed.
End One.

(** ** files *)
Lemma tex0_fun b x y : is_bytes b -> tex0_shape b -> tex0_view b x -> tex0_view b y -> x = y.
Proof. intros B S X Y. apply SeqRead.ok_inj. rewrite <- (proj2 (tex0_iff b x B) (conj S X)), <- (proj2 (tex0_iff b y B) (conj S Y)). reflexivity. Qed.
Section File.
  Variable d : bytes. Hypothesis B : is_bytes d.
  Definition step (j : nat) (m m' : nsbmd) : Prop := block_place d j + 8 <= zlen d /\
    ((block_kind d j = asc "MDL0" /\ mdl0_shape (block_of d j) /\ m' = {| nMDL0 := Some (block_of d j); nModels := Some (model_names (block_of d j)); nTex := nTex m |}) \/
     (block_kind d j = asc "TEX0" /\ tex0_shape (block_of d j) /\ exists x, tex0_view (block_of d j) x /\ m' = {| nMDL0 := nMDL0 m; nModels := nModels m; nTex := x |})).
  Lemma block_iff j m m' : 0 <= block_place d j -> read_block d m (block_place d j) = Ok m' <-> step j m m'.
  Proof.
    intros P. unfold step. assert (Bb : is_bytes (block_of d j)) by (apply is_bytes_part; exact B). unfold read_block. set (o := block_place d j) in *.
    assert (EB : o + 8 <= zlen d -> slice d o (o + word d (o + 4)) = block_of d j).
    { intros L. pose proof (word_range d (o + 4) B ltac:(lia) ltac:(lia)). apply slice_part0; lia. }
    split.
    - intros H. repeat stp H. cbv zeta in H. rewrite EB in H by lia. split; [lia|]. change (part d o 4) with (block_kind d j) in H. destruct (beq (block_kind d j) (asc "MDL0")) eqn:K1; [|destruct (beq (block_kind d j) (asc "TEX0")) eqn:K2; [|discriminate]].
      + left. apply beq_eq in K1. split; [exact K1|]. apply bind_ok in H as (ns & NS & H). apply mdl0_iff in NS as (S & ->); [|exact Bb]. split; [exact S|]. apply SeqRead.ok_inj in H. symmetry. exact H.
      + right. apply beq_eq in K2. split; [exact K2|]. stp H. apply bind_ok in H as (x & X & H). apply (proj1 (tex0_iff _ _ Bb)) in X as (S & V). split; [exact S|]. exists x. split; [exact V|]. apply SeqRead.ok_inj in H. symmetry. exact H.
    - intros (L & H). repeat fwd. cbv zeta. rewrite EB by lia. change (part d o 4) with (block_kind d j). destruct H as [(K & S & ->)|(K & S & x & V & ->)]; rewrite K.
      + change (beq (asc "MDL0") (asc "MDL0")) with true. cbv iota. rewrite (proj2 (mdl0_iff (block_of d j) Bb _) (conj S eq_refl)). reflexivity.
      + change (beq (asc "TEX0") (asc "MDL0")) with false. change (beq (asc "TEX0") (asc "TEX0")) with true. cbv iota. rewrite (proj2 (prefixb_part _ (asc "TEX0") eq_refl) (proj1 (proj2 S))). cbn [guard bind].
        rewrite (proj2 (tex0_iff _ x Bb) (conj S V)). reflexivity.
  Qed.
  Lemma last_S n kind j : last_of d (Datatypes.S n) kind j <-> (j = n /\ block_kind d n = kind) \/ (block_kind d n <> kind /\ last_of d n kind j).
  Proof.
    unfold last_of. split.
    - intros (J & K & M). destruct (Nat.eq_dec j n) as [->|N]; [left; split; [reflexivity|exact K]|right]. split; [apply M; lia|]. split; [lia|]. split; [exact K|]. intros k Kk. apply M. lia.
    - intros [(-> & K)|(K & J & K' & M)]; [split; [lia|]; split; [exact K|]; intros; lia|]. split; [lia|]. split; [exact K'|]. intros k Kk. destruct (Nat.eq_dec k n) as [->|N]; [exact K|]. apply M. lia.
  Qed.
  Lemma none_S n kind : (forall j, (j < Datatypes.S n)%nat -> block_kind d j <> kind) <-> block_kind d n <> kind /\ forall j, (j < n)%nat -> block_kind d j <> kind.
  Proof.
    split; [intros H; split; [apply H; lia|intros j J; apply H; lia]|]. intros (K & H) j J. destruct (Nat.eq_dec j n) as [->|N]; [exact K|]. apply H. lia.
  Qed.
  Lemma view_step n m m' : step n m m' -> nsbmd_view d n m -> nsbmd_view d (Datatypes.S n) m'.
  Proof.
    intros (L & H) [V1 V2 V3 V4]. destruct H as [(K & S & ->)|(K & S & x & V & ->)]; constructor; cbn [nMDL0 nModels nTex].
    - intros j J. apply last_S in J as [(-> & _)|(N & _)]; [split; reflexivity|congruence].
    - intros N. apply none_S in N as (N & _). congruence.
    - intros j J. apply last_S in J as [(_ & N)|(_ & J)]; [rewrite K in N; discriminate N|]. apply V3. exact J.
    - intros N. apply none_S in N as (_ & N). apply V4. exact N.
    - intros j J. apply last_S in J as [(_ & N)|(_ & J)]; [rewrite K in N; discriminate N|]. apply V1. exact J.
    - intros N. apply none_S in N as (_ & N). apply V2. exact N.
    - intros j J. apply last_S in J as [(-> & _)|(N & _)]; [exact V|congruence].
    - intros N. apply none_S in N as (N & _). congruence.
  Qed.
  Lemma step_some j m : block_ok d j -> exists m', step j m m'.
  Proof.
    intros (L & [(K & S)|(K & S & x & V)]).
    - eexists. split; [exact L|]. left. split; [exact K|]. split; [exact S|reflexivity].
    - eexists. split; [exact L|]. right. split; [exact K|]. split; [exact S|]. exists x. split; [exact V|reflexivity].
  Qed.
  Lemma step_ok j m m' : step j m m' -> block_ok d j.
  Proof. intros (L & [(K & S & _)|(K & S & x & V & _)]); (split; [exact L|]); [left; split; assumption|right; split; [exact K|]; split; [exact S|exists x; exact V]]. Qed.
  Lemma kind_dec n kind : (exists j, last_of d n kind j) \/ (forall j, (j < n)%nat -> block_kind d j <> kind).
  Proof.
    induction n as [|n IH]; [right; intros; lia|]. destruct (beq (block_kind d n) kind) eqn:E.
    - apply beq_eq in E. left. exists n. apply last_S. left. split; [reflexivity|exact E].
    - assert (N : block_kind d n <> kind) by (intros C; apply beq_eq in C; congruence). destruct IH as [(j & J)|IH]; [left; exists j; apply last_S; right; split; assumption|right; apply none_S; split; assumption].
  Qed.
  Lemma view_fun n m m' : (forall j, (j < n)%nat -> block_ok d j) -> nsbmd_view d n m -> nsbmd_view d n m' -> m = m'.
  Proof.
    intros OK [V1 V2 V3 V4] [W1 W2 W3 W4]. assert (E1 : nMDL0 m = nMDL0 m' /\ nModels m = nModels m').
    { destruct (kind_dec n (asc "MDL0")) as [(j & J)|N]; [destruct (V1 j J), (W1 j J)|destruct (V2 N), (W2 N)]; split; congruence. }
    assert (E2 : nTex m = nTex m').
    { destruct (kind_dec n (asc "TEX0")) as [(j & J)|N]; [|rewrite V4, W4 by exact N; reflexivity]. apply (tex0_fun (block_of d j)); [apply is_bytes_part; exact B| |apply V3; exact J|apply W3; exact J].
      destruct J as (J & K & _). destruct (OK j J) as (_ & [(K' & _)|(_ & S & _)]); [rewrite K in K'; discriminate K'|exact S]. }
    destruct m, m'. cbn in *. destruct E1 as (-> & ->). rewrite E2. reflexivity.
  Qed.
  Lemma view_exists n : (forall j, (j < n)%nat -> block_ok d j) -> exists m, nsbmd_view d n m.
  Proof.
    induction n as [|n IH]; intros OK.
    - exists nsbmd_new. constructor; unfold last_of; try (intros j (J & _); lia); intros; cbn; try split; reflexivity.
    - destruct IH as (m & V); [intros j J; apply OK; lia|]. destruct (step_some n m (OK n ltac:(lia))) as (m' & S). exists m'. apply (view_step n m); assumption.
  Qed.
  Lemma blocks_iff n m : 16 + 4 * Z.of_nat n <= zlen d -> foldM (read_block d) nsbmd_new (map (block_place d) (seq 0 n)) = Ok m <-> (forall j, (j < n)%nat -> block_ok d j) /\ nsbmd_view d n m.
  Proof.
    revert m. induction n as [|n IH]; intros m L.
    - cbn [seq map foldM]. split.
      + intros H. apply SeqRead.ok_inj in H. subst m. split; [intros; lia|]. constructor; unfold last_of; try (intros j (J & _); lia); intros; cbn; try split; reflexivity.
      + intros (_ & V). f_equal. destruct V as [_ V2 _ V4]. destruct (V2 ltac:(intros; lia)) as (E1 & E2). specialize (V4 ltac:(intros; lia)). destruct m. cbn in *. subst. reflexivity.
    - assert (P : 0 <= block_place d n) by (unfold block_place; apply word_pos; [exact B|lia|lia]). rewrite seq_S, map_app, foldM_app. cbn [Nat.add map foldM]. split.
      + intros H. apply bind_ok in H as (m0 & M0 & H). apply IH in M0 as (OK & V); [|lia]. apply bind_ok in H as (m1 & M1 & H). apply SeqRead.ok_inj in H. subst m1. apply block_iff in M1; [|exact P].
        split; [|apply (view_step n m0); assumption]. intros j J. destruct (Nat.eq_dec j n) as [->|N]; [apply (step_ok n m0 m M1)|apply OK; lia].
      + intros (OK & V). assert (E : exists m0, foldM (read_block d) nsbmd_new (map (block_place d) (seq 0 n)) = Ok m0 /\ nsbmd_view d n m0).
        { clear V m. assert (OK' : forall j, (j < n)%nat -> block_ok d j) by (intros j J; apply OK; lia). assert (L' : 16 + 4 * Z.of_nat n <= zlen d) by lia. clear L P. revert OK' L' OK. clear IH. induction n as [|n IH]; intros OK' L' _.
          - exists nsbmd_new. split; [reflexivity|]. constructor; unfold last_of; try (intros j (J & _); lia); intros; cbn; try split; reflexivity.
          - destruct IH as (m0 & M0 & V0); [intros j J; apply OK'; lia|lia|intros j J; apply OK'; lia|]. destruct (step_some n m0 (OK' n ltac:(lia))) as (m1 & S1). exists m1. split; [|apply (view_step n m0); assumption].
            rewrite seq_S, map_app, foldM_app, M0. cbn [bind Nat.add map foldM]. assert (P' : 0 <= block_place d n) by (unfold block_place; apply word_pos; [exact B|lia|lia]). rewrite (proj2 (block_iff n m0 m1 P') S1). reflexivity. }
        destruct E as (m0 & M0 & V0). destruct (step_some n m0 (OK n ltac:(lia))) as (m1 & S1). rewrite M0. cbn [bind]. rewrite (proj2 (block_iff n m0 m1 P) S1). cbn [bind]. f_equal.
        apply (view_fun (Datatypes.S n)); [exact OK|apply (view_step n m0); assumption|exact V].
  Qed.
  Theorem nsbmd_iff m : nsbmd_load d = Ok m <-> nsbmd_shape d /\ nsbmd_view d (block_count d) m.
  Proof.
    unfold nsbmd_load, nsbmd_shape. split.
    - intros H. stp H. apply prefixb_part in G; [|reflexivity]. apply bind_ok in H as (h & HH & H). apply std_inv in HH as (L & ->). cbn [hVersion hBlocks] in H. stp H. apply Z.eqb_eq in G0. pose proof (half_range d 14 B ltac:(lia) ltac:(lia)) as R.
      apply bind_ok in H as (offs & O & H). apply words_iff in O as (O & ->); [|lia|lia]. assert (C : Z.of_nat (block_count d) = half d 14) by (unfold block_count; lia). apply (proj1 (blocks_iff (block_count d) m ltac:(lia))) in H as (OK & V).
      split; [|exact V]. split; [exact G|]. split; [exact G0|]. split; [lia|exact OK].
    - intros ((M & V2 & L & OK) & V). pose proof (zlen_nonneg d). assert (L16 : 16 <= zlen d) by lia. pose proof (half_range d 14 B ltac:(lia) ltac:(lia)) as R. assert (C : Z.of_nat (block_count d) = half d 14) by (unfold block_count; lia).
      rewrite (proj2 (prefixb_part d (asc "BMD0") eq_refl) M). cbn [guard bind]. rewrite std_view by lia. cbn [bind hVersion hBlocks]. rewrite V2. cbn [Z.eqb Pos.eqb guard bind]. rewrite words_fwd by lia. cbn [bind].
      apply (proj2 (blocks_iff (block_count d) m L)). split; assumption.
  Qed.
End File.

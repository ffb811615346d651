(** How sequences, sequence archives and sound archives are read, proofs for C108 and C109. *)
From Coq Require Import String.
From Verif Require Import PyBase PyLemmas PyTac CommonModel CommonLemmas WaveModel SeqModel SsarModel SbnkModel SdatModel SdatFat RomSpec SdatSpec ViewSpec ViewSdatSpec ViewLemmas ViewFiles ViewWave.

Lemma mapM_iff {A B} (f : A -> res B) l r : mapM f l = Ok r <-> List.length r = List.length l /\ forall j x y, nth_error l j = Some x -> nth_error r j = Some y -> f x = Ok y.
Proof.
  revert r. induction l as [|a l IH]; intros r.
  - cbn [mapM]. split; [intros H; injection H as <-; split; [reflexivity|intros [|j] x y X; discriminate]|]. intros (L & _). destruct r; [reflexivity|discriminate].
  - cbn [mapM]. split.
    + intros H. apply bind_ok in H as (b & F & H). apply bind_ok in H as (bs & M & H). injection H as <-. apply IH in M as (L & M). split; [cbn; lia|]. intros [|j] x y X Y; [cbn in X, Y; congruence|exact (M j x y X Y)].
    + intros (L & M). destruct r as [|b r]; [discriminate|]. rewrite (M 0%nat a b eq_refl eq_refl). cbn [bind]. rewrite (proj2 (IH r)); [reflexivity|]. split; [cbn in L; lia|]. intros j. exact (M (S j)).
Qed.
Lemma mapM_range_iff {A} (f : Z -> res A) n l : mapM f (range_z 0 n) = Ok l <-> List.length l = n /\ forall i x, nth_error l i = Some x -> f (Z.of_nat i) = Ok x.
Proof. split; [apply mapM_range_inv|]. intros (L & H). apply mapM_range_of; assumption. Qed.

(** ** sequences *)
Lemma signed_ok n w v : w = 8 * Z.of_nat n -> (0 < n)%nat -> 0 <= v < 2 ^ w -> sign_of n v = signed w v.
Proof.
  intros -> N V. unfold sign_of, signed. replace (256 ^ Z.of_nat n) with (2 ^ (8 * Z.of_nat n)) by (rewrite Z.pow_mul_r by lia; reflexivity).
  assert (E : 2 ^ (8 * Z.of_nat n) = 2 * 2 ^ (8 * Z.of_nat n - 1)) by (rewrite <- Z.pow_succ_r by lia; f_equal; lia). rewrite E.
  rewrite (Z.mul_comm 2), Z.div_mul by lia. reflexivity.
Qed.
Lemma sseq_view d info s : is_bytes d -> sseq_load d info = Ok s <-> 0x1C <= zlen d /\ part d 0 4 = asc "SSEQ" /\ half d 6 = 0x100 /\
  s = {| qParsed := false; qEvents := []; qData := part d (word d 0x18) (word d 8 - word d 0x18); qInfo := info |}.
Proof.
  intros B. split.
  - intros H. unfold sseq_load in H. repeat stp H. apply prefixb_part in G; [|reflexivity]. apply Z.eqb_eq in G0. injection H as <-.
    rewrite slice_part by (apply word_range; [exact B|lia|lia]). split; [lia|]. split; [exact G|]. split; [exact G0|reflexivity].
  - intros (L & M & V & ->). unfold sseq_load. rewrite (proj2 (prefixb_part d (asc "SSEQ") eq_refl) M). cbn [guard bind]. repeat fwd. rewrite V. cbn [Z.eqb Pos.eqb guard bind]. repeat fwd.
    rewrite slice_part by (apply word_range; [exact B|lia|lia]). reflexivity.
Qed.
Lemma row_view_ d i s : is_bytes d -> ssar_loadSeq d (Z.of_nat i) = Ok s <-> 0x20 + 12 * Z.of_nat i + 10 <= zlen d /\ s = archive_row d i.
Proof.
  intros B. unfold ssar_loadSeq, archive_row, unpack_s. cbv zeta. split.
  - intros H. apply bind_ok in H as (o & O & H). stp O. injection O as <-. repeat stp H. injection H as <-. split; [lia|]. unfold aseq_unparsed. rewrite (signed_ok 4 32) by first [reflexivity|lia|apply word_range; [exact B|lia|lia]]. reflexivity.
  - intros (L & ->). repeat fwd. rewrite (unpack_word d) by lia. cbn [bind]. repeat fwd. unfold aseq_unparsed. rewrite (signed_ok 4 32) by first [reflexivity|lia|apply word_range; [exact B|lia|lia]]. reflexivity.
Qed.
Lemma ssar_view d u names r : is_bytes d -> ssar_load d u names = Ok r <-> sound_head d "SSAR" "DATA" /\ 0x20 <= zlen d /\ (word d 0x1C = 0 \/ 0x20 + 12 * word d 0x1C <= zlen d + 2) /\
  r = {| rParsed := false; rEvents := []; rData := part d (word d 0x18) (word d 8 - word d 0x18);
         rSeqs := map (fun i => (nth i names None, archive_row d i)) (seq 0 (Z.to_nat (word d 0x1C))); rUnk := u |}.
Proof.
  intros B. unfold sound_head. split.
  - intros H. unfold ssar_load in H. stp H. apply prefixb_part in G; [|reflexivity]. apply bind_ok in H as (h & S & H). apply std_inv in S as (L & ->). cbn [hVersion hMagic hSize] in H. repeat stp H.
    apply Z.eqb_eq in G0. apply beq_eq in G2. apply bind_ok in H as (l & M & H). injection H as <-. pose proof (word_range d 0x1C B ltac:(lia) ltac:(lia)) as R. apply mapM_range_inv in M as (LL & M).
    assert (FE : forall i x, nth_error l i = Some x -> 0x20 + 12 * Z.of_nat i + 10 <= zlen d /\ x = (nth i names None, archive_row d i)).
    { intros i x X. apply M in X. apply bind_ok in X as (s & S & X). injection X as <-. apply row_view_ in S as (S1 & ->); [|exact B]. rewrite Nat2Z.id. split; [exact S1|reflexivity]. }
    rewrite slice_part by (apply word_range; [exact B|lia|lia]).
    split; [split; [lia|split; [exact G|split; [exact G0|exact G2]]]|]. split; [lia|]. split.
    + destruct (Z.to_nat (word d 0x1C)) as [|k] eqn:K; [lia|]. right. destruct (nth_error l k) as [x|] eqn:X; [|apply nth_error_None in X; lia]. apply FE in X as (X & _). lia.
    + f_equal. apply list_of_nth; [exact LL|]. intros i x X. apply FE in X as (_ & X). exact X.
  - intros ((L0 & M & V & D) & L & C & ->). pose proof (word_range d 0x1C B ltac:(lia) ltac:(lia)) as R. unfold ssar_load. head_fwd. repeat fwd. rewrite D, beq_refl. cbn [guard bind].
    rewrite (mapM_range _ (fun i => (nth i names None, archive_row d i))).
    + cbn [bind]. rewrite slice_part by (apply word_range; [exact B|lia|lia]). reflexivity.
    + intros i I. rewrite (proj2 (row_view_ d i _ B)) by (split; [lia|reflexivity]). cbn [bind]. rewrite Nat2Z.id. reflexivity.
Qed.

Lemma word_nonneg d o : is_bytes d -> 0 <= word d o.
Proof. intros B. apply unle_range. unfold slice. apply Forall_firstn_, Forall_skipn_, B. Qed.
(** ** names *)
Lemma before_nul_some l s : before_nul l = Some s -> exists post, l = s ++ 0 :: post /\ forall c, In c s -> c <> 0.
Proof.
  revert s. induction l as [|x l IH]; intros s H; [discriminate|]. cbn [before_nul] in H. destruct (Z.eqb_spec x 0) as [->|N].
  - injection H as <-. exists l. split; [reflexivity|intros c []].
  - destruct (before_nul l) as [t|]; [|discriminate]. injection H as <-. destruct (IH t eq_refl) as (post & -> & F). exists post. split; [reflexivity|]. intros c [<-|I]; [exact N|apply F, I].
Qed.
Lemma before_nul_none l : before_nul l = None -> forall c, In c l -> c <> 0.
Proof.
  induction l as [|x l IH]; intros H c I; [destruct I|]. cbn [before_nul] in H. destruct (Z.eqb_spec x 0) as [->|N]; [discriminate|]. destruct (before_nul l); [discriminate|]. destruct I as [<-|I]; [exact N|apply IH; [reflexivity|exact I]].
Qed.
Lemma text_view d o : 0 <= o -> loadNullTerminatedStringFrom d o 1 = text_at d o.
Proof.
  intros O. unfold text_at. destruct (Z.le_gt_cases (zlen d) o) as [L|L].
  { rewrite skipn_all2 by (unfold zlen in L; lia). cbn [before_nul removelast]. unfold loadNullTerminatedStringFrom, slice. generalize (find_in d (zeros 1) o (zlen d)). intros e.
    replace (clamp (zlen d) o) with (zlen d) by (unfold clamp; rewrite (proj2 (Z.ltb_ge o 0)) by lia; lia). rewrite (skipn_all2 d) by (unfold zlen; lia). apply firstn_nil. }
  pose proof (firstn_skipn (Z.to_nat o) d) as E. assert (ZL : zlen (firstn (Z.to_nat o) d) = o) by (unfold zlen in *; rewrite firstn_length; lia).
  destruct (before_nul (skipn (Z.to_nat o) d)) as [s|] eqn:S.
  - apply before_nul_some in S as (post & S & F). etransitivity; [|exact (loadstr1 (firstn (Z.to_nat o) d) s post F)]. change ([0] ++ post) with (0 :: post). rewrite <- S, E, ZL. reflexivity.
  - pose proof (before_nul_none _ S) as F. assert (0 < zlen (skipn (Z.to_nat o) d)) by (unfold zlen in *; rewrite skipn_length; lia).
    rewrite <- (loadstr1_missing (firstn (Z.to_nat o) d) _ F) by assumption. rewrite E, ZL. reflexivity.
Qed.
Section Names.
  Variable d : bytes. Hypothesis B : is_bytes d. Hypothesis L0 : 0x30 <= zlen d.
  Definition step (e a : Z) : Z := match name_at d a with None => e | Some s => word d a + zlen s + 1 end.
  Lemma symb0 : 0 <= symb d.
  Proof. apply word_range; [exact B|lia|lia]. Qed.
  Lemma symbol_fwd a last : 0 <= a -> a + 4 <= zlen d -> read_symbol d (symb d) a last = Ok (name_at d a, step last a).
  Proof.
    intros A L. unfold read_symbol, step, name_at. fwd. destruct (word d a =? 0); [reflexivity|]. pose proof symb0. pose proof (word_range d a B A L). rewrite text_view by lia. reflexivity.
  Qed.
  Lemma symbol_iff a last x : 0 <= a -> read_symbol d (symb d) a last = Ok x <-> a + 4 <= zlen d /\ x = (name_at d a, step last a).
  Proof.
    intros A. split.
    - intros H. assert (L : a + 4 <= zlen d) by (unfold read_symbol in H; stp H; lia). rewrite symbol_fwd in H by assumption. injection H as <-. split; [exact L|reflexivity].
    - intros (L & ->). apply symbol_fwd; assumption.
  Qed.
  Definition row4 (a : Z) (n : nat) : list Z := map (fun j => a + 4 * Z.of_nat j) (seq 0 n).
  Definition row8 (a : Z) (n : nat) : list Z := map (fun j => a + 8 * Z.of_nat j) (seq 0 n).
  Lemma row4_S a n : row4 a (S n) = a :: row4 (a + 4) n.
  Proof. unfold row4. cbn [seq map]. f_equal; [lia|]. rewrite <- seq_shift, map_map. apply map_ext. intros j. lia. Qed.
  Lemma row8_S a n : row8 a (S n) = a :: row8 (a + 8) n.
  Proof. unfold row8. cbn [seq map]. f_equal; [lia|]. rewrite <- seq_shift, map_map. apply map_ext. intros j. lia. Qed.
  Lemma loop_iff : forall n a last x, 0 <= a -> read_symbols_loop d (symb d) a last n = Ok x <->
    (n = 0%nat \/ a + 4 * Z.of_nat n <= zlen d) /\ x = (map (name_at d) (row4 a n), fold_left step (row4 a n) last).
  Proof.
    induction n as [|n IH]; intros a last x A.
    - cbn [read_symbols_loop]. split; [intros H; injection H as <-; split; [left; reflexivity|reflexivity]|intros (_ & ->); reflexivity].
    - rewrite row4_S. cbn [read_symbols_loop map fold_left]. split.
      + intros H. apply bind_ok in H as (y & Y & H). apply symbol_iff in Y as (L & ->); [|exact A]. cbn beta iota in H. apply bind_ok in H as (z & Z & H). apply IH in Z as (L2 & ->); [|lia]. injection H as <-. split; [right; lia|reflexivity].
      + intros (L & ->). rewrite symbol_fwd by lia. cbn [bind]. assert (Q : n = 0%nat \/ a + 4 + 4 * Z.of_nat n <= zlen d) by lia. rewrite (proj2 (IH (a + 4) (step last a) _ ltac:(lia)) (conj Q eq_refl)). reflexivity.
  Qed.
  Lemma places_row t : places d t = row4 (t + 4) (Z.to_nat (word d t)).
  Proof. reflexivity. Qed.
  Lemma symbols_iff o last x : 0 <= o -> read_symbols d (symb d) o last = Ok x <-> in_file d (symb d + o) /\ symb d + o + 4 <= zlen d /\ x = (map (name_at d) (places d (symb d + o)), fold_left step (places d (symb d + o)) last).
  Proof.
    intros O. pose proof symb0. unfold read_symbols, in_file. rewrite places_row. split.
    - intros H1. stp H1. pose proof (word_range d (symb d + o) B ltac:(lia) ltac:(lia)). apply loop_iff in H1 as (L1 & ->); [|lia]. split; [lia|]. split; [lia|reflexivity].
    - intros (L1 & L2 & ->). fwd. pose proof (word_range d (symb d + o) B ltac:(lia) ltac:(lia)). apply loop_iff; [lia|]. split; [right; lia|reflexivity].
  Qed.
  Definition steps8 (last : Z) (l : list Z) : Z := fold_left step (flat_map (fun a => a :: sub_places d a) l) last.
  Lemma nested_loop_iff : forall n a last x, 0 <= a -> read_nested_loop d (symb d) a last n = Ok x <->
    (n = 0%nat \/ a + 8 * Z.of_nat n <= zlen d) /\ (forall b, In b (row8 a n) -> word d (b + 4) <> 0 -> in_file d (symb d + word d (b + 4)) /\ symb d + word d (b + 4) + 4 <= zlen d) /\
    x = (map (fun b => (name_at d b, sub_names d b)) (row8 a n), steps8 last (row8 a n)).
  Proof.
    pose proof symb0 as S0. induction n as [|n IH]; intros a last x A.
    - cbn [read_nested_loop]. split; [intros H; injection H as <-; split; [left; reflexivity|split; [intros b []|reflexivity]]|intros (_ & _ & ->); reflexivity].
    - rewrite row8_S. cbn [read_nested_loop map]. assert (ST : forall l, steps8 last (a :: l) = steps8 (fold_left step (sub_places d a) (step last a)) l) by (intros l; unfold steps8; cbn [flat_map]; rewrite fold_left_app; reflexivity). rewrite ST. split.
      + intros H. apply bind_ok in H as (y & Y & H). apply symbol_iff in Y as (L & ->); [|exact A]. cbn beta iota in H. stp H. pose proof (word_range d (a + 4) B ltac:(lia) ltac:(lia)) as W.
        apply bind_ok in H as (z & Z & H).
        assert (K : (word d (a + 4) <> 0 -> in_file d (symb d + word d (a + 4)) /\ symb d + word d (a + 4) + 4 <= zlen d) /\ z = (sub_names d a, fold_left step (sub_places d a) (step last a))).
        { unfold sub_names, sub_places. destruct (Z.eqb_spec (word d (a + 4)) 0) as [E|E]; [injection Z as <-; split; [congruence|reflexivity]|]. apply symbols_iff in Z as (Z1 & Z2 & ->); [|lia]. split; [intros _; split; assumption|reflexivity]. }
        destruct K as (K & ->). cbn beta iota in H. apply bind_ok in H as (v & V & H). apply IH in V as (V1 & V2 & ->); [|lia]. injection H as <-. split; [right; lia|]. split; [|reflexivity].
        intros b [<-|I]; [exact K|apply V2, I].
      + intros (L & K & ->). rewrite symbol_fwd by lia. cbn [bind]. fwd. pose proof (word_range d (a + 4) B ltac:(lia) ltac:(lia)) as W.
        assert (Z : (if word d (a + 4) =? 0 then Ok ([], step last a) else read_symbols d (symb d) (word d (a + 4)) (step last a)) = Ok (sub_names d a, fold_left step (sub_places d a) (step last a))).
        { unfold sub_names, sub_places. destruct (Z.eqb_spec (word d (a + 4)) 0) as [E|E]; [reflexivity|]. apply symbols_iff; [lia|]. destruct (K a (or_introl eq_refl) E) as (K1 & K2). split; [exact K1|split; [exact K2|reflexivity]]. }
        rewrite Z. cbn [bind]. assert (Q : n = 0%nat \/ a + 8 + 8 * Z.of_nat n <= zlen d) by lia. rewrite (proj2 (IH (a + 8) (fold_left step (sub_places d a) (step last a)) _ ltac:(lia)) (conj Q (conj (fun b I => K b (or_intror I)) eq_refl))). reflexivity.
  Qed.
  Lemma nested_iff o last x : 0 <= o -> let t := symb d + o in read_nested d (symb d) o last = Ok x <-> t + 4 + 8 * word d t <= zlen d /\ t + 4 <= zlen d /\
    (forall b, In b (nested_places d t) -> word d (b + 4) <> 0 -> in_file d (symb d + word d (b + 4)) /\ symb d + word d (b + 4) + 4 <= zlen d) /\
    x = (map (fun b => (name_at d b, sub_names d b)) (nested_places d t), steps8 last (nested_places d t)).
  Proof.
    intros O t. assert (0 <= t) by (pose proof symb0; lia). unfold read_nested. fold t. clearbody t. change (nested_places d t) with (row8 (t + 4) (Z.to_nat (word d t))). split.
    - intros H1. stp H1. pose proof (word_range d t B ltac:(lia) ltac:(lia)). apply nested_loop_iff in H1 as (L1 & K & ->); [|lia]. split; [lia|]. split; [lia|]. split; [exact K|reflexivity].
    - intros (L1 & L2 & K & ->). fwd. pose proof (word_range d t B ltac:(lia) ltac:(lia)). apply nested_loop_iff; [lia|]. split; [right; lia|]. split; [exact K|reflexivity].
  Qed.
End Names.

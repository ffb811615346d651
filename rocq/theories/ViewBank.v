(** How sound banks are read, proofs for C110. *)
From Coq Require Import String.
From Verif Require Import PyBase PyLemmas PyTac CommonModel CommonLemmas WaveModel SbnkModel RomSpec ViewSpec ViewBankSpec ViewLemmas ViewFiles ViewWave ViewSdat SbnkBank.

Lemma skipn_nth (l : bytes) : forall k, (k < List.length l)%nat -> skipn k l = nth k l 0 :: skipn (S k) l.
Proof. induction l as [|x l IH]; intros k K; [cbn in K; lia|]. destruct k as [|k]; [reflexivity|]. cbn [skipn nth]. cbn in K. rewrite IH by lia. reflexivity. Qed.
Lemma bytes_part d : forall n o, 0 <= o -> o + Z.of_nat n <= zlen d -> part d o (Z.of_nat n) = map (fun i => byte d (o + Z.of_nat i)) (seq 0 n).
Proof.
  induction n as [|n IH]; intros o O L; [unfold part; reflexivity|].
  replace (seq 0 (S n)) with (0%nat :: map S (seq 0 n)) by (cbn [seq]; rewrite seq_shift; reflexivity). cbn [map]. rewrite map_map. rewrite (map_ext _ (fun i => byte d (o + 1 + Z.of_nat i))) by (intros; f_equal; lia). rewrite <- IH by lia.
  unfold part. replace (Z.to_nat (Z.of_nat (S n))) with (S n) by lia. replace (Z.to_nat (Z.of_nat n)) with n by lia. replace (Z.to_nat (o + 1)) with (S (Z.to_nat o)) by lia.
  assert (N : (Z.to_nat o < List.length d)%nat) by (unfold zlen in L; lia). rewrite Z.add_0_r, (skipn_nth d (Z.to_nat o)) by exact N. reflexivity.
Qed.

Section Bank.
  Variable d : bytes. Hypothesis B : is_bytes d.
  Lemma note_iff o n k t x : 0 <= o -> 0 <= k -> k + 10 <= n -> note_read (slice d o (o + n)) k t = Ok x <-> o + k + 10 <= zlen d /\ x = note_at d (o + k) t.
  Proof.
    intros O K N. rewrite slice_part by lia. replace (o + n - o) with n by lia. unfold note_read. split.
    - intros H. assert (L : o + k + 10 <= zlen d). { repeat stp H. rewrite zlen_part_min in * by lia. lia. }
      repeat stp H. injection H as <-. split; [exact L|]. unfold note_at. rewrite !half_in, !byte_in by lia. rewrite !Z.add_assoc. reflexivity.
    - intros (L & ->). assert (Q : k + 10 <= zlen (part d o n)) by (rewrite zlen_part_min by lia; lia). repeat fwd. unfold note_at. rewrite !half_in, !byte_in by lia. rewrite !Z.add_assoc. reflexivity.
  Qed.
  Lemma typed_iff o x : 0 <= o -> note_fromDataWithType (slice d o (o + 12)) = Ok x <-> o + 12 <= zlen d /\ x = typed_note_at d o.
  Proof.
    intros O. unfold note_fromDataWithType, typed_note_at. split.
    - intros H. apply bind_ok in H as (t & T & H). apply note_iff in H as (H & ->); [|lia|lia|lia]. apply half_inv in T as (T & ->); [|lia]. rewrite slice_part, half_in in * by lia. rewrite Z.add_0_r. split; [lia|reflexivity].
    - intros (L & ->). rewrite slice_part, unpack_half by (rewrite ?slice_part, ?zlen_part_min; lia). cbn [bind]. rewrite half_in, Z.add_0_r by lia. rewrite <- slice_part by lia. replace (o + 12 - o + o) with (o + 12) by lia. replace (slice d o (o + (o + 12 - o))) with (slice d o (o + 12)) by (f_equal; lia). apply note_iff; [lia|lia|lia|]. split; [lia|reflexivity].
  Qed.
  Lemma single_iff t o x : 0 <= o -> single_fromData t d o = Ok x <-> o + 10 <= zlen d /\ x = (Single (note_at d o t), 10).
  Proof.
    intros O. unfold single_fromData, note_fromData. split.
    - intros H. apply bind_ok in H as (n & N & H). apply note_iff in N as (N & ->); [|lia|lia|lia]. injection H as <-. rewrite Z.add_0_r. split; [lia|reflexivity].
    - intros (L & ->). rewrite (proj2 (note_iff o 10 0 t (note_at d o t) ltac:(lia) ltac:(lia) ltac:(lia))); [reflexivity|]. rewrite Z.add_0_r. split; [lia|reflexivity].
  Qed.
  Lemma range_iff o x : 0 <= o -> range_fromData d o = Ok x <-> o + 2 <= zlen d /\ o + 2 + 12 * Z.of_nat (range_count d o) <= zlen d /\
    x = (Ranged (byte d o) (map (fun i => typed_note_at d (o + 2 + 12 * Z.of_nat i)) (seq 0 (range_count d o))), 2 + 12 * Z.of_nat (range_count d o)).
  Proof.
    intros O. unfold range_fromData. cbv zeta. split.
    - intros H. repeat stp H. fold (range_count d o) in H. apply bind_ok in H as (l & M & H). injection H as <-. apply mapM_range_inv in M as (LL & M).
      assert (F : forall i y, nth_error l i = Some y -> o + 2 + 12 * Z.of_nat i + 12 <= zlen d /\ y = typed_note_at d (o + 2 + 12 * Z.of_nat i)) by (intros i y Y; apply M in Y; apply typed_iff in Y; [exact Y|lia]).
      split; [lia|]. split.
      + destruct (range_count d o) as [|k] eqn:K; [lia|]. destruct (nth_error l k) as [y|] eqn:Y; [|apply nth_error_None in Y; lia]. apply F in Y as (Y & _). lia.
      + f_equal; [f_equal; apply list_of_nth; [exact LL|]; intros i y Y; apply F in Y as (_ & Y); exact Y|]. unfold zlen. rewrite LL. reflexivity.
    - intros (L1 & L2 & ->). repeat fwd. fold (range_count d o). rewrite (mapM_range _ (fun i => typed_note_at d (o + 2 + 12 * Z.of_nat i))).
      + cbn [bind]. unfold zlen. rewrite map_length, seq_length. reflexivity.
      + intros i I. apply typed_iff; [lia|]. split; [lia|reflexivity].
  Qed.
  Lemma regions_iff o : 0 <= o -> o + 8 <= zlen d -> forall m k x, (k + m = 8)%nat -> (0 < k)%nat ->
    let c := nonzero (part d (o + Z.of_nat k) (Z.of_nat m)) in
    regions_loop d o (Z.of_nat k) (part d (o + Z.of_nat k) (Z.of_nat m)) = Ok x <->
    (c = 0%nat \/ o + 8 + 12 * Z.of_nat (k + c) <= zlen d) /\ x = map (fun i => (byte d (o + Z.of_nat i), typed_note_at d (o + 8 + 12 * Z.of_nat i))) (seq k c).
  Proof.
    intros O L. induction m as [|m IH]; intros k x K K0 c.
    - unfold c, part. cbn [Z.of_nat Z.to_nat firstn regions_loop nonzero seq map]. split; [intros H; injection H as <-; split; [left; reflexivity|reflexivity]|intros (_ & ->); reflexivity].
    - assert (E : part d (o + Z.of_nat k) (Z.of_nat (S m)) = byte d (o + Z.of_nat k) :: part d (o + Z.of_nat (S k)) (Z.of_nat m)).
      { rewrite !bytes_part by lia. replace (seq 0 (S m)) with (0%nat :: map S (seq 0 m)) by (cbn [seq]; rewrite seq_shift; reflexivity). cbn [map]. rewrite map_map. f_equal; [f_equal; lia|]. apply map_ext. intros i. f_equal. lia. }
      unfold c. clear c. rewrite E. cbn [regions_loop nonzero]. replace (Z.of_nat k =? 0) with false by lia. cbn [negb]. rewrite andb_true_r. destruct (Z.eqb_spec (byte d (o + Z.of_nat k)) 0) as [Z|Z].
      + split; [intros H; injection H as <-; split; [left; reflexivity|reflexivity]|intros (_ & ->); reflexivity].
      + specialize (IH (S k)). cbv zeta in IH. replace (Z.of_nat k + 1) with (Z.of_nat (S k)) by lia. set (c := nonzero (part d (o + Z.of_nat (S k)) (Z.of_nat m))) in *. cbn [seq map]. split.
        * intros H. apply bind_ok in H as (n & N & H). apply typed_iff in N as (N & ->); [|lia]. apply bind_ok in H as (r & R & H). injection H as <-. apply IH in R as (R & ->); [|lia|lia]. split; [right; lia|reflexivity].
        * intros (H & ->). rewrite (proj2 (typed_iff (o + 8 + 12 * Z.of_nat k) (typed_note_at d (o + 8 + 12 * Z.of_nat k)) ltac:(lia))) by (split; [lia|reflexivity]). cbn [bind]. rewrite (proj2 (IH _ ltac:(lia) ltac:(lia))) by (split; [lia|reflexivity]). reflexivity.
  Qed.
  Lemma regional_iff o x : 0 <= o -> regional_fromData d o = Ok x <-> o + 8 <= zlen d /\ o + 8 + 12 * Z.of_nat (region_count d o) <= zlen d /\
    x = (Regional (map (fun i => (byte d (o + Z.of_nat i), typed_note_at d (o + 8 + 12 * Z.of_nat i))) (seq 0 (region_count d o))), 8 + 12 * Z.of_nat (region_count d o)).
  Proof.
    intros O. unfold regional_fromData.
    assert (E : o + 8 <= zlen d -> part d o 8 = byte d o :: part d (o + Z.of_nat 1) (Z.of_nat 7)).
    { intros L. change 8 with (Z.of_nat 8). rewrite !bytes_part by lia. cbn [seq map]. rewrite !Z.add_0_r, <- !Z.add_assoc. reflexivity. }
    assert (R : o + 8 <= zlen d -> forall r, regions_loop d o 0 (part d o 8) = Ok r <-> o + 8 + 12 * Z.of_nat (region_count d o) <= zlen d /\ r = map (fun i => (byte d (o + Z.of_nat i), typed_note_at d (o + 8 + 12 * Z.of_nat i))) (seq 0 (region_count d o))).
    { intros L r. rewrite E by exact L. cbn [regions_loop]. replace (negb (0 =? 0)) with false by reflexivity. rewrite andb_false_r. pose proof (regions_iff o O L 7 1) as IH. cbv zeta in IH. replace (0 + 1) with (Z.of_nat 1) by lia.
      assert (RC : region_count d o = S (nonzero (part d (o + Z.of_nat 1) (Z.of_nat 7)))) by reflexivity. rewrite RC. cbn [seq map]. set (c := nonzero _) in *. replace (o + 8 + 12 * 0) with (o + 8 + 12 * Z.of_nat 0) by lia. split.
      - intros H. apply bind_ok in H as (n & N & H). apply typed_iff in N as (N & ->); [|lia]. apply bind_ok in H as (l & R & H). injection H as <-. apply IH in R as (R & ->); [|lia|lia]. split; [lia|]. change (Z.of_nat 0) with 0. rewrite !Z.add_0_r. reflexivity.
      - intros (H & ->). rewrite (proj2 (typed_iff (o + 8 + 12 * Z.of_nat 0) (typed_note_at d (o + 8 + 12 * Z.of_nat 0)) ltac:(lia))) by (split; [lia|reflexivity]). cbn [bind]. rewrite (proj2 (IH _ ltac:(lia) ltac:(lia))) by (split; [lia|reflexivity]). cbn [bind]. change (Z.of_nat 0) with 0. rewrite !Z.add_0_r. reflexivity. }
    split.
    - intros H. apply bind_ok in H as (e & X & H). apply rd_inv in X as (L & ->); [|lia|lia]. apply bind_ok in H as (r & X & H). apply (R L) in X as (X & ->). apply SeqRead.ok_inj in H. rewrite <- H. split; [exact L|]. split; [exact X|]. unfold zlen. rewrite map_length, seq_length. reflexivity.
    - intros (L & L2 & ->). rewrite rd_in by lia. cbn [bind]. rewrite (proj2 (R L _) (conj L2 eq_refl)). cbn [bind]. unfold zlen. rewrite map_length, seq_length. reflexivity.
  Qed.
  Definition made (t o : Z) : option inst := if t =? 0 then None else Some {| iBody := body_at d t o; iKey := o; iMerge := o |}.
  Lemma make_iff t o x : 0 <= t -> 0 <= o -> makeInstrumentAt d t o = Ok x <-> (t <> 0 -> body_fits d t o) /\ x = (made t o, if t =? 0 then 0 else body_size d t o).
  Proof.
    intros T O. unfold makeInstrumentAt, made, body_fits, body_at, body_size. destruct (Z.eqb_spec t 0) as [E|E].
    - split; [intros H; injection H as <-; split; [congruence|reflexivity]|intros (_ & ->); reflexivity].
    - destruct (Z.ltb_spec t 16) as [A|A].
      + rewrite (proj2 (Z.eqb_neq t 16)), (proj2 (Z.eqb_neq t 17)) by lia. split.
        * intros H. apply bind_ok in H as (y & Y & H). apply single_iff in Y as (Y & ->); [|lia]. injection H as <-. split; [intros _; lia|reflexivity].
        * intros (H & ->). rewrite (proj2 (single_iff t o _ O)) by (split; [lia|reflexivity]). reflexivity.
      + destruct (Z.eqb_spec t 16) as [A1|A1]; [|destruct (Z.eqb_spec t 17) as [A2|A2]].
        * split.
          -- intros H. apply bind_ok in H as (y & Y & H). apply range_iff in Y as (Y & Y2 & ->); [|lia]. injection H as <-. split; [intros _; lia|reflexivity].
          -- intros (H & ->). rewrite (proj2 (range_iff o _ O)) by (split; [lia|split; [lia|reflexivity]]). reflexivity.
        * split.
          -- intros H. apply bind_ok in H as (y & Y & H). apply regional_iff in Y as (Y & Y2 & ->); [|lia]. injection H as <-. split; [intros _; lia|reflexivity].
          -- intros (H & ->). rewrite (proj2 (regional_iff o _ O)) by (split; [lia|split; [lia|reflexivity]]). reflexivity.
        * split; [intros H; discriminate H|intros (H & _); lia].
  Qed.
  Lemma table_iff : forall n k un, (forall is m un', load_table d (range_z (Z.of_nat k) n) un = Ok (is, m, un') ->
      (n = 0%nat \/ 0x3C + 4 * Z.of_nat (k + n) <= zlen d) /\ (forall j, (k <= j < k + n)%nat -> row_type d j <> 0 -> body_fits d (row_type d j) (row_offset d j)) /\ is = map (instrument_at d) (seq k n) /\ exists f, un' = filter f un) /\
    ((n = 0%nat \/ 0x3C + 4 * Z.of_nat (k + n) <= zlen d) -> (forall j, (k <= j < k + n)%nat -> row_type d j <> 0 -> body_fits d (row_type d j) (row_offset d j)) -> exists m un', load_table d (range_z (Z.of_nat k) n) un = Ok (map (instrument_at d) (seq k n), m, un')).
  Proof.
    induction n as [|n IH]; intros k un.
    - unfold range_z. cbn [seq map load_table]. split.
      + intros is m un' H. injection H as <- <- <-. split; [left; reflexivity|]. split; [lia|]. split; [reflexivity|]. exists (fun _ => true). clear. induction un as [|x un IH]; [reflexivity|cbn; congruence].
      + intros _ _. do 2 eexists. reflexivity.
    - replace (range_z (Z.of_nat k) (S n)) with (Z.of_nat k :: range_z (Z.of_nat (S k)) n) by (cbn [range_z]; f_equal; f_equal; lia).
      cbn [load_table seq map]. split.
      + intros is m un' H. repeat stp H. apply bind_ok in H as (y & Y & H). change (ViewSpec.byte d (0x3C + 4 * Z.of_nat k)) with (row_type d k) in Y. replace (60 + 4 * Z.of_nat k + 1) with (0x3D + 4 * Z.of_nat k) in Y, H by lia. change (half d (0x3D + 4 * Z.of_nat k)) with (row_offset d k) in Y, H.
        apply make_iff in Y as (Y & ->); [|apply byte_range; [exact B|lia]|apply half_range; [exact B|lia|lia]]. cbn beta iota in H. apply bind_ok in H as (((is1 & m1) & un1) & R & H). cbn beta iota in H. injection H as <- <- <-. apply IH in R as (R1 & R2 & -> & f & R3).
        split; [right; lia|]. split; [intros j J; destruct (Nat.eq_dec j k) as [->|]; [exact Y|apply R2; lia]|]. split; [reflexivity|]. rewrite R3. unfold consume. clear. exists (fun x => negb ((row_offset d k <=? x) && (x <? row_offset d k + (if row_type d k =? 0 then 0 else body_size d (row_type d k) (row_offset d k)))) && f x).
        induction un as [|x un IH]; [reflexivity|]. cbn [filter]. destruct (negb _); cbn [andb filter]; [destruct (f x)|]; rewrite ?IH; reflexivity.
      + intros L F. rewrite unpack_byte by lia. cbn [bind]. rewrite unpack_half by lia. cbn [bind]. rewrite unpack_byte by lia. cbn [bind]. change (ViewSpec.byte d (0x3C + 4 * Z.of_nat k)) with (row_type d k). replace (60 + 4 * Z.of_nat k + 1) with (0x3D + 4 * Z.of_nat k) by lia. change (half d (0x3D + 4 * Z.of_nat k)) with (row_offset d k).
        rewrite (proj2 (make_iff (row_type d k) (row_offset d k) (made (row_type d k) (row_offset d k), if row_type d k =? 0 then 0 else body_size d (row_type d k) (row_offset d k)) ltac:(apply byte_range; [exact B|lia]) ltac:(apply half_range; [exact B|lia|lia]))) by (split; [apply F; lia|reflexivity]).
        cbn [bind]. destruct (proj2 (IH (S k) (consume (row_offset d k) (if row_type d k =? 0 then 0 else body_size d (row_type d k) (row_offset d k)) un))) as (m & un' & R); [lia|intros j J; apply F; lia|]. rewrite R. cbn [bind]. do 2 eexists. reflexivity.
  Qed.

  (** the search for unlisted instruments reads nothing behind the end if the size in
      the header is not too large *)
  Lemma run_bound : forall un x r s, un = x :: r -> (forall y, In y un -> y < s) -> x + run_length x un <= s.
  Proof.
    assert (G : forall un x s, (forall y, In y un -> y < s) -> run_length x un = 0 \/ x + run_length x un <= s).
    { induction un as [|y un IH]; intros x s H; [left; reflexivity|]. cbn [run_length]. destruct (Z.eqb_spec y x) as [->|]; [|left; reflexivity]. right. assert (x < s) by (apply H; left; reflexivity). destruct (IH (x + 1) s); [intros z Z; apply H; right; exact Z| |]; lia. }
    intros un x r s -> H. cbn [run_length]. rewrite Z.eqb_refl. assert (x < s) by (apply H; left; reflexivity). destruct (G r (x + 1) s) as [E|E]; [intros y Y; apply H; right; exact Y| |]; lia.
  Qed.
  Lemma get_in i : 0 <= i < zlen d -> exists x, get d i = Ok x.
  Proof. intros I. destruct (nth_error d (Z.to_nat i)) as [x|] eqn:X; [|apply nth_error_None in X; unfold zlen in I; lia]. exists x. apply get_nth; [lia|exact X]. Qed.
  Lemma single_ok order start p avail : 0 <= start -> 14 <= avail -> start + avail <= zlen d -> exists t, guess_single order d start avail p = Ok t.
  Proof.
    intros S A L.
    assert (R : forall q, exists t, guess_range order d start avail q = Ok t).
    { intros q. unfold guess_range. rewrite slice_part by lia. replace (start + 2 - start) with (Z.of_nat 2) by lia. rewrite bytes_part by lia. cbn [seq map]. destruct (inb 16 q); cbn [bind]; destruct (few _); eexists; reflexivity. }
    unfold guess_single. destruct (inb 1 p).
    - destruct (get_in (start + 1) ltac:(lia)) as (b1 & E1). destruct (get_in (start + 3) ltac:(lia)) as (b3 & E3). destruct (get_in (start + 4) ltac:(lia)) as (b4 & E4). rewrite E1, E3, E4. cbn [bind]. cbv zeta.
      destruct (b4 =? 0x3C); [eexists; reflexivity|]. destruct (few _); [eexists; reflexivity|]. apply R.
    - destruct (few p); [eexists; reflexivity|]. apply R.
  Qed.
  Lemma possible_cases a b : In (possible_types a b) [[1; 16; 17]; [16; 17]; [17]; [1; 16]; [1]; [16]; []].
  Proof.
    unfold possible_types. destruct a as [s|]; [destruct (Z.geb_spec s 16); destruct (Z.eqb_spec s 17); try lia|]; (destruct b as [t|]; [destruct (Z.leb_spec t 16); destruct (Z.ltb_spec t 16); try lia|]); vm_compute; tauto.
  Qed.
  Lemma guess_ok order start a b avail : 0 <= start -> start + avail <= zlen d -> exists t, guessInstrumentType order d start (possible_types a b) avail = Ok t.
  Proof.
    intros S L. unfold guessInstrumentType. pose proof (single_ok order start) as G. destruct (Z.ltb_spec avail 14) as [A|A].
    - cbv zeta. replace (avail <? 2 + 12) with true by lia. replace (avail <? 8 + 12) with true by lia. clear G. destruct (possible_cases a b) as [E|[E|[E|[E|[E|[E|[E|[]]]]]]]]; rewrite <- E; destruct (avail <? 10); eexists; reflexivity.
    - cbv zeta. destruct (few _); [eexists; reflexivity|]. destruct (few _); [eexists; reflexivity|]. apply G; lia.
  Qed.
  Lemma in_remove x y l : In x (remove_z y l) -> In x l.
  Proof. unfold remove_z. rewrite filter_In. tauto. Qed.
  Lemma remove_shorter x l : (List.length (remove_z x l) <= List.length l)%nat.
  Proof. unfold remove_z. induction l as [|y l IH]; [reflexivity|]. cbn [filter]. destruct (negb _); cbn [List.length]; lia. Qed.
  Lemma filter_shorter (f : Z -> bool) l : (List.length (filter f l) <= List.length l)%nat.
  Proof. induction l as [|y l IH]; [reflexivity|]. cbn [filter]. destruct (f y); cbn [List.length]; lia. Qed.
  Lemma scan_ok order size insts m : size <= zlen d -> forall fuel un acc, (List.length un < fuel)%nat -> (forall y, In y un -> 0 <= y < size) -> exists r, scan fuel order d size insts m un acc = Ok r.
  Proof.
    intros L. induction fuel as [|k IH]; intros un acc F U; [lia|]. cbn [scan]. destruct un as [|x0 un0] eqn:EU; [eexists; reflexivity|]. rewrite <- EU in *. clear EU x0 un0.
    assert (D : forall y, In y (drop_padding size un) -> In y un). { unfold drop_padding. destruct (_ && _ && _); [|tauto]. intros y Y. apply in_remove, in_remove in Y. exact Y. }
    assert (DL : (List.length (drop_padding size un) <= List.length un)%nat). { unfold drop_padding. destruct (_ && _ && _); [|lia]. pose proof (remove_shorter (size - 2) (remove_z (size - 1) un)). pose proof (remove_shorter (size - 1) un). lia. }
    destruct (drop_padding size un) as [|this rest] eqn:E; [eexists; reflexivity|]. cbv zeta.
    assert (TH : 0 <= this < size) by (apply U, D; left; reflexivity).
    destruct (guess_ok order this (type_of_id insts (prev_of this m)) (type_of_id insts (next_of this m)) (run_length this (this :: rest))) as (t & T); [lia| |].
    { pose proof (run_bound (this :: rest) this rest size eq_refl ltac:(intros y Y; apply U, D; exact Y)). lia. }
    rewrite T. cbn [bind].
    assert (SK : forall acc, exists r, scan k order d size insts m (remove_z (this + 1) (remove_z this (this :: rest))) acc = Ok r).
    { intros acc'. apply IH; [|intros y Y; apply U, D; apply in_remove, in_remove in Y; exact Y]. pose proof (remove_shorter (this + 1) (remove_z this (this :: rest))). assert (List.length (remove_z this (this :: rest)) <= List.length rest)%nat by (unfold remove_z; cbn [filter]; rewrite Z.eqb_refl; cbn [negb]; apply filter_shorter). cbn [List.length] in DL. lia. }
    destruct t as [t|]; [|apply SK]. destruct (makeInstrumentAt d t this) as [[[i|] n]|e] eqn:M; [|apply SK|apply SK].
    assert (N0 : 0 < n). { unfold makeInstrumentAt in M. destruct (t =? 0); [discriminate|]. apply bind_ok in M as (y & Y & M). destruct y as [b n']. injection M as _ <-.
      destruct (t <? 16); [unfold single_fromData in Y; apply bind_ok in Y as (? & _ & Y); injection Y as _ <-; lia|]. destruct (t =? 16).
      - apply range_iff in Y as (_ & _ & Y); [|lia]. injection Y as _ ->. lia.
      - destruct (t =? 17); [|discriminate]. apply regional_iff in Y as (_ & _ & Y); [|lia]. injection Y as _ ->. lia. }
    apply IH; [|intros y Y; apply U, D; unfold consume in Y; apply filter_In in Y; apply Y].
    unfold consume. cbn [filter]. replace ((this <=? this) && (this <? this + n)) with true by (symmetry; apply andb_true_iff; lia). cbn [negb]. pose proof (filter_shorter (fun x => negb ((this <=? x) && (x <? this + n))) rest). cbn [List.length] in DL. lia.
  Qed.

  Lemma bank_read order u wars b : sbnk_load order d u wars = Ok b -> bank_shape d /\ bInsts b = map (instrument_at d) (seq 0 (Z.to_nat (word d 0x38))) /\ bUnk b = u /\ bWars b = match wars with Some l => strip_none l | None => [] end.
  Proof.
    intros H. unfold sbnk_load in H. stp H. apply prefixb_part in G; [|reflexivity]. apply bind_ok in H as (h & S & H). apply std_inv in S as (L & ->). cbn [hVersion hMagic hSize] in H. repeat stp H. apply bind_ok in H as (((is & m) & un) & T & H). cbn beta iota in H. apply bind_ok in H as (acc & _ & H). apply SeqRead.ok_inj in H. rewrite <- H. clear H. cbn [bInsts bUnk bWars].
    pose proof (word_range d 0x38 B ltac:(lia) ltac:(lia)) as R. apply (proj1 (table_iff _ 0 _)) in T as (T1 & T2 & -> & _). apply Z.eqb_eq in G1. apply beq_eq in G2. split; [|split; [reflexivity|split; reflexivity]].
    unfold bank_shape, sound_head. split; [split; [lia|split; [exact G|split; [exact G1|exact G2]]]|]. split; [lia|]. split; [lia|]. intros j J. apply T2. lia.
  Qed.
  Lemma bank_accepted order u wars : bank_shape d -> word d 8 <= zlen d -> exists b, sbnk_load order d u wars = Ok b.
  Proof.
    intros ((L0 & M & V & D) & L1 & L2 & F) SZ. pose proof (word_range d 0x38 B ltac:(lia) ltac:(lia)) as R. unfold sbnk_load. head_fwd. rewrite rd_in by lia. cbn [bind]. rewrite unpack_word by lia. cbn [bind]. rewrite unpack_word by lia. cbn [bind]. rewrite D, beq_refl. cbn [guard bind]. cbv zeta.
    set (un := range_z (0x3C + word d 0x38 * 4) _). destruct (proj2 (table_iff (Z.to_nat (word d 0x38)) 0 un)) as (m & un' & T); [lia|intros j J; apply F; lia|].
    pose proof (proj1 (table_iff _ 0 un) _ _ _ T) as (_ & _ & _ & f & UF). change (Z.of_nat 0) with 0 in T. rewrite T. cbn [bind].
    destruct (scan_ok order (word d 8) (map (instrument_at d) (seq 0 (Z.to_nat (word d 0x38)))) m SZ (S (List.length un')) un' []) as (r & RR); [lia| |].
    - intros y Y. rewrite UF in Y. apply filter_In in Y as (Y & _). unfold un in Y. apply in_range_z in Y. lia.
    - rewrite RR. cbn [bind]. eexists. reflexivity.
  Qed.
End Bank.

(** How message files are read, proofs for C113. *)
From Coq Require Import String.
From Verif Require Import PyBase PyLemmas PyTac BmgModel BmgScan BmgExact RomSpec ViewSpec ViewSdatSpec ViewBmgSpec ViewLemmas ViewFiles ViewWave ViewSdat.

(** ** numbers *)
Lemma num_in e n d o : 0 <= o -> o + Z.of_nat n <= zlen d -> unpack_e e n d o = Ok (num e (Z.of_nat n) d o).
Proof. intros O L. unfold unpack_e. rewrite rd_in by lia. reflexivity. Qed.
Lemma num_inv e n d o v : 0 <= o -> unpack_e e n d o = Ok v -> o + Z.of_nat n <= zlen d /\ v = num e (Z.of_nat n) d o.
Proof. intros O H. unfold unpack_e in H. apply bind_ok in H as (b & R & H). apply rd_inv in R as (L & ->); [|lia|lia]. apply SeqRead.ok_inj in H. split; [lia|symmetry; exact H]. Qed.
Lemma dec_range e l : is_bytes l -> 0 <= dec e l < 256 ^ zlen l.
Proof.
  intros B. destruct e; cbn [dec]; [apply unle_range; exact B|]. unfold unbe. replace (zlen l) with (zlen (rev l)) by (unfold zlen; rewrite rev_length; reflexivity). apply unle_range. apply Forall_rev. exact B.
Qed.
Lemma num_nonneg e n d o : is_bytes d -> 0 <= num e n d o.
Proof. intros B. unfold num. apply dec_range. apply is_bytes_part. exact B. Qed.
Lemma num_lt e n d o : is_bytes d -> 0 <= o -> 0 <= n -> o + n <= zlen d -> num e n d o < 256 ^ n.
Proof. intros B O N L. unfold num. pose proof (dec_range e (part d o n) (is_bytes_part _ _ _ B)) as R. rewrite zlen_part in R by lia. apply R. Qed.
Ltac stpe H := match type of H with
  | bind (unpack_e _ _ _ _) _ = Ok _ => let x := fresh "x" in let E := fresh "E" in let L := fresh "L" in apply bind_ok in H as (x & E & H); apply num_inv in E as (L & ->); [|lia]; change (Z.of_nat 1) with 1 in H, L; change (Z.of_nat 2) with 2 in H, L; change (Z.of_nat 4) with 4 in H, L
  | _ => stp H
  end; cbv beta in H.
Ltac fwde := match goal with
  | |- bind (unpack_e ?e ?n ?d ?o) _ = _ => rewrite (num_in e n d o) by lia; change (Z.of_nat 1) with 1; change (Z.of_nat 2) with 2; change (Z.of_nat 4) with 4
  | _ => fwd
  end; cbn [bind].

(** ** characters *)
Lemma unit_is e n dat o v : is_bytes dat -> 0 <= o -> (n = 1%nat \/ n = 2%nat) -> 0 <= v < 256 ->
  slice dat o (o + Z.of_nat n) = enc e n v <-> o + Z.of_nat n <= zlen dat /\ num e (Z.of_nat n) dat o = v.
Proof.
  intros B O N V. rewrite slice_part0 by lia. assert (VR : 0 <= v < 256 ^ Z.of_nat n) by (destruct N; subst n; cbn; lia). split.
  - intros E. assert (L : o + Z.of_nat n <= zlen dat).
    { apply (f_equal zlen) in E. rewrite zlen_enc, zlen_part_min in E by lia. lia. }
    split; [exact L|]. unfold num. rewrite E. apply dec_enc. exact VR.
  - intros (L & E). unfold num in E. rewrite <- E. assert (Bp : is_bytes (part dat o (Z.of_nat n))) by (apply is_bytes_part; exact B). pose proof (zlen_part dat o (Z.of_nat n) O ltac:(lia) L) as LP. revert Bp LP. generalize (part dat o (Z.of_nat n)) as u. clear. intros u Bp LP.
    assert (LN : List.length u = n) by (unfold zlen in LP; lia). destruct e; cbn [dec enc].
    + symmetry. apply le_unle_n; assumption.
    + unfold be, unbe. rewrite le_unle_n; [rewrite rev_involutive; reflexivity|apply Forall_rev; exact Bp|rewrite rev_length; exact LN].
Qed.

Section Scan.
  Variables (n : nat) (e : endian) (c : codec) (dat : bytes).
  Hypothesis B : is_bytes dat. Hypothesis N : n = 1%nat \/ n = 2%nat.
  Local Notation w := (Z.of_nat n).
  Local Notation nul := (enc e n 0).
  Local Notation esc := (enc e n 26).
  Local Notation stretch := (stretch w e dat).
  Local Notation text_part := (text_part (c_dec c) dat).
  Local Notation spelled := (spelled w e (c_dec c) dat).
  Lemma w_pos : 1 <= w <= 2.
  Proof. destruct N; subst n; cbn; lia. Qed.
  Lemma flush_iff start off parts r : 0 <= start <= off -> flush c dat start off parts = Ok r <-> exists ps, r = parts ++ ps /\ text_part start off ps.
  Proof.
    intros S. unfold flush, ViewBmgSpec.text_part. rewrite (Z.eqb_sym off start). rewrite <- negb_orb. destruct ((start =? 0) || (start =? off)) eqn:E; cbn [negb].
    - split; [intros H; apply SeqRead.ok_inj in H; exists []; rewrite app_nil_r; split; [symmetry; exact H|reflexivity]|]. intros (ps & -> & ->). rewrite app_nil_r. reflexivity.
    - rewrite slice_part by lia. split.
      + intros H. apply bind_ok in H as (s & D & H). apply SeqRead.ok_inj in H. exists [Txt s]. split; [symmetry; exact H|]. exists s. split; [exact D|reflexivity].
      + intros (ps & -> & s & D & ->). rewrite D. reflexivity.
  Qed.
  Lemma two_bytes o : 0 <= o -> match slice dat o (o + 2) with [l; t] => o + 2 <= zlen dat /\ l = ViewSpec.byte dat o /\ t = ViewSpec.byte dat (o + 1) | _ => ~ o + 2 <= zlen dat end.
  Proof.
    intros O. rewrite slice_part0 by lia. destruct (Z.le_gt_cases (o + 2) (zlen dat)) as [L|L].
    - assert (E : part dat o 2 = [ViewSpec.byte dat o; ViewSpec.byte dat (o + 1)]).
      { unfold part. change (Z.to_nat 2) with 2%nat. rewrite skipn_byte by lia. replace (Datatypes.S (Z.to_nat o)) with (Z.to_nat (o + 1)) by lia. rewrite skipn_byte by lia. reflexivity. }
      rewrite E. split; [lia|]. split; reflexivity.
    - pose proof (zlen_part_min dat o 2 O ltac:(lia)) as LP. destruct (part dat o 2) as [|a [|b [|x r]]]; try lia. rewrite !zlen_cons in LP. change (zlen (@nil Z)) with 0 in LP. lia.
  Qed.
  Lemma scan_sound fuel : forall off start acc ps stop k, 0 <= start -> off = start + w * Z.of_nat k -> stretch start k ->
    scan fuel c nul esc dat off start acc = Ok (ps, stop) -> exists rest, ps = acc ++ rest /\ spelled start rest stop.
  Proof.
    pose proof w_pos as W. induction fuel as [|fuel IH]; intros off start acc ps stop k S0 O ST H; [discriminate|]. cbn [scan] in H. rewrite !zlen_enc in H. assert (O0 : 0 <= off) by nia.
    destruct (beq (slice dat off (off + w)) nul) eqn:E1; [|destruct (beq (slice dat off (off + w)) esc) eqn:E2].
    - apply beq_eq in E1. apply unit_is in E1 as (L & V); [|exact B|exact O0|exact N|lia]. apply bind_ok in H as (r & F & H). apply flush_iff in F as (qs & -> & T); [|nia]. apply SeqRead.ok_inj in H. injection H as <- <-.
      exists qs. split; [reflexivity|]. apply (Ends w e (c_dec c) dat start k off qs); assumption.
    - apply beq_eq in E2. apply unit_is in E2 as (L & V); [|exact B|exact O0|exact N|lia]. apply bind_ok in H as (r & F & H). apply flush_iff in F as (qs & -> & T); [|nia]. pose proof (two_bytes (off + w) ltac:(lia)) as TB.
      destruct (slice dat (off + w) (off + w + 2)) as [|l [|t [|]]] eqn:SL; try discriminate. destruct TB as (L2 & -> & ->). pose proof (byte_range dat (off + w) B ltac:(lia)) as R.
      apply (IH _ _ _ _ _ 0%nat) in H as (rest & -> & SP); [|lia|change (Z.of_nat 0) with 0; lia|intros i I; lia].
      exists (qs ++ Esc (ViewSpec.byte dat (off + w + 1)) (part dat (off + w + 2) (ViewSpec.byte dat (off + w) - w - 2)) :: rest). split.
      + rewrite slice_part by lia. rewrite <- !app_assoc. cbn [app]. replace (off + ViewSpec.byte dat (off + w) - (off + w + 2)) with (ViewSpec.byte dat (off + w) - w - 2) by lia. reflexivity.
      + apply (Escape w e (c_dec c) dat start k off qs (ViewSpec.byte dat (off + w)) rest stop); try assumption; try reflexivity.
    - destruct (Z.le_gt_cases (off + w) (zlen dat)) as [L|L].
      + apply (IH _ _ _ _ _ (Datatypes.S k)) in H; [exact H|exact S0|lia|]. intros i I. destruct (Nat.eq_dec i k) as [->|NE]; [|apply ST; lia]. rewrite <- O.
        split; intros C; [rewrite (proj2 (unit_is e n dat off 0 B O0 N ltac:(lia)) (conj L C)), beq_refl in E1|rewrite (proj2 (unit_is e n dat off 26 B O0 N ltac:(lia)) (conj L C)), beq_refl in E2]; discriminate.
      + rewrite scan_past in H; [discriminate|rewrite zlen_enc; lia|rewrite !zlen_enc; reflexivity|lia].
  Qed.
  Lemma scan_stretch k : forall fuel off start acc, 0 <= off -> off + w * Z.of_nat k <= zlen dat -> stretch off k -> scan (k + fuel) c nul esc dat off start acc = scan fuel c nul esc dat (off + w * Z.of_nat k) start acc.
  Proof.
    pose proof w_pos as W. induction k as [|k IH]; intros fuel off start acc O L ST; [replace (off + w * Z.of_nat 0) with off by lia; reflexivity|]. cbn [Nat.add scan]. rewrite !zlen_enc.
    destruct (ST 0%nat ltac:(lia)) as (S1 & S2). replace (off + w * Z.of_nat 0) with off in S1, S2 by lia. assert (L1 : off + w <= zlen dat) by nia.
    destruct (beq (slice dat off (off + w)) nul) eqn:E1; [apply beq_eq in E1; apply unit_is in E1 as (_ & V); [congruence|exact B|exact O|exact N|lia]|].
    destruct (beq (slice dat off (off + w)) esc) eqn:E2; [apply beq_eq in E2; apply unit_is in E2 as (_ & V); [congruence|exact B|exact O|exact N|lia]|].
    rewrite IH; [f_equal; lia|lia|lia|]. intros i I. specialize (ST (Datatypes.S i) ltac:(lia)). replace (off + w + w * Z.of_nat i) with (off + w * Z.of_nat (Datatypes.S i)) by lia. exact ST.
  Qed.
  Lemma no_zero p rest stop : 0 <= p -> num e w dat p = 26 -> ViewSpec.byte dat (p + w) = 0 -> spelled p rest stop -> False.
  Proof.
    intros P V Z0 SP. pose proof w_pos as W. revert P V Z0. induction SP as [o k p' ps E L ST V' T|o k p' ps l rest stop E L ST V' T EL SP IH]; intros P V Z0.
    - destruct k as [|k]; [replace p' with o in V' by lia; congruence|]. destruct (ST 0%nat ltac:(lia)) as (_ & C). replace (o + w * Z.of_nat 0) with o in C by lia. congruence.
    - destruct k as [|k].
      + replace p' with o in * by lia. rewrite Z0 in EL. subst l. replace (o + 0) with o in * by lia. apply IH; assumption || reflexivity.
      + destruct (ST 0%nat ltac:(lia)) as (_ & C). replace (o + w * Z.of_nat 0) with o in C by lia. congruence.
  Qed.
  Lemma scan_complete o rest stop : spelled o rest stop -> 0 <= o -> forall fuel acc, zlen dat - o < Z.of_nat fuel -> scan fuel c nul esc dat o o acc = Ok (acc ++ rest, stop).
  Proof.
    pose proof w_pos as W. induction 1 as [o k p ps E L ST V T|o k p ps l rest stop E L ST V T EL SP IH]; intros O fuel acc F.
    - assert (P : 0 <= p) by nia. assert (K : exists f, fuel = (k + Datatypes.S f)%nat) by (exists (fuel - k - 1)%nat; nia). destruct K as (f & ->). rewrite scan_stretch by (assumption || nia). rewrite <- E. cbn [scan]. rewrite !zlen_enc.
      rewrite (proj2 (unit_is e n dat p 0 B P N ltac:(lia)) (conj L V)), beq_refl. rewrite (proj2 (flush_iff o p acc (acc ++ ps) ltac:(nia))) by (exists ps; split; [reflexivity|exact T]). reflexivity.
    - assert (P : 0 <= p) by nia. assert (K : exists f, fuel = (k + Datatypes.S f)%nat) by (exists (fuel - k - 1)%nat; nia). destruct K as (f & ->). rewrite scan_stretch by (assumption || nia). rewrite <- E. cbn [scan]. rewrite !zlen_enc.
      assert (L1 : p + w <= zlen dat) by lia. rewrite (proj2 (unit_is e n dat p 26 B P N ltac:(lia)) (conj L1 V)).
      destruct (beq (enc e n 26) nul) eqn:E0; [apply beq_eq in E0; apply (f_equal (dec e)) in E0; rewrite !dec_enc in E0 by (destruct N; subst n; cbn; lia); lia|]. rewrite beq_refl.
      rewrite (proj2 (flush_iff o p acc (acc ++ ps) ltac:(nia))) by (exists ps; split; [reflexivity|exact T]). cbn [bind]. pose proof (two_bytes (p + w) ltac:(lia)) as TB.
      destruct (slice dat (p + w) (p + w + 2)) as [|l' [|t [|]]] eqn:SL; try (exfalso; lia). destruct TB as (L2 & El & Et). rewrite El, Et, <- EL. pose proof (byte_range dat (p + w) B ltac:(lia)) as R. rewrite <- EL in R.
      assert (LP : 0 < l). { destruct (Z.eq_dec l 0) as [Z0|Z0]; [|lia]. exfalso. subst l. rewrite Z0 in SP. replace (p + 0) with p in SP by lia. exact (no_zero p rest stop P V Z0 SP). }
      rewrite IH by nia. rewrite slice_part by lia. rewrite <- !app_assoc. cbn [app]. replace (p + l - (p + w + 2)) with (l - w - 2) by lia. reflexivity.
  Qed.
  Lemma scan_iff o ps stop : 0 <= o -> scan (Datatypes.S (List.length dat)) c nul esc dat o o [] = Ok (ps, stop) <-> spelled o ps stop.
  Proof.
    intros O. split.
    - intros H. apply (scan_sound _ o o [] ps stop 0%nat) in H as (rest & -> & SP); [exact SP|exact O|change (Z.of_nat 0) with 0; lia|intros i I; lia].
    - intros SP. apply (scan_complete o ps stop SP O _ []). unfold zlen. lia.
  Qed.
End Scan.

(** ** sections *)
Lemma range_seq n : range_z 0 n = map Z.of_nat (seq 0 n).
Proof.
  assert (Q : forall k, range_z (Z.of_nat k) n = map Z.of_nat (seq k n)).
  { induction n as [|n IH]; intros k; [reflexivity|]. cbn [range_z seq map]. replace (Z.of_nat k + 1) with (Z.of_nat (Datatypes.S k)) by lia. rewrite IH. reflexivity. }
  apply (Q 0%nat).
Qed.
Lemma mapM_span {C} (f : Z -> res C) (h : nat -> C) (P : nat -> Prop) n : (forall i r, (i < n)%nat -> f (Z.of_nat i) = Ok r <-> P i /\ r = h i) ->
  forall r, mapM f (range_z 0 n) = Ok r <-> (forall i, (i < n)%nat -> P i) /\ r = map h (seq 0 n).
Proof.
  rewrite range_seq. intros E.
  assert (Q : forall m k r, (k + m <= n)%nat -> mapM f (map Z.of_nat (seq k m)) = Ok r <-> (forall i, (k <= i < k + m)%nat -> P i) /\ r = map h (seq k m)).
  { induction m as [|m IH]; intros k r K.
    - cbn [seq map mapM]. split; [intros H; apply SeqRead.ok_inj in H; split; [intros i I; lia|symmetry; exact H]|]. intros (_ & ->). reflexivity.
    - cbn [seq map mapM]. split.
      + intros H. apply bind_ok in H as (x & X & H). apply bind_ok in H as (l & L & H). apply SeqRead.ok_inj in H. apply E in X as (PX & ->); [|lia]. apply IH in L as (PL & ->); [|lia]. split; [|symmetry; exact H].
        intros i I. destruct (Nat.eq_dec i k) as [->|NE]; [exact PX|apply PL; lia].
      + intros (PA & ->). rewrite (proj2 (E k (h k) ltac:(lia))) by (split; [apply PA; lia|reflexivity]). cbn [bind]. rewrite (proj2 (IH (Datatypes.S k) (map h (seq (Datatypes.S k) m)) ltac:(lia))) by (split; [intros i I; apply PA; lia|reflexivity]). reflexivity. }
  intros r. rewrite (Q n 0%nat r) by lia. split; intros (H1 & H2); (split; [intros i I; apply H1; lia|exact H2]).
Qed.
Lemma unpack_es_in e n w d o : is_bytes d -> 0 <= o -> w = 8 * Z.of_nat n -> (0 < n)%nat -> o + Z.of_nat n <= zlen d -> unpack_es e n d o = Ok (signed w (num e (Z.of_nat n) d o)).
Proof.
  intros B O W N L. unfold unpack_es. rewrite num_in by lia. cbn [bind]. rewrite (signed_ok n w); [reflexivity|exact W|exact N|]. split; [apply num_nonneg; exact B|]. subst w. rewrite Z.pow_mul_r by lia. apply num_lt; [exact B|lia..].
Qed.
Lemma unpack_es_inv e n w d o v : is_bytes d -> 0 <= o -> w = 8 * Z.of_nat n -> (0 < n)%nat -> unpack_es e n d o = Ok v -> o + Z.of_nat n <= zlen d /\ v = signed w (num e (Z.of_nat n) d o).
Proof.
  intros B O W N H. assert (L : o + Z.of_nat n <= zlen d).
  { unfold unpack_es in H. apply bind_ok in H as (x & X & _). apply num_inv in X as (X & _); lia. }
  rewrite (unpack_es_in e n w) in H by assumption. apply SeqRead.ok_inj in H. split; [exact L|symmetry; exact H].
Qed.
Lemma num_one e d o : 0 <= o -> o + 1 <= zlen d -> num e 1 d o = ViewSpec.byte d o.
Proof.
  intros O L. unfold num, ViewSpec.part. change (Z.to_nat 1) with 1%nat. rewrite skipn_byte by lia. cbn [firstn]. destruct e; unfold dec, unbe; cbn [rev app unle]; lia.
Qed.

Section Sections.
  Variables (e : endian) (d : bytes).
  Hypothesis B : is_bytes d.
  Lemma inf_iff p st st' : 0 <= p -> parse_inf1 e d p st = Ok st' <->
    inf_shape e d p /\ st' = mkSections (sInf st ++ inf_entries e d p) (sDat st) (sInst st) (sLab st) (sScr st) (num e 4 d (p + 12)).
  Proof.
    intros P. unfold parse_inf1, inf_shape, inf_entries. pose proof (num_nonneg e 2 d (p + 10) B) as EL. set (el := num e 2 d (p + 10)) in *. set (cnt := num e 2 d (p + 8)).
    pose proof (mapM_span (fun k => let t := p + 16 + k * el in o <- unpack_e e 4 d t ;; Ok (o, slice d (t + 4) (t + el)))
      (fun i => let q := p + 16 + Z.of_nat i * el in (num e 4 d q, ViewSpec.part d (q + 4) (el - 4))) (fun i => p + 16 + Z.of_nat i * el + 4 <= zlen d) (Z.to_nat cnt)) as M.
    assert (M' := M). clear M. specialize (M' ltac:(
      intros i r I; cbv zeta; assert (Q0 : 0 <= p + 16 + Z.of_nat i * el) by nia; split;
      [intros H; stpe H; apply SeqRead.ok_inj in H; split; [lia|]; rewrite <- H; rewrite slice_part by lia; replace (p + 16 + Z.of_nat i * el + el - (p + 16 + Z.of_nat i * el + 4)) with (el - 4) by lia; reflexivity
      |intros (L & ->); fwde; rewrite slice_part by lia; replace (p + 16 + Z.of_nat i * el + el - (p + 16 + Z.of_nat i * el + 4)) with (el - 4) by lia; reflexivity])).
    split.
    - intros H. do 3 stpe H. fold el cnt in H. apply bind_ok in H as (new & N & H). apply M' in N as (N & ->). apply SeqRead.ok_inj in H. split; [split; [lia|exact N]|symmetry; exact H].
    - intros ((L & N) & ->). do 3 fwde. fold el cnt. pose proof (proj2 (M' _) (conj N eq_refl)) as X. cbv zeta in X |- *.
    rewrite X. reflexivity.
  Qed.
  Lemma flw_iff p st st' : 0 <= p -> parse_flw1 e d p st = Ok st' <->
    flw_shape e d p /\ st' = mkSections (sInf st) (sDat st) (sInst st ++ flw_insts e d p) (sLab st ++ flw_labels e d p) (sScr st) (sId st).
  Proof.
    intros P. unfold parse_flw1, flw_shape, flw_insts, flw_labels. pose proof (num_nonneg e 2 d (p + 8) B) as IC. pose proof (num_nonneg e 2 d (p + 10) B) as LC. set (ic := num e 2 d (p + 8)) in *. set (lc := num e 2 d (p + 10)) in *.
    set (io := p + 16 + 8 * ic). assert (IO : 0 <= io) by (unfold io; lia).
    pose proof (mapM_span (fun i => ix <- unpack_es e 2 d (p + 16 + ic * 8 + i * 2) ;; b <- unpack_es e 1 d (p + 16 + ic * 8 + lc * 2 + i) ;; Ok (b, ix))
      (fun i => (signed 8 (ViewSpec.byte d (io + 2 * lc + Z.of_nat i)), signed 16 (num e 2 d (io + 2 * Z.of_nat i)))) (fun i => io + 2 * lc + Z.of_nat i + 1 <= zlen d) (Z.to_nat lc)) as M.
    assert (M' : forall r, mapM (fun i => ix <- unpack_es e 2 d (p + 16 + ic * 8 + i * 2) ;; b <- unpack_es e 1 d (p + 16 + ic * 8 + lc * 2 + i) ;; Ok (b, ix)) (range_z 0 (Z.to_nat lc)) = Ok r <->
      (lc = 0 \/ io + 3 * lc <= zlen d) /\ r = map (fun i => (signed 8 (ViewSpec.byte d (io + 2 * lc + Z.of_nat i)), signed 16 (num e 2 d (io + 2 * Z.of_nat i)))) (seq 0 (Z.to_nat lc))).
    { intros r. rewrite M.
      - assert (Q : (forall i, (i < Z.to_nat lc)%nat -> io + 2 * lc + Z.of_nat i + 1 <= zlen d) <-> lc = 0 \/ io + 3 * lc <= zlen d).
        { split; [|intros [Z0|L] i I; lia]. intros H. destruct (Z.eq_dec lc 0) as [Z0|Z0]; [left; exact Z0|right]. specialize (H (Z.to_nat lc - 1)%nat ltac:(lia)). lia. }
        rewrite Q. reflexivity.
      - intros i r0 I. replace (p + 16 + ic * 8 + Z.of_nat i * 2) with (io + 2 * Z.of_nat i) by (unfold io; lia). replace (p + 16 + ic * 8 + lc * 2 + Z.of_nat i) with (io + 2 * lc + Z.of_nat i) by (unfold io; lia). split.
        + intros H. apply bind_ok in H as (ix & X & H). apply bind_ok in H as (b & Y & H). apply SeqRead.ok_inj in H. apply (unpack_es_inv e 2 16) in X as (L1 & ->); [|exact B|lia|reflexivity|lia]. apply (unpack_es_inv e 1 8) in Y as (L2 & ->); [|exact B|lia|reflexivity|lia].
          change (Z.of_nat 1) with 1 in *. change (Z.of_nat 2) with 2 in *. rewrite num_one in H by lia. split; [lia|symmetry; exact H].
        + intros (L & ->). rewrite (unpack_es_in e 2 16) by (exact B || lia). cbn [bind]. rewrite (unpack_es_in e 1 8) by (exact B || lia). cbn [bind]. change (Z.of_nat 1) with 1. change (Z.of_nat 2) with 2. rewrite num_one by lia. reflexivity. }
    clear M.
    assert (EI : map (fun i => slice d (p + 16 + i * 8) (p + 16 + i * 8 + 8)) (range_z 0 (Z.to_nat ic)) = map (fun i => ViewSpec.part d (p + 16 + 8 * Z.of_nat i) 8) (seq 0 (Z.to_nat ic))).
    { rewrite range_seq, map_map. apply map_ext. intros i. replace (Z.of_nat i * 8) with (8 * Z.of_nat i) by lia. rewrite slice_part0 by lia. reflexivity. }
    assert (EF : forall l, filter (fun q : Z * Z => negb (fst q =? 0) || negb (snd q =? 0)) l = filter (fun q => negb ((fst q =? 0) && (snd q =? 0))) l).
    { intros l. apply filter_ext. intros q. rewrite negb_andb. reflexivity. }
    split.
    - intros H. do 3 stpe H. cbv zeta in H. fold ic lc in H. apply bind_ok in H as (new & N & H). apply M' in N as (N & ->). apply SeqRead.ok_inj in H. split; [split; [lia|exact N]|]. rewrite <- H, EI, EF. reflexivity.
    - intros ((L & N) & ->). do 3 fwde. cbv zeta. fold ic lc. rewrite (proj2 (M' _) (conj N eq_refl)). cbn [bind]. rewrite EI, EF. reflexivity.
  Qed.
  Lemma fli_iff p st st' : 0 <= p -> parse_fli1 e d p st = Ok st' <->
    fli_shape e d p /\ st' = mkSections (sInf st) (sDat st) (sInst st) (sLab st) (sScr st ++ fli_scripts e d p) (sId st).
  Proof.
    intros P. unfold parse_fli1, fli_shape, fli_scripts. pose proof (num_nonneg e 2 d (p + 8) B) as IC. set (cnt := num e 2 d (p + 8)) in *. set (el := num e 2 d (p + 10)) in *.
    pose proof (mapM_span (fun k => let t := p + 16 + k * 8 in i <- unpack_e e 4 d t ;; x <- unpack_e e 2 d (t + 4) ;; _ <- rd d (t + 6) 2 ;; Ok (i, x))
      (fun i => (num e 4 d (p + 16 + 8 * Z.of_nat i), num e 2 d (p + 20 + 8 * Z.of_nat i))) (fun i => p + 16 + 8 * Z.of_nat i + 8 <= zlen d) (Z.to_nat cnt)) as M. cbv zeta in M.
    assert (M' := M). clear M. specialize (M' ltac:(
      intros i r I; cbv beta; replace (p + 16 + Z.of_nat i * 8) with (p + 16 + 8 * Z.of_nat i) by lia; replace (p + 20 + 8 * Z.of_nat i) with (p + 16 + 8 * Z.of_nat i + 4) by lia; split;
      [intros H; do 2 stpe H; apply bind_ok in H as (b & R & H); apply rd_inv in R as (R & _); [|lia|lia]; apply SeqRead.ok_inj in H; split; [lia|symmetry; exact H]
      |intros (L' & ->); do 2 fwde; rewrite rd_in by lia; reflexivity])).
    split.
    - intros H. do 3 stpe H. fold cnt el in H. apply bind_ok in H as (u & G & H). unfold guard in G. destruct (el =? 8) eqn:EL; [|discriminate]. apply Z.eqb_eq in EL. cbv zeta in H. apply bind_ok in H as (new & N & H). apply SeqRead.ok_inj in H.
      apply M' in N as (N & ->). split; [|symmetry; exact H]. split; [lia|]. split; [exact EL|]. destruct (Z.eq_dec cnt 0) as [Z0|Z0]; [lia|]. specialize (N (Z.to_nat cnt - 1)%nat ltac:(lia)). lia.
    - intros ((L & EL & N) & ->). do 3 fwde. fold cnt el. unfold guard. rewrite EL. change (8 =? 8) with true. cbv iota. cbn [bind]. cbv zeta.
      rewrite (proj2 (M' (map (fun i => (num e 4 d (p + 16 + 8 * Z.of_nat i), num e 2 d (p + 20 + 8 * Z.of_nat i))) (seq 0 (Z.to_nat cnt))))); [reflexivity|]. split; [intros i I; lia|reflexivity].
  Qed.
  Lemma place_pos j : 32 <= place e d j.
  Proof. induction j as [|j IH]; cbn [place]; [lia|]. pose proof (num_nonneg e 4 d (place e d j + 4) B). lia. Qed.
  (** what sections add to what is known *)
  Definition kindly {A} (kind : bytes) (f : Z -> list A) (js : list nat) : list A := flat_map (fun j => if beq (sec_kind e d j) kind then f (place e d j) else []) js.
  Definition ext (js : list nat) (st : sections) : sections :=
    mkSections (sInf st ++ kindly (asc "INF1") (inf_entries e d) js)
      (last (kindly (asc "DAT1") (fun p => [ViewSpec.part d (p + 8) (num e 4 d (p + 4) - 8)]) js) (sDat st))
      (sInst st ++ kindly (asc "FLW1") (flw_insts e d) js) (sLab st ++ kindly (asc "FLW1") (flw_labels e d) js) (sScr st ++ kindly (asc "FLI1") (fli_scripts e d) js)
      (last (kindly (asc "INF1") (fun p => [num e 4 d (p + 12)]) js) (sId st)).
  Lemma last_app2 {A} (a b : list A) x : last (a ++ b) x = last b (last a x).
  Proof.
    destruct b as [|y b] using rev_ind; [rewrite app_nil_r; reflexivity|]. rewrite app_assoc, !last_last. reflexivity.
  Qed.
  Lemma kindly_cons {A} kind (f : Z -> list A) j js : kindly kind f (j :: js) = kindly kind f [j] ++ kindly kind f js.
  Proof. unfold kindly. cbn [flat_map]. rewrite app_nil_r. reflexivity. Qed.
  Lemma ext_cons j js st : ext js (ext [j] st) = ext (j :: js) st.
  Proof.
    unfold ext. cbn [sInf sDat sInst sLab sScr sId]. rewrite !(kindly_cons _ _ j js), !last_app2, !app_assoc. reflexivity.
  Qed.
  Lemma kindly_hit {A} kind (f : Z -> list A) j : sec_kind e d j = kind -> kindly kind f [j] = f (place e d j).
  Proof. intros E. unfold kindly. cbn [flat_map]. rewrite E, beq_refl, app_nil_r. reflexivity. Qed.
  Lemma kindly_miss {A} kind kind' (f : Z -> list A) j : sec_kind e d j = kind' -> beq kind' kind = false -> kindly kind f [j] = [].
  Proof. intros E N. unfold kindly. cbn [flat_map]. rewrite E, N. reflexivity. Qed.
  Lemma step_iff j st st' : (m <- rd d (place e d j) 4 ;; len <- unpack_e e 4 d (place e d j + 4) ;;
      (if beq m (asc "INF1") then parse_inf1 e d (place e d j) st
              else if beq m (asc "DAT1") then Ok (parse_dat1 d (place e d j) len st)
              else if beq m (asc "FLW1") then parse_flw1 e d (place e d j) st
              else if beq m (asc "FLI1") then parse_fli1 e d (place e d j) st
              else Err ValueError)) = Ok st' <-> sec_ok e d j /\ st' = ext [j] st.
  Proof.
    pose proof (place_pos j) as P. unfold sec_ok. set (p := place e d j) in *. pose proof (num_nonneg e 4 d (p + 4) B) as LN.
    assert (RD : forall m, rd d p 4 = Ok m <-> p + 4 <= zlen d /\ m = sec_kind e d j).
    { intros m. split; [intros H; apply rd_inv in H as (L & ->); [split; [lia|reflexivity]|lia|lia]|]. intros (L & ->). rewrite rd_in by lia. reflexivity. }
    assert (KD : forall A kind kind' (f : Z -> list A), sec_kind e d j = kind' -> kindly kind f [j] = if beq kind' kind then f p else []).
    { intros A kind kind' f E. unfold kindly. cbn [flat_map]. rewrite E, app_nil_r. reflexivity. }
    split.
    - intros H. apply bind_ok in H as (m & R & H). apply RD in R as (L & ->). stpe H. split.
      + split; [lia|]. destruct (beq (sec_kind e d j) (asc "INF1")) eqn:E1; [apply beq_eq in E1; left; split; [exact E1|]; apply inf_iff in H; [apply H|lia]|]. right.
        destruct (beq (sec_kind e d j) (asc "DAT1")) eqn:E2; [apply beq_eq in E2; left; exact E2|]. right.
        destruct (beq (sec_kind e d j) (asc "FLW1")) eqn:E3; [apply beq_eq in E3; left; split; [exact E3|]; apply flw_iff in H; [apply H|lia]|]. right.
        destruct (beq (sec_kind e d j) (asc "FLI1")) eqn:E4; [apply beq_eq in E4; split; [exact E4|]; apply fli_iff in H; [apply H|lia]|discriminate].
      + unfold ext. 
        destruct (beq (sec_kind e d j) (asc "INF1")) eqn:E1; [apply beq_eq in E1; apply inf_iff in H as (_ & ->); [|lia]; rewrite !(KD _ _ _ _ E1); cbn [beq]; rewrite !app_nil_r; reflexivity|].
        destruct (beq (sec_kind e d j) (asc "DAT1")) eqn:E2; [apply beq_eq in E2; apply SeqRead.ok_inj in H; rewrite <- H, !(KD _ _ _ _ E2); unfold parse_dat1; rewrite slice_part by lia; replace (p + num e 4 d (p + 4) - (p + 8)) with (num e 4 d (p + 4) - 8) by lia; rewrite !app_nil_r; reflexivity|].
        destruct (beq (sec_kind e d j) (asc "FLW1")) eqn:E3; [apply beq_eq in E3; apply flw_iff in H as (_ & ->); [|lia]; rewrite !(KD _ _ _ _ E3), !app_nil_r; reflexivity|].
        destruct (beq (sec_kind e d j) (asc "FLI1")) eqn:E4; [apply beq_eq in E4; apply fli_iff in H as (_ & ->); [|lia]; rewrite !(KD _ _ _ _ E4), !app_nil_r; reflexivity|discriminate].
    - intros ((L & K) & ->). assert (L4 : p + 4 <= zlen d) by lia. rewrite (proj2 (RD (sec_kind e d j)) (conj L4 eq_refl)). cbn [bind]. fwde. unfold ext.
      destruct K as [(E & S)|[E|[(E & S)|(E & S)]]].
      + rewrite E. change (beq (asc "INF1") (asc "INF1")) with true. cbv iota. apply inf_iff; [lia|]. split; [exact S|]. rewrite !(KD _ _ _ _ E), !app_nil_r. reflexivity.
      + rewrite E. change (beq (asc "DAT1") (asc "INF1")) with false. change (beq (asc "DAT1") (asc "DAT1")) with true. cbv iota. rewrite !(KD _ _ _ _ E). unfold parse_dat1. rewrite slice_part by lia. replace (p + num e 4 d (p + 4) - (p + 8)) with (num e 4 d (p + 4) - 8) by lia. rewrite !app_nil_r. reflexivity.
      + rewrite E. change (beq (asc "FLW1") (asc "INF1")) with false. change (beq (asc "FLW1") (asc "DAT1")) with false. change (beq (asc "FLW1") (asc "FLW1")) with true. cbv iota. apply flw_iff; [lia|]. split; [exact S|]. rewrite !(KD _ _ _ _ E), !app_nil_r. reflexivity.
      + rewrite E. change (beq (asc "FLI1") (asc "INF1")) with false. change (beq (asc "FLI1") (asc "DAT1")) with false. change (beq (asc "FLI1") (asc "FLW1")) with false. change (beq (asc "FLI1") (asc "FLI1")) with true. cbv iota. apply fli_iff; [lia|]. split; [exact S|]. rewrite !(KD _ _ _ _ E), !app_nil_r. reflexivity.
  Qed.
  Lemma sections_iff n : forall j st st', parse_sections n e d (place e d j) st = Ok st' <-> (forall i, (j <= i < j + n)%nat -> sec_ok e d i) /\ st' = ext (seq j n) st.
  Proof.
    induction n as [|n IH]; intros j st st'.
    - cbn [parse_sections seq]. assert (E : ext [] st = st) by (unfold ext, kindly; cbn [flat_map last]; rewrite !app_nil_r; destruct st; reflexivity). rewrite E. split; [intros H; apply SeqRead.ok_inj in H; split; [intros i I; lia|symmetry; exact H]|]. intros (_ & ->). reflexivity.
    - cbn [parse_sections seq]. rewrite <- ext_cons. pose proof (place_pos j) as P. split.
      + intros H. apply bind_ok in H as (m & R & H). apply bind_ok in H as (len & U & H). apply bind_ok in H as (s1 & S1 & H). assert (U' := U). apply num_inv in U' as (_ & EL); [|lia].
        pose proof (proj1 (step_iff j st s1)) as ST. rewrite R in ST. cbn [bind] in ST. rewrite U in ST. cbn [bind] in ST. apply ST in S1 as (OK & ->).
        rewrite EL in H. change (place e d j + num e (Z.of_nat 4) d (place e d j + 4)) with (place e d (Datatypes.S j)) in H. apply IH in H as (OKS & ->). split; [|reflexivity]. intros i I. destruct (Nat.eq_dec i j) as [->|NE]; [exact OK|apply OKS; lia].
      + intros (OK & ->). pose proof (proj2 (step_iff j st (ext [j] st)) (conj (OK j ltac:(lia)) eq_refl)) as ST.
        apply bind_ok in ST as (m & R & ST). apply bind_ok in ST as (len & U & ST). rewrite R. cbn [bind]. rewrite U. cbn [bind]. rewrite ST. cbn [bind]. apply num_inv in U as (_ & ->); [|lia].
        change (place e d j + num e (Z.of_nat 4) d (place e d j + 4)) with (place e d (Datatypes.S j)). apply IH. split; [intros i I; apply OK; lia|reflexivity].
  Qed.
End Sections.

(** ** files *)
Lemma mapM_pairs {A C} (f : A -> res C) l r : mapM f l = Ok r <-> Forall2 (fun x y => f x = Ok y) l r.
Proof.
  revert r. induction l as [|a l IH]; intros r; cbn [mapM].
  - split; [intros H; apply SeqRead.ok_inj in H; rewrite <- H; constructor|]. intros H. inversion H. reflexivity.
  - split.
    + intros H. apply bind_ok in H as (x & X & H). apply bind_ok in H as (t & T & H). apply SeqRead.ok_inj in H. rewrite <- H. constructor; [exact X|apply IH; exact T].
    + intros H. inversion H as [|x y l' r' X T]; subst. rewrite X. cbn [bind]. rewrite (proj2 (IH r') T). reflexivity.
Qed.
Section Load.
  Variables (sj : codec) (id0 : Z) (d : bytes).
  Hypothesis B : is_bytes d.
  Hypothesis SJ0 : c_char sj 0 = Ok [0].
  Hypothesis SJ26 : c_char sj 26 = Ok [26].
  Definition nwidth (x : encoding) : nat := match x with Utf16 => 2%nat | _ => 1%nat end.
  Lemma marks x e : encode (full_codec sj x e) [0] = Ok (enc e (nwidth x) 0) /\ encode (full_codec sj x e) [0x1A] = Ok (enc e (nwidth x) 26).
  Proof.
    destruct x; [split; destruct e; reflexivity|split; destruct e; reflexivity| |split; destruct e; reflexivity]. unfold encode. cbn [full_codec mapM]. rewrite SJ0, SJ26. destruct e; split; reflexivity.
  Qed.
  Lemma message_iff x e dat ent m : is_bytes dat -> 0 <= fst ent ->
    load_message (full_codec sj x e) (enc e (nwidth x) 0) (enc e (nwidth x) 26) dat ent = Ok m <-> message_at sj x e dat ent m.
  Proof.
    intros BD P. unfold load_message, message_at. assert (N : nwidth x = 1%nat \/ nwidth x = 2%nat) by (destruct x; cbn; tauto). assert (W : width x = Z.of_nat (nwidth x)) by (destruct x; reflexivity). rewrite W. split.
    - intros H. apply bind_ok in H as ((ps & off) & S & H). apply SeqRead.ok_inj in H. apply (proj1 (scan_iff (nwidth x) e (full_codec sj x e) dat BD N (fst ent) ps off P)) in S. rewrite <- H. exists off. cbn [mInfo mParts mNull]. split; [reflexivity|]. split; [exact S|reflexivity].
    - intros (stop & I & S & Z0). apply (proj2 (scan_iff (nwidth x) e (full_codec sj x e) dat BD N (fst ent) (mParts m) stop P)) in S. rewrite S. cbn [bind]. destruct m as [mi mp mn]. cbn [mInfo mParts mNull] in *. rewrite I, Z0. reflexivity.
  Qed.
  Lemma enc_of_iff v x : enc_of v = Ok x <-> match x with Cp1252 => 1 | Utf16 => 2 | ShiftJis => 3 | Utf8 => 4 end = v.
  Proof.
    unfold enc_of. split.
    - destruct (v =? 1) eqn:E1; [|destruct (v =? 2) eqn:E2; [|destruct (v =? 3) eqn:E3; [|destruct (v =? 4) eqn:E4; [|discriminate]]]]; intros H; apply SeqRead.ok_inj in H; rewrite <- H; lia.
    - intros <-. destruct x; reflexivity.
  Qed.
  Lemma is_bytes_last l : (forall x, In x l -> is_bytes x) -> is_bytes (last l []).
  Proof. intros H. induction l as [|a l IH]; [constructor|]. destruct l as [|b l]; [apply H; left; reflexivity|]. apply IH. intros x X. apply H. right. exact X. Qed.
  Lemma text_bytes e n : is_bytes (text_data e d n).
  Proof.
    unfold text_data, of_kind. apply is_bytes_last. intros x X. apply in_flat_map in X as (j & _ & X). destruct (beq (sec_kind e d j) (asc "DAT1")); [|destruct X]. destruct X as [X|[]]. rewrite <- X. apply is_bytes_part. exact B.
  Qed.
  Lemma entries_pos e n ent : In ent (of_kind e d (asc "INF1") (inf_entries e d) n) -> 0 <= fst ent.
  Proof.
    unfold of_kind. intros X. apply in_flat_map in X as (j & _ & X). destruct (beq (sec_kind e d j) (asc "INF1")); [|destruct X]. unfold inf_entries in X. apply in_map_iff in X as (i & X & _). rewrite <- X. cbn [fst]. apply num_nonneg. exact B.
  Qed.
  Lemma messages_iff x e dat l ms : is_bytes dat -> (forall ent, In ent l -> 0 <= fst ent) ->
    mapM (load_message (full_codec sj x e) (enc e (nwidth x) 0) (enc e (nwidth x) 26) dat) l = Ok ms <-> Forall2 (message_at sj x e dat) l ms.
  Proof.
    intros BD P. rewrite mapM_pairs. split; intros F; induction F as [|a m l ms X F IH]; [constructor| |constructor|]; (constructor; [apply (message_iff x e dat a m BD (P a ltac:(left; reflexivity))); exact X|apply IH; intros ent I; apply P; right; exact I]).
  Qed.
  Theorem bmg_iff b : bmg_load sj id0 d = Ok b <-> bmg_shape d /\ bmg_view sj id0 d b.
  Proof.
    unfold bmg_load, bmg_shape, guard. 
    assert (MG : beq (slice_to d 8) (asc "MESGbmg1") = true <-> ViewSpec.part d 0 8 = asc "MESGbmg1").
    { unfold slice_to. rewrite slice_part by lia. rewrite Z.sub_0_r. split; [apply beq_eq|intros E; rewrite E; apply beq_refl]. }
    assert (GE : forall e, 12 <= zlen d -> guess_endian d = Ok e <-> e = bmg_endian d).
    { intros e L. unfold guess_endian. rewrite !num_in by lia. cbn [bind]. change (Z.of_nat 4) with 4. fold (bmg_endian d). split; [intros H; apply SeqRead.ok_inj in H; symmetry; exact H|]. intros ->. reflexivity. }
    assert (GL : forall e, guess_endian d = Ok e -> 12 <= zlen d).
    { intros e H. unfold guess_endian in H. stpe H. lia. }
    assert (SC : forall e n st, parse_sections n e d 32 (mkSections [] [] [] [] [] id0) = Ok st <-> (forall j, (j < n)%nat -> sec_ok e d j) /\
        st = mkSections (of_kind e d (asc "INF1") (inf_entries e d) n) (text_data e d n) (of_kind e d (asc "FLW1") (flw_insts e d) n) (of_kind e d (asc "FLW1") (flw_labels e d) n)
          (of_kind e d (asc "FLI1") (fli_scripts e d) n) (last (of_kind e d (asc "INF1") (fun p => [num e 4 d (p + 12)]) n) id0)).
    { intros e n st. change 32 with (place e d 0). rewrite (sections_iff e d B n 0). split; intros (H & E); (split; [intros j J; apply H; lia|exact E]). }
    split.
    - intros H. apply bind_ok in H as (u & G & H). assert (M : beq (slice_to d 8) (asc "MESGbmg1") = true) by (destruct (beq (slice_to d 8) (asc "MESGbmg1")); [reflexivity|discriminate G]). apply MG in M. apply bind_ok in H as (e & E & H). pose proof (GL e E) as L12. apply (GE e L12) in E.
      do 5 stpe H. apply bind_ok in H as (x & X & H). apply enc_of_iff in X. rewrite num_one in X by lia. apply bind_ok in H as (st & S & H). apply SC in S as (SO & ES).
      destruct (marks x e) as (K0 & K26). rewrite K0 in H. cbn [bind] in H. rewrite K26 in H. cbn [bind] in H. apply bind_ok in H as (ms & MS & H). apply SeqRead.ok_inj in H. rewrite ES in MS. cbn [sInf sDat] in MS.
      apply messages_iff in MS; [|apply text_bytes|intros ent I; exact (entries_pos _ _ _ I)]. split.
      + split; [exact M|]. split; [lia|]. split; [destruct x; lia|]. unfold bmg_sections. rewrite <- E. exact SO.
      + rewrite <- H, ES. constructor; cbn [bEndian bEncoding bUnk14 bUnk18 bUnk1C bId bInstructions bLabels bScripts bMessages sInst sLab sScr sId]; unfold bmg_sections; try rewrite <- E; try reflexivity; [exact X|exact MS].
    - intros ((M & L & X & SO) & [V1 V2 V3 V4 V5 V6 V7 V8]). rewrite (proj2 MG M). cbn [bind]. rewrite (proj2 (GE (bEndian b) ltac:(lia)) V1). cbn [bind].
      do 5 fwde. rewrite num_one by lia. rewrite (proj2 (enc_of_iff _ _) V2). cbn [bind]. unfold bmg_sections in *. rewrite <- V1 in *. rewrite (proj2 (SC _ _ _) (conj SO eq_refl)). cbn [bind].
      destruct (marks (bEncoding b) (bEndian b)) as (K0 & K26). rewrite K0. cbn [bind]. rewrite K26. cbn [bind sInf sDat].
      apply messages_iff in V8; [|apply text_bytes|intros ent I; exact (entries_pos _ _ _ I)]. rewrite V8. cbn [bind sInst sLab sScr sId]. injection V3 as U1 U2 U3. destruct b as [b1 b2 b3 b4 b5 b6 b7 b8 b9 b10]. cbn [bEndian bEncoding bUnk14 bUnk18 bUnk1C bId bInstructions bLabels bScripts bMessages] in *.
      rewrite <- V4, <- V5, <- V6, <- V7, <- U1, <- U2, <- U3. reflexivity.
  Qed.
End Load.

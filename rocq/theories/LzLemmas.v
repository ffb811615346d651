(** * Proofs about the LZ compressor (tokens, search) *)
From Verif Require Import PyBase PyLemmas LzModel LzSpec.

(** ** find / rfind *)
Lemma prefixb_firstn p l : prefixb p l = true <-> firstn (length p) l = p.
Proof.
  revert l; induction p as [|x p IH]; intros l; cbn [prefixb length firstn]; [tauto|].
  destruct l as [|y l]; [split; discriminate|].
  rewrite andb_true_iff, IH, Z.eqb_eq. split; [intros [-> ->]; reflexivity|intros [= -> ->]; auto].
Qed.

Definition occ (pat data : bytes) (k : Z) : Prop := slice data k (k + zlen pat) = pat.

Lemma slice_firstn_skipn {A} (l : list A) k m :
  0 <= k -> 0 <= m -> slice l k (k + m) = firstn (Z.to_nat m) (skipn (Z.to_nat k) l).
Proof.
  intros. unfold slice, clamp. pose proof (zlen_nonneg l).
  destruct (Z.ltb_spec k 0); [lia|]. destruct (Z.ltb_spec (k + m) 0); [lia|].
  destruct (Z.le_gt_cases k (zlen l)).
  - rewrite (Z.min_l k) by lia.
    destruct (Z.le_gt_cases (k + m) (zlen l)).
    + rewrite Z.min_l by lia. f_equal. lia.
    + rewrite Z.min_r by lia. rewrite !firstn_all2; [reflexivity| |]; rewrite skipn_length; unfold zlen in *; lia.
  - rewrite !skipn_all2 by (unfold zlen in *; lia). rewrite !firstn_nil. reflexivity.
Qed.

Lemma prefixb_occ pat data k : 0 <= k -> prefixb pat (skipn (Z.to_nat k) data) = true <-> occ pat data k.
Proof.
  intros Hk. rewrite prefixb_firstn. unfold occ. rewrite slice_firstn_skipn by (auto using zlen_nonneg).
  replace (Z.to_nat (zlen pat)) with (length pat) by (unfold zlen; lia). reflexivity.
Qed.

Lemma tl_skipn {A} n (l : list A) : tl (skipn n l) = skipn (S n) l.
Proof. revert l; induction n as [|n IH]; intros [|x l]; cbn [skipn tl]; auto. rewrite IH. reflexivity. Qed.

Lemma find_from_spec pat data count pos : 0 <= pos ->
  let r := find_from pat (skipn (Z.to_nat pos) data) pos count in
  (r = -1 /\ forall k, pos <= k < pos + Z.of_nat count -> ~ occ pat data k) \/
  (pos <= r < pos + Z.of_nat count /\ occ pat data r /\ forall k, pos <= k < r -> ~ occ pat data k).
Proof.
  revert pos; induction count as [|n IH]; intros pos Hp; cbn [find_from].
  - left; split; [reflexivity|]; intros; lia.
  - destruct (prefixb pat (skipn (Z.to_nat pos) data)) eqn:E.
    + right. apply prefixb_occ in E; [|assumption]. split; [lia|]. split; [assumption|]. intros; lia.
    + assert (N : ~ occ pat data pos) by (intros O; apply prefixb_occ in O; [congruence|assumption]).
      rewrite tl_skipn. replace (S (Z.to_nat pos)) with (Z.to_nat (pos + 1)) by lia.
      specialize (IH (pos + 1) ltac:(lia)). cbv zeta in IH.
      destruct IH as [[R F]|[R [O F]]].
      * left. split; [assumption|]. intros k Hk. destruct (Z.eq_dec k pos) as [->|]; [assumption|]. apply F; lia.
      * right. split; [lia|]. split; [assumption|].
        intros k Hk. destruct (Z.eq_dec k pos) as [->|]; [assumption|]. apply F; lia.
Qed.

Lemma rfind_from_spec pat data count pos : 0 <= pos ->
  let r := rfind_from pat (skipn (Z.to_nat pos) data) pos count in
  (r = -1 /\ forall k, pos <= k < pos + Z.of_nat count -> ~ occ pat data k) \/
  (pos <= r < pos + Z.of_nat count /\ occ pat data r /\
   forall k, r < k < pos + Z.of_nat count -> ~ occ pat data k).
Proof.
  revert pos; induction count as [|n IH]; intros pos Hp; cbn [rfind_from].
  - left; split; [reflexivity|]; intros; lia.
  - rewrite tl_skipn. replace (S (Z.to_nat pos)) with (Z.to_nat (pos + 1)) by lia.
    specialize (IH (pos + 1) ltac:(lia)). cbv zeta in IH. cbv zeta.
    set (r := rfind_from pat (skipn (Z.to_nat (pos + 1)) data) (pos + 1) n) in *.
    destruct IH as [[R F]|[R [O F]]].
    + rewrite R. change (-1 =? -1) with true. cbv iota.
      destruct (prefixb pat (skipn (Z.to_nat pos) data)) eqn:E.
      * right. apply prefixb_occ in E; [|assumption]. split; [lia|]. split; [assumption|].
        intros; apply F; lia.
      * left. split; [reflexivity|]. intros k Hk.
        destruct (Z.eq_dec k pos) as [->|]; [|apply F; lia].
        intros Oc; apply prefixb_occ in Oc; [congruence|assumption].
    + destruct (Z.eqb_spec r (-1)); [lia|]. right. split; [lia|]. split; [assumption|]. intros; apply F; lia.
Qed.

(** what [matchPos] computes in the search loop *)
Definition mfind (p : lzparams) (data pat : bytes) (i j : Z) : Z :=
  if searchReverse p then rfind_in data pat i j else find_in data pat i j.

Lemma mfind_spec p data pat i j : 0 <= i <= j -> j <= zlen data ->
  let r := mfind p data pat i j in
  (r = -1 /\ forall k, i <= k -> k + zlen pat <= j -> ~ occ pat data k) \/
  (i <= r /\ r + zlen pat <= j /\ occ pat data r).
Proof.
  intros Hi Hj. unfold mfind, rfind_in, find_in. rewrite !clamp_id by lia.
  pose proof (zlen_nonneg pat).
  destruct (searchReverse p).
  - pose proof (rfind_from_spec pat data (Z.to_nat (j - zlen pat - i + 1)) i ltac:(lia)) as S. cbv zeta in S.
    destruct S as [[R F]|[R [O F]]]; [left|right].
    + split; [assumption|]. intros; apply F; lia.
    + split; [lia|]. split; [lia|assumption].
  - pose proof (find_from_spec pat data (Z.to_nat (j - zlen pat - i + 1)) i ltac:(lia)) as S. cbv zeta in S.
    destruct S as [[R F]|[R [O F]]]; [left|right].
    + split; [assumption|]. intros; apply F; lia.
    + split; [lia|]. split; [lia|assumption].
Qed.

(** ** the binary search finds a longest match *)
Definition matches (data : bytes) (pos start k m : Z) : Prop :=
  start <= k /\ k + m <= pos /\ slice data k (k + m) = slice data pos (pos + m).

Lemma slice_prefix {A} (l : list A) k m m' : 0 <= k -> 0 <= m <= m' ->
  slice l k (k + m) = firstn (Z.to_nat m) (slice l k (k + m')).
Proof.
  intros. rewrite !slice_firstn_skipn by lia. rewrite firstn_firstn. f_equal. lia.
Qed.

Lemma matches_mono data pos start k m m' :
  0 <= start -> 0 <= m <= m' -> 0 <= pos -> matches data pos start k m' -> matches data pos start k m.
Proof.
  intros Hs Hm Hp [H1 [H2 H3]]. split; [assumption|]. split; [lia|].
  rewrite (slice_prefix data k m m'), (slice_prefix data pos m m') by lia. rewrite H3. reflexivity.
Qed.

Lemma search_loop_spec fuel p data pos start upper0 lower upper rp rl :
  0 <= start <= pos -> pos + upper0 <= zlen data -> upper <= upper0 -> 0 <= lower <= upper + 1 ->
  upper - lower + 2 <= Z.of_nat fuel ->
  rl = Z.max 0 (lower - 1) -> (0 < rl -> matches data pos start rp rl) -> 0 <= upper0 ->
  (forall m k, upper < m <= upper0 -> ~ matches data pos start k m) ->
  exists mp ml, search_loop fuel p data pos start lower upper rp rl = Ok (mp, ml) /\
    0 <= ml <= upper0 /\ (0 < ml -> matches data pos start mp ml) /\
    (forall m k, ml < m <= upper0 -> ~ matches data pos start k m).
Proof.
  revert lower upper rp rl. induction fuel as [|n IH]; intros lower upper rp rl Hs Hu0 Hu Hl Hf Hrl Hrec Hup Hno; [lia|].
  cbn [search_loop]. destruct (Z.leb_spec lower upper) as [L|L].
  2:{ exists rp, rl. split; [reflexivity|]. split; [lia|]. split; [assumption|].
      intros m k Hm. apply Hno. lia. }
  set (ml := (lower + upper) / 2). assert (Hml : lower <= ml <= upper) by (unfold ml; lia).
  set (pat := slice data pos (pos + ml)).
  change (if searchReverse p then rfind_in data pat start pos else find_in data pat start pos)
    with (mfind p data pat start pos).
  assert (Hpl : zlen pat = ml) by (unfold pat; rewrite zlen_slice; lia).
  pose proof (mfind_spec p data pat start pos ltac:(lia) ltac:(lia)) as S. cbv zeta in S.
  set (mp := mfind p data pat start pos) in *. unfold occ in S. rewrite Hpl in S.
  destruct (Z.eqb_spec mp (-1)) as [E|E].
  - destruct S as [[_ F]|[S _]]; [|lia].
    apply IH; try assumption; try lia.
    intros m k Hm Hmat. destruct (Z.le_gt_cases m upper).
    + apply (matches_mono data pos start k ml m) in Hmat; [|lia..].
      destruct Hmat as [M1 [M2 M3]]. apply (F k); assumption.
    + apply (Hno m k); [lia|assumption].
  - destruct S as [[S _]|[S1 [S2 S3]]]; [contradiction|].
    assert (M : matches data pos start mp ml) by (split; [assumption|]; split; [assumption|exact S3]).
    destruct (Z.ltb_spec rl ml) as [R|R].
    + apply IH; try assumption; try lia. intros _; exact M.
    + apply IH; try assumption; try lia.
Qed.

Lemma search_spec p data pos :
  0 <= pos <= zlen data -> 0 <= maxMatchLen p -> 0 <= maxMatchDiff p ->
  exists mp ml, compressionSearch p data pos = Ok (mp, ml) /\
    0 <= ml <= maxMatchLen p /\ pos + ml <= zlen data /\
    (0 < ml -> matches data pos (Z.max 0 (pos - maxMatchDiff p)) mp ml) /\
    (forall m, ml < m <= maxMatchLen p -> pos + m <= zlen data -> no_match p data pos m).
Proof.
  intros Hp Hm Hd. unfold compressionSearch.
  set (up := Z.min (maxMatchLen p) (zlen data - pos)).
  destruct (search_loop_spec (Z.to_nat (up + 2)) p data pos (Z.max 0 (pos - maxMatchDiff p)) up 0 up 0 0)
    as (mp & ml & E & H1 & H2 & H3); try (unfold up; lia).
  exists mp, ml. split; [exact E|]. split; [unfold up in *; lia|]. split; [unfold up in *; lia|].
  split; [assumption|]. intros m Hm1 Hm2 k Hk1 Hk2 Heq.
  apply (H3 m k); [unfold up; lia|]. split; [assumption|]. split; assumption.
Qed.

(** ** token encoding *)
Record params_ok (p : lzparams) : Prop := {
  po_len : maxMatchLen p = 18;
  po_sub : 0 <= posSubtract p <= 3;
  po_diff : 3 <= maxMatchDiff p <= posSubtract p + 4095 }.
Lemma lz10_params_ok : params_ok lz10_params.
Proof. constructor; cbn; lia. Qed.
Lemma code_params_ok : params_ok code_params.
Proof. constructor; cbn; lia. Qed.

Lemma land_ones_mod x k : 0 <= k -> Z.land x (2 ^ k - 1) = x mod 2 ^ k.
Proof. intros. rewrite <- Z.land_ones by assumption. f_equal. rewrite Z.ones_equiv. lia. Qed.
Lemma land_15 x : Z.land x 15 = x mod 16.
Proof. apply (land_ones_mod x 4); lia. Qed.
Lemma land_255 x : Z.land x 255 = x mod 256.
Proof. apply (land_ones_mod x 8); lia. Qed.
Lemma land_4095 x : Z.land x 0xFFF = x mod 4096.
Proof. apply (land_ones_mod x 12); lia. Qed.
Lemma land_ffffff x : Z.land x 0xFFFFFF = x mod 2 ^ 24.
Proof. apply (land_ones_mod x 24); lia. Qed.
Lemma lor_shiftl_add a b k : 0 <= k -> 0 <= b < 2 ^ k -> Z.lor (Z.shiftl a k) b = a * 2 ^ k + b.
Proof.
  intros Hk Hb. rewrite <- Z.shiftl_mul_pow2 by assumption.
  assert (L : Z.land (Z.shiftl a k) b = 0).
  { apply Z.bits_inj'. intros n Hn. rewrite Z.land_spec, Z.bits_0.
    destruct (Z.lt_ge_cases n k).
    - rewrite Z.shiftl_spec_low by assumption. reflexivity.
    - rewrite andb_comm. replace (Z.testbit b n) with false; [reflexivity|].
      symmetry. destruct (Z.eq_dec b 0) as [->|]; [apply Z.bits_0|].
      apply Z.bits_above_log2; [lia|]. apply Z.log2_lt_pow2; [lia|].
      apply Z.lt_le_trans with (2 ^ k); [lia|]. apply Z.pow_le_mono_r; lia. }
  rewrite <- Z.lxor_lor by exact L. symmetry. apply Z.add_nocarry_lxor. exact L.
Qed.

Lemma tok_bytes_eq ps l d : 3 <= l <= 18 -> 0 <= d - ps < 4096 ->
  [Z.lor (Z.shiftl (Z.land (l - 3) 0xF) 4) (Z.land (Z.shiftr (d - ps) 8) 0xF); Z.land (d - ps) 0xFF]
  = tok_bytes ps (Ref l d).
Proof.
  intros Hl Hd. cbn [tok_bytes]. rewrite land_15, land_15, land_255.
  rewrite Z.shiftr_div_pow2 by lia. change (2 ^ 8) with 256.
  rewrite lor_shiftl_add by (change (2 ^ 4) with 16; lia). change (2 ^ 4) with 16. f_equal. lia.
Qed.

Fixpoint flags_from (i : Z) (ts : list token) (fl : Z) : Z :=
  match ts with
  | [] => fl
  | t :: r => flags_from (i + 1) r (if is_ref t then Z.lor fl (Z.shiftl 1 (7 - i)) else fl)
  end.
Lemma flags_from_snoc i ts t fl :
  flags_from i (ts ++ [t]) fl =
  (if is_ref t then Z.lor (flags_from i ts fl) (Z.shiftl 1 (7 - (i + zlen ts))) else flags_from i ts fl).
Proof.
  revert i fl; induction ts as [|x ts IH]; intros i fl; cbn [app flags_from].
  - rewrite zlen_nil, Z.add_0_r. reflexivity.
  - rewrite IH, zlen_cons. replace (i + 1 + zlen ts) with (i + (1 + zlen ts)) by lia. reflexivity.
Qed.
Ltac Zify.zify_post_hook ::= idtac.
Lemma flag_byte_from ts i fl :
  0 <= i -> i + zlen ts <= 8 -> fl mod 2 ^ (8 - i) = 0 -> 0 <= fl ->
  flags_from i ts fl = fl + flag_byte (2 ^ (7 - i)) ts.
Proof.
  revert i fl; induction ts as [|t ts IH]; intros i fl Hi Hl Hm Hf; cbn [flags_from flag_byte]; [lia|].
  rewrite zlen_cons in Hl. pose proof (zlen_nonneg ts).
  assert (P : 2 ^ (8 - i) = 2 * 2 ^ (7 - i)).
  { replace (8 - i) with (Z.succ (7 - i)) by lia. apply Z.pow_succ_r. lia. }
  assert (P0 : 0 < 2 ^ (7 - i)) by (apply Z.pow_pos_nonneg; lia).
  assert (E : Z.lor fl (Z.shiftl 1 (7 - i)) = fl + 2 ^ (7 - i)).
  { rewrite Z.shiftl_mul_pow2, Z.mul_1_l by lia.
    assert (F : fl = Z.shiftl (fl / 2 ^ (8 - i)) (8 - i)).
    { rewrite Z.shiftl_mul_pow2 by lia. pose proof (Z.div_mod fl (2 ^ (8 - i)) ltac:(lia)). lia. }
    rewrite F at 1. rewrite lor_shiftl_add by lia. rewrite F at 2. rewrite Z.shiftl_mul_pow2 by lia. reflexivity. }
  assert (D : 2 ^ (7 - i) / 2 = 2 ^ (7 - (i + 1)) \/ ts = []).
  { destruct (Z.eq_dec i 7) as [->|].
    - right. apply zlen_0. lia.
    - left. replace (7 - i) with (Z.succ (7 - (i + 1))) by lia. rewrite Z.pow_succ_r by lia.
      rewrite Z.mul_comm, Z.div_mul by lia. reflexivity. }
  assert (M : forall x, x mod 2 ^ (8 - i) = 0 -> x mod 2 ^ (8 - (i + 1)) = 0).
  { intros x Hx. replace (8 - (i + 1)) with (7 - i) by lia. apply Z.mod_divide; [lia|].
    apply Z.mod_divide in Hx; [|lia]. destruct Hx as [q ->]. exists (q * 2). rewrite P. ring. }
  assert (M2 : (fl + 2 ^ (7 - i)) mod 2 ^ (8 - (i + 1)) = 0).
  { replace (8 - (i + 1)) with (7 - i) by lia. apply Z.mod_divide; [lia|].
    apply Z.mod_divide in Hm; [|lia]. destruct Hm as [q ->]. exists (q * 2 + 1). rewrite P. ring. }
  assert (R : forall f, f mod 2 ^ (8 - (i + 1)) = 0 -> 0 <= f ->
     flags_from (i + 1) ts f = f + flag_byte (2 ^ (7 - i) / 2) ts).
  { intros f F1 F2. destruct D as [D|D].
    - rewrite D. apply IH; [clear - Hi; lia|clear - Hl; lia|assumption|assumption].
    - rewrite D. cbn [flags_from flag_byte]. rewrite Z.add_0_r. reflexivity. }
  destruct (is_ref t).
  - rewrite E, R; [clear; lia|assumption|clear - P0 Hf; lia].
  - rewrite R; [clear; lia|auto|assumption].
Qed.
Ltac Zify.zify_post_hook ::= Z.div_mod_to_equations.
Lemma flag_byte_eq ts : zlen ts <= 8 -> flags_from 0 ts 0 = flag_byte 128 ts.
Proof. intros. rewrite flag_byte_from; [reflexivity|lia..|reflexivity|lia]. Qed.

Lemma flag_byte_range ts i : 0 <= i -> zlen ts + i <= 8 -> 0 <= flag_byte (2 ^ (7 - i)) ts < 2 ^ (8 - i).
Proof.
  revert i; induction ts as [|t ts IH]; intros i Hi H; cbn [flag_byte].
  - rewrite zlen_nil in H. assert (0 < 2 ^ (8 - i)) by (apply Z.pow_pos_nonneg; lia). lia.
  - rewrite zlen_cons in H. pose proof (zlen_nonneg ts).
    assert (P : 2 ^ (8 - i) = 2 * 2 ^ (7 - i)).
    { replace (8 - i) with (Z.succ (7 - i)) by lia. apply Z.pow_succ_r. lia. }
    assert (P0 : 0 < 2 ^ (7 - i)) by (apply Z.pow_pos_nonneg; lia).
    destruct (Z.eq_dec i 7) as [->|].
    + rewrite (zlen_0 ts) by lia. cbn [flag_byte]. change (2 ^ (8 - 7)) with 2; change (2 ^ (7 - 7)) with 1. destruct (is_ref t); lia.
    + replace (2 ^ (7 - i) / 2) with (2 ^ (7 - (i + 1))).
      2:{ replace (7 - i) with (Z.succ (7 - (i + 1))) by lia. rewrite Z.pow_succ_r by lia.
          rewrite Z.mul_comm, Z.div_mul by lia. reflexivity. }
      specialize (IH (i + 1) ltac:(lia) ltac:(lia)). replace (8 - (i + 1)) with (7 - i) in IH by lia.
      destruct (is_ref t); lia.
Qed.

Lemma toks_bytes_app ps a b : toks_bytes ps (a ++ b) = toks_bytes ps a ++ toks_bytes ps b.
Proof. unfold toks_bytes. rewrite map_app, concat_app. reflexivity. Qed.

Lemma toks_ok_app p data a : forall c b c',
  toks_ok p data c (a ++ b) c' <-> exists m, toks_ok p data c a m /\ toks_ok p data m b c'.
Proof.
  induction a as [|t a IH]; intros c b c'; cbn [app]; split.
  - intros H. exists c. split; [constructor|assumption].
  - intros (m & H1 & H2). inversion H1; subst; assumption.
  - intros H. inversion H as [|? ? ? ? Ht Hr]; subst. apply IH in Hr as (m & H1 & H2).
    exists m. split; [constructor; assumption|assumption].
  - intros (m & H1 & H2). inversion H1 as [|? ? ? ? Ht Hr]; subst. constructor; [assumption|].
    apply IH. exists m; split; assumption.
Qed.
Lemma tok_len_pos p data c t : params_ok p -> tok_ok p data c t -> 1 <= tok_len t <= 18.
Proof. intros P H. pose proof (po_len p P). destruct t; cbn [tok_len tok_ok] in *; lia. Qed.
Lemma tok_ok_end p data c t : 0 <= c -> params_ok p -> tok_ok p data c t -> c + tok_len t <= zlen data.
Proof.
  intros Hc P H. destruct t; cbn [tok_len tok_ok] in *.
  - destruct H as [H _]. apply get_ok_range in H; lia.
  - lia.
Qed.
Lemma toks_ok_le p data c ts c' : params_ok p -> toks_ok p data c ts c' -> c + zlen ts <= c' <= c + 18 * zlen ts.
Proof.
  intros P H. induction H as [|c t ts c' Ht _ IH]; [rewrite zlen_nil; lia|].
  rewrite zlen_cons. pose proof (tok_len_pos _ _ _ _ P Ht). lia.
Qed.
Lemma toks_ok_end p data c ts c' : 0 <= c <= zlen data -> params_ok p -> toks_ok p data c ts c' -> c' <= zlen data.
Proof.
  intros Hc P H. induction H as [|c t ts c' Ht _ IH]; [lia|].
  apply IH. pose proof (tok_len_pos _ _ _ _ P Ht). pose proof (tok_ok_end _ _ _ _ (proj1 Hc) P Ht). lia.
Qed.
Lemma toks_bytes_bound p data c ts c' : params_ok p -> toks_ok p data c ts c' ->
  zlen ts <= zlen (toks_bytes (posSubtract p) ts) <= c' - c.
Proof.
  intros P H. induction H as [|c t ts c' Ht _ IH]; [change (toks_bytes (posSubtract p) []) with (@nil Z); change (zlen (@nil token)) with 0; change (zlen (@nil Z)) with 0; lia|].
  unfold toks_bytes in *; cbn [map concat]. rewrite zlen_app, zlen_cons.
  destruct t; cbn [tok_bytes tok_len tok_ok] in *; rewrite !zlen_cons, zlen_nil; lia.
Qed.

(** ** one step of the inner loop *)
Section Compressor.
Variable p : lzparams.
Hypothesis P : params_ok p.
Variable data : bytes.

(** bytes of the blocks finished so far *)
Notation enc_blocks := (stream_bytes p).

(** a recorded truncation point [(c, r)]: the tokens up to there encode exactly
    [data[:c]] and occupy exactly [r] bytes *)
Definition boundary (bs : list (list token)) (ts : list token) (c r : Z) : Prop :=
  (c = 0 /\ r = 0) \/
  (exists bs1 ts1 ts2 bs2, bs = bs1 ++ (ts1 ++ ts2) :: bs2 /\ ts1 <> [] /\
     toks_ok p data 0 (concat bs1 ++ ts1) c /\
     r = zlen (enc_blocks bs1) + 1 + zlen (toks_bytes (posSubtract p) ts1)) \/
  (exists ts1 ts2, ts = ts1 ++ ts2 /\ ts1 <> [] /\
     toks_ok p data 0 (concat bs ++ ts1) c /\
     r = zlen (enc_blocks bs) + 1 + zlen (toks_bytes (posSubtract p) ts1)).

Definition dict_ok bs ts (d : list (Z * (Z * Z))) (b : Z) : Prop :=
  (exists v, dict_get d b = Some v) /\ 0 <= b /\
  (forall k c r, dict_get d k = Some (c, r) -> (k = c - r /\ 0 <= k) /\ boundary bs ts c r).

Lemma boundary_grow bs ts t c r : boundary bs ts c r -> boundary bs (ts ++ t) c r.
Proof.
  intros [H|[H|H]]; [left; assumption|right; left; assumption|right; right].
  destruct H as (ts1 & ts2 & -> & H). exists ts1, (ts2 ++ t). rewrite app_assoc. split; [reflexivity|assumption].
Qed.
Lemma boundary_close bs ts c r : boundary bs ts c r -> boundary (bs ++ [ts]) [] c r.
Proof.
  intros [H|[H|H]]; [left; assumption|right; left..].
  - destruct H as (bs1 & ts1 & ts2 & bs2 & -> & H). exists bs1, ts1, ts2, (bs2 ++ [ts]).
    rewrite <- app_assoc. split; [reflexivity|assumption].
  - destruct H as (ts1 & ts2 & -> & H). exists bs, ts1, ts2, []. split; [reflexivity|assumption].
Qed.

Lemma dict_get_snoc {V} (d : list (Z * V)) k v k' :
  dict_get (d ++ [(k, v)]) k' =
  match dict_get d k' with Some x => Some x | None => if k =? k' then Some v else None end.
Proof.
  induction d as [|[a b] d IH]; cbn [app dict_get]; [reflexivity|].
  destruct (a =? k'); [reflexivity|exact IH].
Qed.

Definition fillb (n : Z) : bytes := if zerosAtEnd p then zeros n else [].
Lemma fillb_succ n : 0 <= n -> fillb (n + 1) = fillb n ++ (if zerosAtEnd p then [0] else []).
Proof.
  intros. unfold fillb. destruct (zerosAtEnd p); [|reflexivity].
  unfold zeros, rep. replace (Z.to_nat (n + 1)) with (Z.to_nat n + 1)%nat by lia.
  rewrite repeat_app. reflexivity.
Qed.
Lemma fillb_0 : fillb 0 = [].
Proof. unfold fillb. destruct (zerosAtEnd p); reflexivity. Qed.

Record inner (bs : list (list token)) (ts : list token) (i : Z) (s : lzstate) (fl : Z) : Prop := {
  in_toks : toks_ok p data 0 (concat bs ++ ts) (cur s);
  in_res : result s = enc_blocks bs ++ [0] ++ toks_bytes (posSubtract p) ts ++ fillb (i - zlen ts);
  in_cnt : zlen ts = i \/ (zlen ts < i /\ cur s = zlen data);
  in_fl : fl = flags_from 0 ts 0;
  in_dict : dict_ok bs ts (idict s) (best s) }.

Lemma token_step_inv bs ts i s fl :
  0 <= i < 8 -> inner bs ts i s fl ->
  exists s' fl' ts', token_step p data (s, fl) i = Ok (s', fl') /\ inner bs ts' (i + 1) s' fl'.
Proof.
  intros Hi [Ht Hr Hc Hf Hd]. pose proof (zlen_nonneg data) as Hdl. pose proof (zlen_nonneg ts) as Htl.
  assert (C0 : 0 <= cur s) by (pose proof (toks_ok_le _ _ _ _ _ P Ht) as L; pose proof (zlen_nonneg (concat bs ++ ts)); lia).
  assert (C1 : cur s <= zlen data) by (apply (toks_ok_end _ _ _ _ _ (conj (Z.le_refl 0) Hdl) P Ht)).
  unfold token_step. destruct (Z.leb_spec (zlen data) (cur s)) as [E|E].
  - (* nothing left *)
    eexists _, _, ts. split; [reflexivity|]. constructor; cbn [cur result idict best]; try assumption.
    + replace (i + 1 - zlen ts) with (i - zlen ts + 1) by lia. rewrite fillb_succ by lia. rewrite Hr.
      destruct (zerosAtEnd p); rewrite ?app_nil_r, <- ?app_assoc; reflexivity.
    + right. lia.
  - assert (Hcnt : zlen ts = i) by lia. rewrite Hcnt, Z.sub_diag, fillb_0, app_nil_r in Hr.
    destruct (search_spec p data (cur s)) as (mp & ml & Es & Hml & Hend & Hmat & Hno);
      [lia|pose proof (po_len p P); lia|pose proof (po_diff p P); lia|].
    rewrite Es. cbn [bind].
    (* the token, the new position, bytes *)
    set (mid := if 2 <? ml then _ else _).
    assert (T : exists t, tok_ok p data (cur s) t /\
       mid = Ok (cur s + tok_len t, result s ++ tok_bytes (posSubtract p) t, flags_from 0 (ts ++ [t]) 0)).
    { unfold mid. destruct (Z.ltb_spec 2 ml) as [M|M].
      - destruct (Hmat ltac:(lia)) as (M1 & M2 & M3).
        exists (Ref ml (cur s - mp)). split.
        + cbn [tok_ok]. replace (cur s - (cur s - mp)) with mp by lia.
          repeat split; try assumption; try lia. 
        + rewrite flags_from_snoc, <- Hf, Hcnt. cbn [tok_len is_ref]. rewrite <- tok_bytes_eq by (pose proof (po_len p P); pose proof (po_diff p P); pose proof (po_sub p P); lia).
          replace (7 - (0 + i)) with (7 - i) by lia. reflexivity.
      - destruct (get_some data (cur s) ltac:(lia)) as (b & Eb & _).
        exists (Lit b). rewrite flags_from_snoc, <- Hf, Hcnt, Eb. cbn [bind tok_len is_ref tok_bytes tok_ok]. split; [|reflexivity].
        split; [exact Eb|]. intros m Hm. apply Hno. lia. }
    destruct T as (t & Htok & Emid). rewrite Emid. cbn [bind].
    assert (I : forall d' b', dict_ok bs (ts ++ [t]) d' b' ->
      inner bs (ts ++ [t]) (i + 1)
        {| cur := cur s + tok_len t; result := result s ++ tok_bytes (posSubtract p) t; idict := d'; best := b' |}
        (flags_from 0 (ts ++ [t]) 0)).
    { intros d' b' Hd'. constructor; cbn [cur result idict best].
      - rewrite app_assoc. apply toks_ok_app. exists (cur s). split; [assumption|].
        constructor; [assumption|constructor].
      - rewrite Hr, toks_bytes_app.
        replace (i + 1 - zlen (ts ++ [t])) with 0 by zl. rewrite fillb_0.
        unfold toks_bytes at 3. cbn [map concat]. rewrite !app_nil_r, <- !app_assoc. reflexivity.
      - left. zl.
      - reflexivity.
      - assumption. }
    assert (B : boundary bs (ts ++ [t]) (cur s + tok_len t) (zlen (result s ++ tok_bytes (posSubtract p) t))).
    { right; right. exists (ts ++ [t]), []. rewrite app_nil_r. split; [reflexivity|].
      split; [destruct ts; discriminate|]. split.
      - rewrite app_assoc. apply toks_ok_app. exists (cur s). split; [assumption|]. constructor; [assumption|constructor].
      - rewrite Hr, !zlen_app, toks_bytes_app, zlen_app. unfold toks_bytes at 3. cbn [map concat].
        rewrite app_nil_r. zl. }
    destruct Hd as (Hb & Hb0 & Hk).
    assert (Hk' : forall k c r, dict_get (idict s) k = Some (c, r) -> (k = c - r /\ 0 <= k) /\ boundary bs (ts ++ [t]) c r).
    { intros k c r G. destruct (Hk k c r G). split; [assumption|]. apply boundary_grow; assumption. }
    destruct (Z.ltb_spec (best s) (cur s + tok_len t - zlen (result s ++ tok_bytes (posSubtract p) t))) as [S|S].
    + eexists _, _, (ts ++ [t]). split; [reflexivity|]. apply I.
      set (sv := cur s + tok_len t - zlen (result s ++ tok_bytes (posSubtract p) t)) in *.
      destruct (dict_get (idict s) sv) as [v|] eqn:Eg.
      * split; [eauto|]. split; [lia|assumption].
      * split; [exists (cur s + tok_len t, zlen (result s ++ tok_bytes (posSubtract p) t)); rewrite dict_get_snoc, Eg, Z.eqb_refl; reflexivity|].
        split; [lia|]. intros k c r. rewrite dict_get_snoc. destruct (dict_get (idict s) k) as [w|] eqn:Ek.
        -- intros [= ->]. apply Hk'; assumption.
        -- destruct (Z.eqb_spec sv k) as [<-|]; [|discriminate]. intros [= <- <-]. split; [split; [reflexivity|lia]|assumption].
    + eexists _, _, (ts ++ [t]). split; [reflexivity|]. apply I. split; [assumption|]. split; assumption.
Qed.

Lemma inner_loop n : forall bs ts i s fl,
  0 <= i -> i + Z.of_nat n = 8 -> inner bs ts i s fl ->
  exists s' fl' ts', foldM (token_step p data) (s, fl) (range_z i n) = Ok (s', fl') /\ inner bs ts' 8 s' fl'.
Proof.
  induction n as [|n IH]; intros bs ts i s fl Hi Hn H; cbn [range_z foldM].
  - exists s, fl, ts. replace 8 with i by lia. split; [reflexivity|assumption].
  - destruct (token_step_inv bs ts i s fl ltac:(lia) H) as (s1 & f1 & ts1 & E & H1). rewrite E. cbn [bind].
    apply (IH bs ts1); [lia|lia|assumption].
Qed.

(** ** the outer loop *)
Record outer (bs : list (list token)) (s : lzstate) : Prop := {
  ou_toks : toks_ok p data 0 (concat bs) (cur s);
  ou_res : result s = enc_blocks bs;
  ou_cnt : Forall (fun b => zlen b = 8) bs \/ (blocks_shape bs /\ cur s = zlen data);
  ou_dict : dict_ok bs [] (idict s) (best s) }.

Lemma blocks_shape_snoc bs b : Forall (fun b => zlen b = 8) bs -> 1 <= zlen b <= 8 -> blocks_shape (bs ++ [b]).
Proof.
  intros H Hb. induction H as [|x bs Hx H IH]; cbn [app]; [exact Hb|].
  destruct bs as [|y bs]; cbn [app] in *; (split; [exact Hx|exact IH]).
Qed.

Lemma stream_bytes_app bs b : enc_blocks (bs ++ [b]) = enc_blocks bs ++ block_bytes p b.
Proof. unfold stream_bytes. rewrite map_app, concat_app. cbn [map concat]. rewrite app_nil_r. reflexivity. Qed.

Lemma setl_mid {A} (a b : list A) x y i : i = zlen a -> setl (a ++ y :: b) i x = Ok (a ++ x :: b).
Proof.
  intros ->. pose proof (zlen_nonneg a). pose proof (zlen_nonneg b). unfold setl.
  destruct (Z.ltb_spec (zlen a) 0); [lia|]. rewrite zlen_app, zlen_cons.
  destruct (Z.ltb_spec (zlen a) 0); [lia|]. cbn [orb].
  destruct (Z.leb_spec (zlen a + (1 + zlen b)) (zlen a)); [lia|].
  replace (Z.to_nat (zlen a)) with (length a) by (unfold zlen; lia). rewrite upd_app. reflexivity.
Qed.

Lemma compress_loop_inv fuel : forall bs s,
  Forall (fun b => zlen b = 8) bs \/ cur s = zlen data ->
  outer bs s -> zlen data - cur s + 1 <= Z.of_nat fuel ->
  exists bs' s', compress_loop fuel p data s = Ok s' /\ outer bs' s' /\ blocks_shape bs' /\ cur s' = zlen data.
Proof.
  induction fuel as [|n IH]; intros bs s Hfull H Hf.
  - destruct H as [Ht _ _ _]. pose proof (zlen_nonneg data).
    pose proof (toks_ok_end _ _ _ _ _ (conj (Z.le_refl 0) H) P Ht). lia.
  - cbn [compress_loop]. pose proof H as [Ht Hr Hc Hd]. pose proof (zlen_nonneg data) as Hdl.
    pose proof (toks_ok_end _ _ _ _ _ (conj (Z.le_refl 0) Hdl) P Ht) as He.
    destruct (Z.ltb_spec (cur s) (zlen data)) as [L|L].
    + destruct Hfull as [Hfull|]; [|lia].
      set (s0 := {| cur := cur s; result := result s ++ [0]; idict := idict s; best := best s |}).
      assert (I0 : inner bs [] 0 s0 0).
      { constructor; cbn [cur result idict best s0].
        - rewrite app_nil_r. assumption.
        - rewrite Hr. change (0 - zlen (@nil token)) with 0. rewrite fillb_0. reflexivity.
        - left; reflexivity.
        - reflexivity.
        - assumption. }
      destruct (inner_loop 8 bs [] 0 s0 0) as (s1 & fl & ts & E & [It Ir Ic If Id]); [lia|reflexivity|assumption|].
      rewrite E. cbn [bind].
      rewrite Ir. cbn [app]. rewrite setl_mid by (rewrite Hr; reflexivity). cbn [bind].
      pose proof (zlen_nonneg ts).
      assert (T8 : zlen ts <= 8) by lia.
      apply toks_ok_app in It as Itt. destruct Itt as (m & It1 & It2).
      assert (m = cur s).
      { clear - It1 Ht. revert It1 Ht. generalize 0, (concat bs) as l. intros z l H1. revert H1. 
        induction 1 as [|c t ts c' A B IHH]; intros H2; inversion H2; subst; [reflexivity|]. apply IHH; assumption. }
      subst m. pose proof (toks_ok_le _ _ _ _ _ P It2) as Lt.
      assert (T1 : 1 <= zlen ts) by lia.
      set (s2 := {| cur := cur s1; result := _; idict := idict s1; best := best s1 |}).
      assert (O : outer (bs ++ [ts]) s2).
      { constructor; cbn [cur result idict best s2].
        - rewrite concat_app. cbn [concat]. rewrite app_nil_r. assumption.
        - rewrite stream_bytes_app. unfold block_bytes. rewrite If, flag_byte_eq by assumption. reflexivity.
        - destruct Ic as [Ic|[Ic1 Ic2]].
          + left. apply Forall_app. split; [assumption|]. constructor; [assumption|constructor].
          + right. split; [|assumption]. apply blocks_shape_snoc; [assumption|lia].
        - destruct Id as (D1 & D2 & D3). split; [assumption|]. split; [assumption|].
          intros k c r G. destruct (D3 k c r G). split; [assumption|]. apply boundary_close; assumption. }
      apply (IH (bs ++ [ts])); [|assumption|].
      * cbn [cur s2]. destruct Ic as [Ic|[Ic1 Ic2]]; [left|right; assumption].
        apply Forall_app. split; [assumption|]. constructor; [assumption|constructor].
      * cbn [cur s2]. lia.
    + exists bs, s. split; [reflexivity|]. split; [assumption|]. split; [|lia].
      destruct Hc as [Hc|[Hc _]]; [|assumption].
      destruct bs as [|b bs]; [exact I|].
      clear - Hc. revert b Hc. induction bs as [|b' bs IH]; intros b Hc; inversion Hc; subst; [cbn; lia|].
      split; [assumption|]. apply IH; assumption.
Qed.

Lemma dict_seek_ok fuel d k b :
  (exists v, dict_get d b = Some v) -> k <= b -> b - k + 1 <= Z.of_nat fuel ->
  exists k' c r, dict_seek fuel d k = Ok (c, r) /\ dict_get d k' = Some (c, r) /\ k <= k' <= b.
Proof.
  intros Hb. revert k. induction fuel as [|n IH]; intros k Hk Hf; [lia|]. cbn [dict_seek].
  destruct (dict_get d k) as [[c r]|] eqn:E.
  - exists k, c, r. split; [reflexivity|]. split; [assumption|lia].
  - destruct (Z.eq_dec k b) as [->|]; [destruct Hb; congruence|].
    destruct (IH (k + 1)) as (k' & c & r & E1 & E2 & E3); [lia|lia|].
    exists k', c, r. split; [assumption|]. split; [assumption|lia].
Qed.

(** ** the compressor, as a whole *)
Theorem lz_compress_spec :
  exists bs ignD ignC,
    lz_compress p data = Ok (stream_bytes p bs, ignD, ignC) /\
    toks_ok p data 0 (concat bs) (zlen data) /\ blocks_shape bs /\
    ((ignD = 0 /\ ignC = 0) \/
     (exists c r, ignD = zlen data - c /\ ignC = zlen (stream_bytes p bs) - r /\
        c - r > zlen data - zlen (stream_bytes p bs) /\ c - r >= 0 /\ boundary bs [] c r)).
Proof.
  unfold lz_compress. set (s0 := {| cur := 0; result := []; idict := _; best := 0 |}).
  assert (O : outer [] s0).
  { constructor; cbn [cur result idict best s0].
    - constructor.
    - reflexivity.
    - left; constructor.
    - split; [eexists; reflexivity|]. split; [lia|]. intros k c r. cbn [dict_get].
      destruct (Z.eqb_spec 0 k) as [<-|]; [|discriminate]. intros [= <- <-]. split; [lia|]. left; split; reflexivity. }
  destruct (compress_loop_inv (S (length data)) [] s0) as (bs & s & E & [Ht Hr Hc Hd] & Hs & Hcur);
    [left; constructor|assumption|cbn [cur s0]; unfold zlen; lia|].
  rewrite E. cbn [bind]. rewrite Hcur in Ht. rewrite Hcur, Hr.
  destruct Hd as (Hb & Hb0 & Hk).
  destruct (Z.ltb_spec (zlen data - zlen (stream_bytes p bs)) (best s)) as [L|L].
  - destruct (dict_seek_ok (Z.to_nat (best s - (zlen data - zlen (stream_bytes p bs)))) (idict s)
       (zlen data - zlen (stream_bytes p bs) + 1) (best s)) as (k & c & r & E1 & E2 & E3); [assumption|lia|lia|].
    rewrite E1. cbn [bind]. destruct (Hk k c r E2) as [[-> K0] B].
    exists bs, (zlen data - c), (zlen (stream_bytes p bs) - r).
    split; [reflexivity|]. split; [assumption|]. split; [assumption|]. right. exists c, r.
    repeat split; try lia. assumption.
  - exists bs, 0, 0. split; [reflexivity|]. split; [assumption|]. split; [assumption|]. left; split; reflexivity.
Qed.
End Compressor.

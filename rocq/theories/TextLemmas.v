(** * Lemmas about printing *)
From Coq Require Import String.
From Verif Require Import PyBase PyLemmas PyTac CommonModel FntModel FntSpec FntLemmas TextModel TextSpec.

(** ** numerals *)
Lemma undec_snoc s c : undec (s ++ [c]) = 10 * undec s + (c - 48).
Proof. unfold undec. rewrite fold_left_app. reflexivity. Qed.
Lemma digits_value k : forall n, 0 <= n < 10 ^ Z.of_nat k -> undec (digits k n) = n.
Proof.
  induction k as [|k IH]; intros n N; [change (10 ^ Z.of_nat 0) with 1 in N; replace n with 0 by lia; reflexivity|]. cbn [digits].
  destruct (Z.ltb_spec n 10); [unfold undec; cbn [fold_left]; lia|]. rewrite undec_snoc, IH; [lia|]. rewrite Nat2Z.inj_succ, Z.pow_succ_r in N by lia. split; [apply Z.div_pos; lia|apply Z.div_lt_upper_bound; lia].
Qed.
Lemma fuel_enough n : 0 <= n -> n < 10 ^ Z.of_nat (S (Z.to_nat (Z.log2 n))).
Proof.
  intros N. destruct (Z.eq_dec n 0) as [->|NZ]; [vm_compute; reflexivity|]. pose proof (Z.log2_nonneg n). rewrite Nat2Z.inj_succ, Z2Nat.id by lia. pose proof (Z.log2_spec n ltac:(lia)) as [_ U].
  eapply Z.lt_le_trans; [exact U|]. apply Z.pow_le_mono_l. lia.
Qed.
Lemma str_nat_value n : 0 <= n -> undec (str_nat n) = n.
Proof. intros N. apply digits_value. split; [exact N|apply fuel_enough; exact N]. Qed.
Lemma digits_chars k : forall n, 0 <= n -> Forall (fun c => 48 <= c < 58) (digits k n).
Proof. induction k as [|k IH]; intros n N; cbn [digits]; [constructor|]. destruct (Z.ltb_spec n 10); [repeat constructor; lia|]. apply Forall_app. split; [apply IH, Z.div_pos; lia|repeat constructor; lia]. Qed.
Lemma digits_len k : forall n m, 0 <= n <= m -> zlen (digits k n) <= zlen (digits k m).
Proof.
  induction k as [|k IH]; intros n m N; cbn [digits]; [lia|]. destruct (Z.ltb_spec n 10), (Z.ltb_spec m 10); rewrite ?zlen_app, ?zlen_cons, ?zlen_nil; try lia.
  - pose proof (zlen_nonneg (digits k (m / 10))). lia.
  - specialize (IH (n / 10) (m / 10)). assert (0 <= n / 10 <= m / 10) by (split; [apply Z.div_pos; lia|apply Z.div_le_mono; lia]). lia.
Qed.
Lemma digits_more k : forall n j, 0 <= n < 10 ^ Z.of_nat k -> (0 < k)%nat -> digits (k + j) n = digits k n.
Proof.
  induction k as [|k IH]; intros n j N K; [lia|]. cbn [digits Nat.add]. destruct (Z.ltb_spec n 10); [reflexivity|]. destruct k as [|k]; [change (10 ^ Z.of_nat 1) with 10 in N; lia|].
  f_equal. apply IH; [|lia]. rewrite (Nat2Z.inj_succ (S k)), Z.pow_succ_r in N by lia. split; [apply Z.div_pos; lia|apply Z.div_lt_upper_bound; lia].
Qed.
Lemma str_nat_len n m : 0 <= n <= m -> zlen (str_nat n) <= zlen (str_nat m).
Proof.
  intros N. unfold str_nat. pose proof (Z.log2_le_mono n m ltac:(lia)) as L. pose proof (Z.log2_nonneg n).
  replace (S (Z.to_nat (Z.log2 m))) with (S (Z.to_nat (Z.log2 n)) + (Z.to_nat (Z.log2 m) - Z.to_nat (Z.log2 n)))%nat by lia.
  rewrite <- (digits_more (S (Z.to_nat (Z.log2 n))) n (Z.to_nat (Z.log2 m) - Z.to_nat (Z.log2 n)) (conj (proj1 N) (fuel_enough n (proj1 N))) (Nat.lt_0_succ _)). apply digits_len. exact N.
Qed.
Lemma undec_zeros s n : undec (rep 48 n ++ s) = undec s.
Proof. unfold undec, rep. rewrite fold_left_app. f_equal. induction (Z.to_nat n); [reflexivity|exact IHn0]. Qed.
Lemma digits4 k : forall n, (k <= 4)%nat -> 0 <= n < 10 ^ Z.of_nat k -> (0 < k)%nat -> zlen (str_nat n) <= Z.of_nat k.
Proof.
  intros n K N P. unfold str_nat. set (j := Z.to_nat (Z.log2 n)). assert (E : digits (S j) n = digits (k + S j) n).
  { rewrite Nat.add_comm. symmetry. apply digits_more; [|lia]. split; [lia|apply fuel_enough; lia]. }
  rewrite E, digits_more by assumption. clear E j P K. revert n N. induction k as [|k IH]; intros n N; cbn [digits]; [rewrite zlen_nil; lia|]. destruct (Z.ltb_spec n 10); [rewrite zlen_cons, zlen_nil; lia|]. rewrite zlen_app, zlen_cons, zlen_nil.
  specialize (IH (n / 10)). rewrite Nat2Z.inj_succ, Z.pow_succ_r in N by lia. assert (0 <= n / 10 < 10 ^ Z.of_nat k) by (split; [apply Z.div_pos; lia|apply Z.div_lt_upper_bound; lia]). lia.
Qed.

(** ** names of notes *)
Lemma marks_up_spec k : forall note acc, note < Z.of_nat k -> marks_up k note acc = (note - 12 * Z.max 0 (note / 12 + 1), acc ++ rep 39 (Z.max 0 (note / 12 + 1))).
Proof.
  induction k as [|k IH]; intros note acc L; cbn [marks_up].
  - assert (note / 12 < 0) by (apply Z.div_lt_upper_bound; lia). rewrite Z.max_l by lia. unfold rep. cbn [Z.to_nat repeat]. rewrite app_nil_r. f_equal. lia.
  - destruct (Z.leb_spec 0 note) as [P|P].
    + rewrite IH by lia. assert (D : (note - 12) / 12 = note / 12 - 1) by (replace (note - 12) with (note + (-1) * 12) by lia; rewrite Z.div_add by lia; lia). rewrite D.
      assert (0 <= note / 12) by (apply Z.div_pos; lia). rewrite !Z.max_r by lia. f_equal; [lia|]. rewrite <- app_assoc. f_equal. unfold rep. replace (Z.to_nat (note / 12 + 1)) with (S (Z.to_nat (note / 12 - 1 + 1))) by lia. reflexivity.
    + assert (note / 12 < 0) by (apply Z.div_lt_upper_bound; lia). rewrite Z.max_l by lia. unfold rep. cbn [Z.to_nat repeat]. rewrite app_nil_r. f_equal. lia.
Qed.
Lemma marks_down_spec k : forall note acc, - note < Z.of_nat k -> snd (marks_down k note acc) = acc ++ rep 885 (Z.max 0 (- (note / 12) - 2)).
Proof.
  induction k as [|k IH]; intros note acc L; cbn [marks_down].
  - assert (0 <= note / 12) by (apply Z.div_pos; lia). rewrite Z.max_l by lia. unfold rep. cbn [Z.to_nat repeat snd]. rewrite app_nil_r. reflexivity.
  - destruct (Z.ltb_spec note (-24)) as [P|P].
    + rewrite IH by lia. assert (D : (note + 12) / 12 = note / 12 + 1) by (replace (note + 12) with (note + 1 * 12) by lia; rewrite Z.div_add by lia; lia). rewrite D.
      assert (note / 12 < -2) by (apply Z.div_lt_upper_bound; lia). rewrite !Z.max_r by lia. rewrite <- app_assoc. f_equal. unfold rep. replace (Z.to_nat (- (note / 12) - 2)) with (S (Z.to_nat (- (note / 12 + 1) - 2))) by lia. reflexivity.
    + assert (-2 <= note / 12) by (apply Z.div_le_lower_bound; lia). rewrite Z.max_l by lia. unfold rep. cbn [Z.to_nat repeat snd]. rewrite app_nil_r. reflexivity.
Qed.
Lemma noteName_closed v : let o := (v - 60) / 12 in let m := (v - 60) mod 12 in
  noteName v = (l <- get (asc "ccddeffggaab") m ;; s <- get [32; 9839; 32; 9839; 32; 32; 9839; 32; 9839; 32; 9839; 32] m ;;
    Ok ((if o <? -1 then upper [l] else [l]) ++ strip1 s ++ (if 0 <=? o then rep 39 (o + 1) else rep 885 (- o - 2)))).
Proof.
  intros o m. unfold noteName. fold m. destruct (get (asc "ccddeffggaab") m) as [l|]; [|reflexivity]. cbn [bind]. destruct (get _ m) as [s|]; [|reflexivity]. cbn [bind].
  rewrite marks_up_spec by lia. set (note := v - 60) in *. set (n1 := note - 12 * Z.max 0 (note / 12 + 1)).
  pose proof (marks_down_spec (S (Z.abs_nat n1)) n1 ([] ++ rep 39 (Z.max 0 (note / 12 + 1))) ltac:(lia)) as D. destruct (marks_down _ n1 _) as [x acc]. cbn [snd] in D. subst acc. cbn [app].
  assert (C : (note <? -12) = (o <? -1)). { unfold o. destruct (Z.ltb_spec note (-12)) as [A|A], (Z.ltb_spec (note / 12) (-1)) as [B|B]; try reflexivity; [assert (note / 12 < -1) by (apply Z.div_lt_upper_bound; lia); lia|assert (-1 <= note / 12) by (apply Z.div_le_lower_bound; lia); lia]. }
  rewrite C. do 3 f_equal. fold o. destruct (Z.leb_spec 0 o) as [P|P].
  - rewrite (Z.max_r 0 (o + 1)) by lia. assert (N1 : n1 / 12 = -1). { unfold n1. fold o. rewrite Z.max_r by lia. replace (note - 12 * (o + 1)) with (note + (- (o + 1)) * 12) by lia. rewrite Z.div_add by lia. fold o. lia. }
    rewrite N1. change (Z.max 0 (- -1 - 2)) with 0. unfold rep at 2. cbn [Z.to_nat repeat]. apply app_nil_r.
  - rewrite (Z.max_l 0 (o + 1)) by lia. unfold rep at 1. cbn [Z.to_nat repeat app]. assert (N1 : n1 = note) by (unfold n1; fold o; rewrite Z.max_l by lia; lia). rewrite N1. fold o. unfold rep. replace (Z.to_nat (Z.max 0 (- o - 2))) with (Z.to_nat (- o - 2)) by lia. reflexivity.
Qed.
Lemma all_rep c n : forallb (Z.eqb c) (rep c n) = true.
Proof. unfold rep. induction (Z.to_nat n); [reflexivity|]. cbn [repeat forallb]. rewrite Z.eqb_refl. exact IHn0. Qed.
Lemma zlen_rep {A} (x : A) n : 0 <= n -> zlen (rep x n) = n.
Proof. intros N. unfold rep, zlen. rewrite repeat_length. lia. Qed.
Lemma not_sharp c n : c <> 9839 -> match rep c n with 9839 :: m => (1, m) | _ => (0, rep c n) end = (0, rep c n).
Proof. intros C. unfold rep. destruct (Z.to_nat n); [reflexivity|]. cbn [repeat]. destruct c as [|p|p]; [reflexivity| |reflexivity]. do 14 (destruct p as [p|p|]; try reflexivity). exfalso. apply C. reflexivity. Qed.
Lemma note_back v : exists s, noteName v = Ok s /\ helmholtz s = Some v.
Proof.
  rewrite noteName_closed. cbv zeta. set (o := (v - 60) / 12). set (m := (v - 60) mod 12). assert (M : 0 <= m < 12) by (apply Z.mod_pos_bound; lia).
  assert (V : v = 60 + 12 * o + m) by (pose proof (Z_div_mod_eq_full (v - 60) 12); lia). rewrite V. clearbody o m. clear V v.
  set (mk := if 0 <=? o then rep 39 (o + 1) else rep 885 (- o - 2)).
  assert (NS : match mk with 9839 :: x => (1, x) | _ => (0, mk) end = (0, mk)) by (unfold mk; destruct (0 <=? o); apply not_sharp; discriminate).
  assert (K : forall c : bool, (if c then Z.ltb o (-1) = true else Z.ltb o (-1) = false) -> if c then forallb (Z.eqb 885) mk = true /\ zlen mk = - o - 2 else forallb (Z.eqb 39) mk = true /\ zlen mk = o + 1).
  { intros c C. unfold mk. destruct c.
    - replace (0 <=? o) with false by lia. split; [apply all_rep|apply zlen_rep; lia].
    - destruct (Z.leb_spec 0 o); [split; [apply all_rep|apply zlen_rep; lia]|]. assert (o = -1) by lia. subst o. split; reflexivity. }
  change (asc "ccddeffggaab") with [99; 99; 100; 100; 101; 102; 102; 103; 103; 97; 97; 98].
  destruct (o <? -1) eqn:O.
  - destruct (K true eq_refl) as [F L]. clearbody mk.
    assert (MM : m = 0 \/ m = 1 \/ m = 2 \/ m = 3 \/ m = 4 \/ m = 5 \/ m = 6 \/ m = 7 \/ m = 8 \/ m = 9 \/ m = 10 \/ m = 11) by lia.
    repeat destruct MM as [->|MM]; [..|rewrite MM]; (eexists; split; [reflexivity|]); cbn [strip1 upper map app Z.eqb Pos.eqb Z.leb Z.compare Pos.compare Pos.compare_cont andb Z.sub Z.add Z.opp Z.pos_sub Pos.pred_double Z.pred_double Z.double Z.succ_double]; unfold helmholtz; rewrite ?NS, F, L; apply f_equal; match goal with |- context [semitone ?x] => let y := eval vm_compute in (semitone x) in change (semitone x) with y end; lia.
  - destruct (K false eq_refl) as [F L]. clearbody mk.
    assert (MM : m = 0 \/ m = 1 \/ m = 2 \/ m = 3 \/ m = 4 \/ m = 5 \/ m = 6 \/ m = 7 \/ m = 8 \/ m = 9 \/ m = 10 \/ m = 11) by lia.
    repeat destruct MM as [->|MM]; [..|rewrite MM]; (eexists; split; [reflexivity|]); cbn [strip1 upper map app Z.eqb Pos.eqb Z.leb Z.compare Pos.compare Pos.compare_cont andb Z.sub Z.add Z.opp Z.pos_sub Pos.pred_double Z.pred_double Z.double Z.succ_double]; unfold helmholtz; rewrite ?NS, F, L; apply f_equal; match goal with |- context [semitone ?x] => let y := eval vm_compute in (semitone x) in change (semitone x) with y end; lia.
Qed.

(** ** bytes as literals *)
Lemma lit_byte_all : Forall (fun b => b = 39 \/ forall rest, lit_body (repr_byte b ++ rest) = keep b (lit_body rest)) (range_z 0 256).
Proof. cbv [range_z Z.add Pos.add Pos.succ Pos.add_carry]. repeat (apply Forall_cons; [first [left; reflexivity|right; intros rest; reflexivity]|]). apply Forall_nil. Qed.
Lemma lit_byte b rest : is_byte b -> b <> 39 -> lit_body (repr_byte b ++ rest) = keep b (lit_body rest).
Proof. intros B N. pose proof (proj1 (Forall_forall _ _) lit_byte_all b (proj2 (in_range_z 0 256 b) B)) as [E|E]; [contradiction|apply E]. Qed.
Lemma repr_head_all : Forall (fun b => exists r, repr_byte b = 92 :: r \/ repr_byte b = b :: r) (range_z 0 256).
Proof. cbv [range_z Z.add Pos.add Pos.succ Pos.add_carry]. repeat (apply Forall_cons; [eexists; first [left; reflexivity|right; reflexivity]|]). apply Forall_nil. Qed.
Lemma repr_head b : is_byte b -> exists r, repr_byte b = 92 :: r \/ repr_byte b = b :: r.
Proof. intros B. exact (proj1 (Forall_forall _ _) repr_head_all b (proj2 (in_range_z 0 256 b) B)). Qed.
Lemma lit_octal b c r : 0 <= b < 8 -> octal c = false -> lit_body (92 :: (48 + b) :: c :: r) = keep b (lit_body (c :: r)).
Proof.
  intros B C. remember (c :: r) as cr eqn:E. cbn [lit_quoted Z.eqb Pos.eqb]. assert (O : octal (48 + b) = true) by (unfold octal; lia). rewrite O, E. rewrite C. f_equal. lia.
Qed.
Lemma str_digit b : 0 <= b < 8 -> str_nat b = [48 + b].
Proof. intros B. unfold str_nat. cbn [digits]. replace (b <? 10) with true by lia. reflexivity. Qed.
Lemma short_bytes_lit shown : forall pre post, is_bytes (shown ++ post) -> ~ In 39 shown ->
  exists t, short_bytes (pre ++ shown ++ post) (zlen pre) shown = Ok t /\ lit_body (t ++ [39]) = Some shown /\
  match shown with [] => t = [] | b :: _ => exists r, t = 92 :: r \/ t = b :: r end.
Proof.
  induction shown as [|b shown IH]; intros pre post BY A; [exists []; repeat split; reflexivity|]. cbn [app] in BY. apply Forall_cons_iff in BY as [B BY].
  destruct (IH (pre ++ [b]) post BY) as (t & E & L & H); [intros I; apply A; right; exact I|]. rewrite <- app_assoc in E. cbn [app] in E. rewrite zlen_app, zlen_cons, zlen_nil in E. replace (zlen pre + (1 + 0)) with (zlen pre + 1) in E by lia.
  assert (NA : b <> 39) by (intros ->; apply A; left; reflexivity).
  assert (K : forall s o, o = Some s -> keep b o = Some (b :: s)). { intros s o ->. unfold keep. cbn [option_map]. do 2 f_equal. apply Z.mod_small. exact B. }
  assert (REPR : exists t', t' = repr_byte b ++ t /\ lit_body (t' ++ [39]) = Some (b :: shown) /\ exists r, t' = 92 :: r \/ t' = b :: r).
  { eexists. split; [reflexivity|]. split; [rewrite <- app_assoc, lit_byte by assumption; apply K; exact L|]. destruct (repr_head b B) as (r & [R|R]); rewrite R; eexists; [left|right]; reflexivity. }
  assert (OCT : 0 <= b < 8 -> match shown with [] => True | nx :: _ => ~ 48 <= nx < 58 end ->
    exists t', t' = (asc "\" ++ str_nat b) ++ t /\ lit_body (t' ++ [39]) = Some (b :: shown) /\ exists r, t' = 92 :: r \/ t' = b :: r).
  { intros B8 NX. eexists. split; [reflexivity|]. split; [|eexists; left; reflexivity]. rewrite str_digit by exact B8. change (asc "\") with [92]. cbn [app].
    assert (HD : exists c r, t ++ [39] = c :: r /\ octal c = false).
    { destruct shown as [|nx shown]; [subst t; exists 39, []; split; reflexivity|]. destruct H as (r & [->| ->]); cbn [app]; eexists _, _; (split; [reflexivity|]); [reflexivity|unfold octal; lia]. }
    destruct HD as (c & r & HD & C). rewrite HD in *. rewrite lit_octal by assumption. apply K. exact L. }
  cbn [short_bytes app]. unfold short_byte. assert (B0 : 0 <= b) by apply B. destruct (Z.ltb_spec b 8) as [B8|B8].
  - destruct (Z.eqb_spec (zlen pre) (zlen (pre ++ b :: shown ++ post) - 1)) as [LST|LST].
    + rewrite zlen_app, zlen_cons, zlen_app in LST. assert (shown = []) as -> by (destruct shown; [reflexivity|rewrite zlen_cons in LST; pose proof (zlen_nonneg shown); pose proof (zlen_nonneg post); lia]).
      destruct (OCT ltac:(lia) I) as (t' & -> & R). cbn [app] in *. rewrite E. cbn [bind]. eexists. split; [reflexivity|exact R].
    + destruct (shown ++ post) as [|nx rest] eqn:SP; [rewrite zlen_app, zlen_cons, zlen_nil in LST; lia|].
      assert (G : get (pre ++ b :: nx :: rest) (zlen pre + 1) = Ok nx). { change (pre ++ b :: nx :: rest) with (pre ++ [b] ++ nx :: rest). rewrite app_assoc. apply get_mid. rewrite zlen_app, zlen_cons, zlen_nil. lia. }
      rewrite G. cbn [bind]. destruct ((48 <=? nx) && (nx <? 58)) eqn:NX; cbn [negb].
      * destruct REPR as (t' & -> & R). cbn [bind]. rewrite E. cbn [bind]. eexists. split; [reflexivity|exact R].
      * destruct OCT as (t' & -> & R); [lia|destruct shown; [exact I|injection SP as -> _; lia]|]. cbn [bind]. rewrite E. cbn [bind]. eexists. split; [reflexivity|exact R].
  - destruct REPR as (t' & -> & R). cbn [bind]. rewrite E. cbn [bind]. eexists. split; [reflexivity|exact R].
Qed.
Lemma literal_quote s : literal (asc "b'" ++ s) = lit_body s.
Proof. reflexivity. Qed.
Lemma short_repr data n : is_bytes data -> 0 <= n -> ~ In 39 (firstn (Z.to_nat n) data) ->
  exists t, shortBytesRepr data n = Ok (t ++ (if n <? zlen data then asc "..." else [])) /\ literal t = Some (firstn (Z.to_nat n) data).
Proof.
  intros B N A. unfold shortBytesRepr. assert (S : slice data 0 n = firstn (Z.to_nat n) data) by (destruct (Z.leb_spec n (zlen data)); [rewrite <- (firstn_skipn (Z.to_nat n) data) at 1; apply slice_hit; [reflexivity|unfold zlen in *; rewrite firstn_length; lia]|rewrite firstn_all2 by (unfold zlen in *; lia); apply slice_hit_all; lia]).
  rewrite S.
  destruct (short_bytes_lit (firstn (Z.to_nat n) data) [] (skipn (Z.to_nat n) data)) as (t & E & L & _); [rewrite firstn_skipn; exact B|exact A|]. cbn [app] in E. rewrite firstn_skipn in E. change (zlen []) with 0 in E.
  rewrite E. cbn [bind]. exists (asc "b'" ++ t ++ asc "'"). rewrite literal_quote. split; [|exact L]. destruct (n <? zlen data); [reflexivity|rewrite app_nil_r; reflexivity].
Qed.

(** ** folder listings *)
Fixpoint numbered (d : text) (fid : Z) (names : list text) : list (text * option Z) :=
  match names with [] => [] | n :: r => (fmt_04d fid ++ d ++ n, Some fid) :: numbered d (fid + 1) r end.
Fixpoint entries (indent : Z) (f : folder) : list (text * option Z) :=
  let 'Folder folders files firstID := f in
  numbered (rep 32 (indent + 1)) firstID files ++
  (fix go l := match l with
               | [] => []
               | (name, g) :: r => (fmt_04d (fFirst g) ++ rep 32 (indent + 1) ++ name ++ asc "/", None) :: entries (indent + 4) g ++ go r
               end) folders.
Fixpoint dirs (indent : Z) (l : list (list Z * folder)) : list (text * option Z) :=
  match l with
  | [] => []
  | (name, g) :: r => (fmt_04d (fFirst g) ++ rep 32 (indent + 1) ++ name ++ asc "/", None) :: entries (indent + 4) g ++ dirs indent r
  end.
Lemma entries_eq indent l files i : entries indent (Folder l files i) = numbered (rep 32 (indent + 1)) i files ++ dirs indent l.
Proof. cbn [entries]. f_equal. induction l as [|[n g] l IH]; [reflexivity|]. cbn [dirs]. rewrite <- IH. reflexivity. Qed.
Definition with_preview (fl : option (list bytes)) (e : text * option Z) : res (text * option text) :=
  p <- match snd e with Some id => preview_of fl id | None => Ok None end ;; Ok (fst e, p).
Lemma file_lines_eq fl ind : forall names fid, file_lines fl ind fid names = mapM (with_preview fl) (numbered ind fid names).
Proof. induction names as [|n r IH]; intros fid; [reflexivity|]. cbn [file_lines numbered mapM]. unfold with_preview at 1. cbn [snd fst]. destruct (preview_of fl fid); [|reflexivity]. cbn [bind]. rewrite IH. reflexivity. Qed.
Lemma unc_eq fl f : forall indent, strListUncombined indent fl f = mapM (with_preview fl) (entries indent f).
Proof.
  induction f as [l files i IH] using folder_ind'. intros indent. rewrite entries_eq, mapM_app. cbn [strListUncombined]. rewrite file_lines_eq. destruct (mapM _ (numbered _ _ _)) as [L|]; [|reflexivity]. cbn [bind].
  match goal with |- (M <- ?a ;; _) = _ => assert (E : a = mapM (with_preview fl) (dirs indent l)) end; [|rewrite E; reflexivity].
  induction l as [|[n g] l IHl]; [reflexivity|]. cbn [dirs mapM]. unfold with_preview at 1. cbn [snd fst bind]. rewrite (IH n g) by (left; reflexivity). rewrite mapM_app.
  destruct (mapM _ (entries _ _)) as [S|]; [|reflexivity]. cbn [bind]. rewrite IHl by (intros; eapply IH; right; eassumption). destruct (mapM _ (dirs _ _)); reflexivity.
Qed.
(** *** numerals of at least four digits *)
Lemma digits_hd k : forall n, 0 < n < 10 ^ Z.of_nat k -> exists c r, digits k n = c :: r /\ c <> 48.
Proof.
  induction k as [|k IH]; intros n N; [change (10 ^ Z.of_nat 0) with 1 in N; lia|]. cbn [digits]. destruct (Z.ltb_spec n 10); [eexists _, _; split; [reflexivity|lia]|].
  rewrite Nat2Z.inj_succ, Z.pow_succ_r in N by lia. destruct (IH (n / 10)) as (c & r & E & C); [split; [apply Z.div_str_pos; lia|apply Z.div_lt_upper_bound; lia]|]. rewrite E. eexists _, _. split; [reflexivity|exact C].
Qed.
Lemma fmt_numeral n : 0 <= n -> numeral4 n (fmt_04d n).
Proof.
  intros N. unfold fmt_04d. replace (n <? 0) with false by lia. pose proof (digits_chars (S (Z.to_nat (Z.log2 n))) n N) as D. fold (str_nat n) in D. unfold numeral4. pose proof (zlen_nonneg (str_nat n)). rewrite zlen_app.
  split; [apply Forall_app; split; [unfold rep; apply Forall_forall; intros c C; apply repeat_spec in C; subst c; lia|exact D]|].
  split; [rewrite undec_zeros; apply str_nat_value; exact N|]. destruct (Z.leb_spec 4 (zlen (str_nat n))) as [L|L].
  - assert (R : rep 48 (4 - zlen (str_nat n)) = []) by (unfold rep; replace (Z.to_nat (4 - zlen (str_nat n))) with 0%nat by lia; reflexivity). rewrite R, zlen_nil. split; [lia|]. cbn [app]. right.
    assert (n <> 0) by (intros ->; change (zlen (str_nat 0)) with 1 in L; lia). destruct (digits_hd (S (Z.to_nat (Z.log2 n))) n) as (c & r & E & C); [split; [lia|apply fuel_enough; lia]|]. unfold str_nat. rewrite E. exact C.
  - rewrite zlen_rep by lia. lia.
Qed.
Lemma fmt_head n : 0 <= n -> exists c r, fmt_04d n = c :: r.
Proof. intros N. destruct (fmt_numeral n N) as (_ & _ & L & _). destruct (fmt_04d n) as [|c r]; [rewrite zlen_nil in L; lia|eexists _, _; reflexivity]. Qed.
Lemma undec_bound s : Forall (fun c => 48 <= c < 58) s -> 0 <= undec s < 10 ^ zlen s.
Proof.
  induction s as [|c s IH] using rev_ind; intros D; [split; reflexivity|]. apply Forall_app in D as [D C]. apply Forall_cons_iff in C as [C _]. specialize (IH D). rewrite undec_snoc, zlen_app, zlen_cons. change (zlen (@nil Z)) with 0.
  replace (zlen s + (1 + 0)) with (Z.succ (zlen s)) by lia. pose proof (zlen_nonneg s). rewrite Z.pow_succ_r by lia. lia.
Qed.
Lemma undec_cons c s : undec (c :: s) = (c - 48) * 10 ^ zlen s + undec s.
Proof.
  induction s as [|d s IH] using rev_ind; [unfold undec; cbn [fold_left]; change (zlen (@nil Z)) with 0; lia|]. change (c :: s ++ [d]) with ((c :: s) ++ [d]). rewrite !undec_snoc, IH, zlen_app, zlen_cons. change (zlen (@nil Z)) with 0. replace (zlen s + (1 + 0)) with (Z.succ (zlen s)) by lia.
  pose proof (zlen_nonneg s). rewrite Z.pow_succ_r by lia. ring.
Qed.
Lemma undec_inj s : forall s', Forall (fun c => 48 <= c < 58) s -> Forall (fun c => 48 <= c < 58) s' -> zlen s = zlen s' -> undec s = undec s' -> s = s'.
Proof.
  induction s as [|c s IH]; intros [|c' s'] D D' L E; rewrite ?zlen_cons, ?zlen_nil in L; [reflexivity|pose proof (zlen_nonneg s'); lia|pose proof (zlen_nonneg s); lia|].
  apply Forall_cons_iff in D as [C D]. apply Forall_cons_iff in D' as [C' D']. assert (L' : zlen s = zlen s') by lia. rewrite !undec_cons, <- L' in E. pose proof (undec_bound s D). pose proof (undec_bound s' D') as U'. rewrite <- L' in U'.
  assert (c = c') by nia. subst c'. f_equal. apply IH; [exact D|exact D'|exact L'|lia].
Qed.
Lemma numeral_unique n d d' : numeral4 n d -> numeral4 n d' -> d = d'.
Proof.
  assert (W : forall d d', numeral4 n d -> numeral4 n d' -> zlen d <= zlen d').
  { clear. intros d d' (D & V & L & S) (D' & V' & L' & S'). destruct (Z.leb_spec (zlen d) (zlen d')); [assumption|exfalso]. destruct S as [S|S]; [lia|]. destruct d as [|c s]; [rewrite zlen_nil in *; lia|]. cbn [hd] in S.
    apply Forall_cons_iff in D as [C D]. rewrite undec_cons in V. pose proof (undec_bound s D). pose proof (undec_bound d' D'). rewrite zlen_cons in *. assert (10 ^ zlen d' <= 10 ^ zlen s) by (apply Z.pow_le_mono_r; lia). nia. }
  intros A B. apply undec_inj; [apply A|apply B| |destruct A as (_ & -> & _), B as (_ & -> & _); reflexivity]. pose proof (W _ _ A B). pose proof (W _ _ B A). lia.
Qed.
Lemma shows_iff indent depth id name line : 0 <= id -> shows indent depth id name line <-> line = fmt_04d id ++ rep 32 (indent + 1 + 4 * depth) ++ name.
Proof. intros N. split; [intros (d & D & ->); rewrite (numeral_unique id d (fmt_04d id) D (fmt_numeral id N)); reflexivity|intros ->; eexists; split; [apply fmt_numeral; exact N|reflexivity]]. Qed.

(** *** which lines there are *)
Lemma zlen_1 {A} (x : A) : zlen [x] = 1.
Proof. reflexivity. Qed.
Lemma in_numbered d x o : forall names fid, In (x, o) (numbered d fid names) <-> exists i n, nth_error names i = Some n /\ o = Some (fid + Z.of_nat i) /\ x = fmt_04d (fid + Z.of_nat i) ++ d ++ n.
Proof.
  induction names as [|m r IH]; intros fid; cbn [numbered In]; [split; [intros []|intros ([|i] & n & E & _); discriminate]|]. rewrite IH. split.
  - intros [[= <- <-]|(i & n & E & -> & ->)]; [exists 0%nat, m; rewrite Z.add_0_r; repeat split|exists (S i), n; split; [exact E|]; replace (fid + Z.of_nat (S i)) with (fid + 1 + Z.of_nat i) by lia; split; reflexivity].
  - intros ([|i] & n & E & -> & ->); [left; injection E as ->; rewrite Z.add_0_r; reflexivity|right; exists i, n; split; [exact E|]; replace (fid + Z.of_nat (S i)) with (fid + 1 + Z.of_nat i) by lia; split; reflexivity].
Qed.
Lemma in_dirs indent e l : In e (dirs indent l) <-> exists n g, In (n, g) l /\ (e = (fmt_04d (fFirst g) ++ rep 32 (indent + 1) ++ n ++ asc "/", None) \/ In e (entries (indent + 4) g)).
Proof.
  induction l as [|[n g] l IH]; cbn [dirs In]; [split; [intros []|intros (? & ? & [] & _)]|]. rewrite in_app_iff, IH. split.
  - intros [<-|[E|(m & h & I & E)]]; [exists n, g; split; [left; reflexivity|left; reflexivity]|exists n, g; split; [left; reflexivity|right; exact E]|exists m, h; split; [right; exact I|exact E]].
  - intros (m & h & [[= -> ->]|I] & E); [destruct E as [->|E]; [left; reflexivity|right; left; exact E]|right; right; exists m, h; split; assumption].
Qed.
Lemma last_cons {A} (x : A) l d : l <> [] -> last (x :: l) d = last l d.
Proof. destruct l; [contradiction|reflexivity]. Qed.
Lemma file_at_ne r p id : file_at r p id -> p <> [].
Proof. intros H; inversion H; discriminate. Qed.
Lemma dir_at_ne r p g : dir_at r p g -> p <> [].
Proof. intros H; inversion H; discriminate. Qed.
Lemma in_entries_file f : forall indent x id, In (x, Some id) (entries indent f) <-> exists p, file_at f p id /\ x = fmt_04d id ++ rep 32 (indent + 1 + 4 * (zlen p - 1)) ++ last p [].
Proof.
  induction f as [l files i IH] using folder_ind'. intros indent x id. rewrite entries_eq, in_app_iff, in_numbered, in_dirs. split.
  - intros [(j & n & E & [= ->] & ->)|(n & g & I & [[=]|E])].
    + exists [n]. split; [exact (fat_here (Folder l files i) n j E)|]. rewrite zlen_1. cbn [last]. do 3 f_equal. lia.
    + apply (IH n g I) in E as (p & P & ->). exists (n :: p). split; [exact (fat_below (Folder l files i) n g p id I P)|]. rewrite last_cons by (eapply file_at_ne; exact P). rewrite zlen_cons. do 3 f_equal. lia.
  - intros (p & P & ->). inversion P as [r n j E|r n g q id' I Q]; subst.
    + left. cbn [fFiles fFirst] in *. exists j, n. split; [exact E|]. split; [reflexivity|]. rewrite zlen_1. cbn [last]. do 3 f_equal. lia.
    + right. exists n, g. split; [exact I|]. right. apply (IH n g I). exists q. split; [exact Q|]. rewrite last_cons by (eapply file_at_ne; exact Q). rewrite zlen_cons. do 3 f_equal. lia.
Qed.
Lemma in_entries_dir f : forall indent x, In (x, None) (entries indent f) <-> exists p g, dir_at f p g /\ x = fmt_04d (fFirst g) ++ rep 32 (indent + 1 + 4 * (zlen p - 1)) ++ last p [] ++ [47].
Proof.
  induction f as [l files i IH] using folder_ind'. intros indent x. rewrite entries_eq, in_app_iff, in_numbered, in_dirs. split.
  - intros [(j & n & E & [=] & _)|(n & g & I & [[= ->]|E])].
    + exists [n], g. split; [exact (dat_here (Folder l files i) n g I)|]. rewrite zlen_1. cbn [last]. do 3 f_equal. lia.
    + apply (IH n g I) in E as (p & h & P & ->). exists (n :: p), h. split; [exact (dat_below (Folder l files i) n g p h I P)|]. rewrite last_cons by (eapply dir_at_ne; exact P). rewrite zlen_cons. do 3 f_equal. lia.
  - intros (p & h & P & ->). right. inversion P as [r n g I|r n g q h' I Q]; subst.
    + exists n, h. split; [exact I|]. left. rewrite zlen_1. cbn [last]. do 4 f_equal. lia.
    + exists n, g. split; [exact I|]. right. apply (IH n g I). exists q, h. split; [exact Q|]. rewrite last_cons by (eapply dir_at_ne; exact Q). rewrite zlen_cons. do 3 f_equal. lia.
Qed.
Lemma zlen_numbered d : forall names fid, zlen (numbered d fid names) = zlen names.
Proof. induction names as [|n r IH]; intros fid; [reflexivity|]. cbn [numbered]. rewrite !zlen_cons, IH. reflexivity. Qed.
Lemma zlen_entries f : forall indent, zlen (entries indent f) = items f.
Proof.
  induction f as [l files i IH] using folder_ind'. intros indent. rewrite entries_eq, zlen_app, zlen_numbered. cbn [items]. f_equal. induction l as [|[n g] l IHl]; [reflexivity|]. cbn [dirs map fold_right snd]. rewrite zlen_cons, zlen_app, (IH n g) by (left; reflexivity). rewrite IHl by (intros; eapply IH; right; eassumption). lia.
Qed.
Lemma strList_plain indent f : strList indent None f = Ok (map fst (entries indent f)).
Proof.
  unfold strList. rewrite unc_eq. assert (E : forall l, mapM (with_preview None) l = Ok (map (fun e => (fst e, None)) l)).
  { induction l as [|[x [o|]] l IH]; [reflexivity| |]; cbn [mapM]; unfold with_preview at 1; cbn [snd fst preview_of bind map]; rewrite IH; reflexivity. }
  rewrite E. cbn [bind]. rewrite map_map. apply f_equal. apply map_ext. intros e. reflexivity.
Qed.
Lemma file_id_nat f p id : nat_ids f -> file_at f p id -> 0 <= id.
Proof. intros N H. revert N. induction H as [r n i E|r n g p id I H IH]; intros N; [specialize (N r (fin_here r)); lia|]. apply IH. intros h F. apply N. eapply fin_below; eassumption. Qed.
Lemma dir_id_nat f p g : nat_ids f -> dir_at f p g -> 0 <= fFirst g.
Proof. intros N H. revert N. induction H as [r n g I|r n h p g I H IH]; intros N; [apply N; eapply fin_below; [exact I|apply fin_here]|]. apply IH. intros k F. apply N. eapply fin_below; eassumption. Qed.

(** *** the listing determines the tree *)
Lemma span_eq (P : Z -> Prop) d1 : forall d2 c1 c2 r1 r2, Forall P d1 -> Forall P d2 -> ~ P c1 -> ~ P c2 -> d1 ++ c1 :: r1 = d2 ++ c2 :: r2 -> d1 = d2 /\ c1 :: r1 = c2 :: r2.
Proof.
  induction d1 as [|x d1 IH]; intros [|y d2] c1 c2 r1 r2 F1 F2 N1 N2 E; cbn [app] in E.
  - split; [reflexivity|exact E].
  - exfalso. injection E as -> _. apply Forall_cons_iff in F2 as [F2 _]. contradiction.
  - exfalso. injection E as -> _. apply Forall_cons_iff in F1 as [F1 _]. contradiction.
  - injection E as -> E. apply Forall_cons_iff in F1 as [_ F1]. apply Forall_cons_iff in F2 as [_ F2]. destruct (IH _ _ _ _ _ F1 F2 N1 N2 E) as [-> R]. split; [reflexivity|exact R].
Qed.
Lemma plain_cons n : plain_name n -> exists c r, n = c :: r /\ c <> 32.
Proof. unfold plain_name. destruct n as [|c r]; cbn [hd]; intros H; [contradiction|eexists _, _; split; [reflexivity|exact H]]. Qed.
Lemma rep_S {A} (x : A) a : 1 <= a -> rep x a = x :: rep x (a - 1).
Proof. intros H. unfold rep. replace (Z.to_nat a) with (S (Z.to_nat (a - 1))) by lia. reflexivity. Qed.
Lemma line_inj i j a b n m : 0 <= i -> 0 <= j -> 1 <= a -> 1 <= b -> plain_name n -> plain_name m ->
  fmt_04d i ++ rep 32 a ++ n = fmt_04d j ++ rep 32 b ++ m -> i = j /\ a = b /\ n = m.
Proof.
  intros I J A B N M E. destruct (fmt_numeral i I) as (Di & Vi & _), (fmt_numeral j J) as (Dj & Vj & _). rewrite (rep_S 32 a), (rep_S 32 b) in E by assumption. cbn [app] in E.
  apply (span_eq (fun c => 48 <= c < 58)) in E as [E1 E2]; [|assumption|assumption|lia|lia]. split; [rewrite <- Vi, <- Vj, E1; reflexivity|]. injection E2 as E2.
  destruct (plain_cons n N) as (c & r & -> & C), (plain_cons m M) as (c' & r' & -> & C').
  assert (FR : forall k, Forall (eq 32) (rep 32 k)) by (intros k; apply Forall_forall; intros x X; unfold rep in X; apply repeat_spec in X; symmetry; exact X).
  apply (span_eq (eq 32)) in E2 as [E3 E4]; [|apply FR|apply FR|congruence|congruence]. split; [|exact E4]. apply (f_equal zlen) in E3. rewrite !zlen_rep in E3 by lia. lia.
Qed.
Definition low (indent : Z) (r : list text) : Prop :=
  match r with [] => True | line :: _ => exists id k n, line = fmt_04d id ++ rep 32 k ++ n /\ 0 <= id /\ 1 <= k < indent + 1 /\ plain_name n end.
Lemma nat_below f n g : nat_ids f -> In (n, g) (fFolders f) -> nat_ids g.
Proof. intros N I h F. apply N. eapply fin_below; eassumption. Qed.
Lemma printable_below f n g : printable_tree f -> In (n, g) (fFolders f) -> printable_tree g.
Proof. intros N I h F. apply N. eapply fin_below; eassumption. Qed.
Lemma plain_slash n : plain_name n -> plain_name (n ++ [47]).
Proof. intros N. destruct (plain_cons n N) as (c & r & -> & C). exact C. Qed.
Definition dir_ok (p : list Z * folder) : Prop := plain_name (fst p) /\ 0 <= fFirst (snd p).
Lemma low_dirs indent l r : Forall dir_ok l -> 0 <= indent -> low indent r -> low (indent + 4) (map fst (dirs indent l) ++ r).
Proof.
  intros D I L. destruct l as [|[n g] l]; cbn [dirs map app low].
  - destruct r as [|x r]; [exact L|]. destruct L as (id & k & n & E). exists id, k, n. intuition lia.
  - apply Forall_cons_iff in D as [[P F] _]. cbn [fst snd] in *. exists (fFirst g), (indent + 1), (n ++ [47]). split; [reflexivity|]. split; [exact F|]. split; [lia|apply plain_slash; exact P].
Qed.
Lemma files_inj indent files : forall files' i l l' r1 r2, 0 <= indent -> 0 <= i ->
  Forall (fun n => plain_name n /\ last n 0 <> 47) files -> Forall (fun n => plain_name n /\ last n 0 <> 47) files' -> Forall dir_ok l -> Forall dir_ok l' -> low indent r1 -> low indent r2 ->
  map fst (numbered (rep 32 (indent + 1)) i files) ++ map fst (dirs indent l) ++ r1 = map fst (numbered (rep 32 (indent + 1)) i files') ++ map fst (dirs indent l') ++ r2 ->
  files = files' /\ map fst (dirs indent l) ++ r1 = map fst (dirs indent l') ++ r2.
Proof.
  assert (X : forall i n x l r, 0 <= indent -> 0 <= i -> plain_name n -> last n 0 <> 47 -> Forall dir_ok l -> low indent r -> (fmt_04d i ++ rep 32 (indent + 1) ++ n) :: x = map fst (dirs indent l) ++ r -> False).
  { intros i n x l r I0 I N NL D L E. destruct l as [|[m g] l]; cbn [dirs map app fst] in E.
    - subst r. destruct L as (id & k & m & E & I' & K & M). apply line_inj in E; [|assumption..|lia|lia|assumption|assumption]. lia.
    - injection E as E _. apply Forall_cons_iff in D as [[P F] _]. cbn [fst snd] in *. apply line_inj in E as (_ & _ & E); [|assumption|assumption|lia|lia|assumption|apply plain_slash; exact P]. subst n. change (asc "/") with [47] in NL. rewrite last_last in NL. contradiction. }
  induction files as [|n files IH]; intros [|n' files'] i l l' r1 r2 I0 I F F' D D' L L' E; cbn [numbered map app fst] in E.
  - split; [reflexivity|exact E].
  - exfalso. apply Forall_cons_iff in F' as [[N NL] F']. symmetry in E. exact (X _ _ _ _ _ I0 I N NL D L E).
  - exfalso. apply Forall_cons_iff in F as [[N NL] F]. exact (X _ _ _ _ _ I0 I N NL D' L' E).
  - apply Forall_cons_iff in F' as [[N' NL'] F']. apply Forall_cons_iff in F as [[N NL] F]. pose proof (f_equal (hd []) E) as E1. cbn [hd] in E1. apply (f_equal (@tl text)) in E. cbn [tl] in E.
    apply line_inj in E1 as (_ & _ & ->); [|assumption|assumption|lia|lia|assumption|assumption]. destruct (IH files' (i + 1) l l' r1 r2) as [-> R]; [assumption|lia|assumption..|]. split; [reflexivity|exact R].
Qed.
Lemma dirs_ok f : printable_tree f -> nat_ids f -> Forall dir_ok (fFolders f).
Proof.
  intros P N. apply Forall_forall. intros [n g] I. split; cbn [fst snd]; [|apply N; eapply fin_below; [exact I|apply fin_here]].
  destruct (P f (fin_here f)) as [_ D]. rewrite Forall_forall in D. exact (D _ I).
Qed.
Lemma entries_inj f : forall g indent r1 r2, 0 <= indent -> printable_tree f -> printable_tree g -> nat_ids f -> nat_ids g -> fFirst f = fFirst g -> low indent r1 -> low indent r2 ->
  map fst (entries indent f) ++ r1 = map fst (entries indent g) ++ r2 -> f = g /\ r1 = r2.
Proof.
  induction f as [l files i IH] using folder_ind'. intros [l' files' i'] indent r1 r2 I0 P P' N N' FI L L' E. cbn [fFirst] in FI. subst i'.
  pose proof (dirs_ok _ P N) as D. pose proof (dirs_ok _ P' N') as D'. cbn [fFolders] in D, D'. pose proof (N _ (fin_here _)) as I. cbn [fFirst] in I.
  destruct (P _ (fin_here _)) as [F _]. destruct (P' _ (fin_here _)) as [F' _]. cbn [fFiles] in F, F'.
  rewrite !entries_eq, !map_app, <- !app_assoc in E. apply files_inj in E as [-> E]; [|assumption..].
  assert (Q : l = l' /\ r1 = r2); [|destruct Q as [-> ->]; split; reflexivity].
  assert (PB : forall n g, In (n, g) l -> printable_tree g) by (intros n g J; exact (printable_below (Folder l files' i) n g P J)).
  assert (PB' : forall n g, In (n, g) l' -> printable_tree g) by (intros n g J; exact (printable_below (Folder l' files' i) n g P' J)).
  assert (NB : forall n g, In (n, g) l -> nat_ids g) by (intros n g J; exact (nat_below (Folder l files' i) n g N J)).
  assert (NB' : forall n g, In (n, g) l' -> nat_ids g) by (intros n g J; exact (nat_below (Folder l' files' i) n g N' J)).
  clear P P' N N' F F'. revert l' D' E PB' NB'. induction l as [|[n g] l IHl]; intros [|[n' g'] l'] D' E PB' NB'; cbn [dirs map app fst] in E.
  - split; [reflexivity|exact E].
  - exfalso. apply Forall_cons_iff in D' as [[P F] _]. cbn [fst snd] in *. rewrite E in L. destruct L as (id & k & m & L & A & B & C). apply line_inj in L; [|assumption..|lia|lia|apply plain_slash; exact P|assumption]. lia.
  - exfalso. apply Forall_cons_iff in D as [[P F] _]. cbn [fst snd] in *. rewrite <- E in L'. destruct L' as (id & k & m & L' & A & B & C). apply line_inj in L'; [|assumption..|lia|lia|apply plain_slash; exact P|assumption]. lia.
  - apply Forall_cons_iff in D as [[P F] D]. apply Forall_cons_iff in D' as [[P' F'] D']. cbn [fst snd] in *. pose proof (f_equal (hd []) E) as E1. cbn [hd] in E1. apply (f_equal (@tl text)) in E. cbn [tl] in E.
    apply line_inj in E1 as (FE & _ & NE); [|assumption|assumption|lia|lia|apply plain_slash; exact P|apply plain_slash; exact P']. apply app_inj_tail in NE as [-> _].
    rewrite !map_app, <- !app_assoc in E. destruct (IH n' g (or_introl eq_refl) g' (indent + 4) (map fst (dirs indent l) ++ r1) (map fst (dirs indent l') ++ r2)) as [-> R].
    { lia. } { eapply PB; left; reflexivity. } { eapply PB'; left; reflexivity. } { eapply NB; left; reflexivity. } { eapply NB'; left; reflexivity. } { exact FE. } { apply low_dirs; assumption. } { apply low_dirs; assumption. } { exact E. }
    destruct (IHl (fun n f J => IH n f (or_intror J)) D (fun n f J => PB n f (or_intror J)) (fun n f J => NB n f (or_intror J)) l' D' R) as [-> ->]; [intros; eapply PB'; right; eassumption|intros; eapply NB'; right; eassumption|]. split; reflexivity.
Qed.

(** *** as one text *)
Lemma join_inj L : forall L', Forall (fun l => l <> [] /\ ~ In 10 l) L -> Forall (fun l => l <> [] /\ ~ In 10 l) L' -> join_lines L = join_lines L' -> L = L'.
Proof.
  assert (NE : forall x r, Forall (fun l => l <> [] /\ ~ In 10 l) (x :: r) -> join_lines (x :: r) <> []).
  { intros x r F. apply Forall_cons_iff in F as [[X _] _]. destruct r; [exact X|]. cbn [join_lines]. destruct x; discriminate. }
  assert (SP : forall a b c d, ~ In 10 a -> ~ In 10 b -> (c = [] \/ exists e, c = 10 :: e) -> (d = [] \/ exists e, d = 10 :: e) -> a ++ c = b ++ d -> a = b /\ c = d).
  { clear. induction a as [|x a IH]; intros [|y b] c d A B C D E; cbn [app] in E.
    - split; [reflexivity|exact E].
    - exfalso. destruct C as [->|[e ->]]; [discriminate|]. injection E as <- _. apply B. left. reflexivity.
    - exfalso. destruct D as [->|[e ->]]; [discriminate|]. injection E as -> _. apply A. left. reflexivity.
    - injection E as -> E. destruct (IH b c d) as [-> ->]; [intros I; apply A; right; exact I|intros I; apply B; right; exact I|assumption..|]. split; reflexivity. }
  assert (J : forall x r, exists c, join_lines (x :: r) = x ++ c /\ (r = [] /\ c = [] \/ r <> [] /\ c = 10 :: join_lines r)).
  { intros x [|y r]; [exists []; rewrite app_nil_r; split; [reflexivity|left; split; reflexivity]|eexists; split; [reflexivity|right; split; [discriminate|reflexivity]]]. }
  induction L as [|x L IH]; intros [|x' L'] F F' E; [reflexivity|exfalso; symmetry in E; exact (NE _ _ F' E)|exfalso; exact (NE _ _ F E)|].
  destruct (J x L) as (c & Ec & C), (J x' L') as (c' & Ec' & C'). pose proof (eq_trans (eq_sym Ec) (eq_trans E Ec')) as E0. clear E. rename E0 into E. apply Forall_cons_iff in F as [[_ X] F]. apply Forall_cons_iff in F' as [[_ X'] F'].
  apply SP in E as [-> E]; [|exact X|exact X'|destruct C as [[_ ->]|[_ ->]]; [left; reflexivity|right; eexists; reflexivity]|destruct C' as [[_ ->]|[_ ->]]; [left; reflexivity|right; eexists; reflexivity]].
  f_equal. destruct C as [[-> ->]|[N ->]], C' as [[-> ->]|[N' ->]]; try discriminate; [reflexivity|]. injection E as E. exact (IH L' F F' E).
Qed.
Lemma line_clean id k n : 0 <= id -> ~ In 10 n -> fmt_04d id ++ rep 32 k ++ n <> [] /\ ~ In 10 (fmt_04d id ++ rep 32 k ++ n).
Proof.
  intros I N. destruct (fmt_numeral id I) as (D & _). destruct (fmt_head id I) as (c & r & E). split; [rewrite E; discriminate|]. rewrite !in_app_iff. intros [H|[H|H]]; [rewrite Forall_forall in D; specialize (D _ H); lia|unfold rep in H; apply repeat_spec in H; discriminate|contradiction].
Qed.
Lemma entries_clean f : forall indent, nat_ids f -> one_line f -> Forall (fun l => l <> [] /\ ~ In 10 l) (map fst (entries indent f)).
Proof.
  induction f as [l files i IH] using folder_ind'. intros indent N O. rewrite entries_eq, map_app. destruct (O _ (fin_here _)) as [F D]. cbn [fFiles fFolders] in *. apply Forall_app. split.
  - specialize (N _ (fin_here _)). cbn [fFirst] in N. clear IH O D. revert i N. induction files as [|n r IHr]; intros i N; [constructor|]. apply Forall_cons_iff in F as [F1 F]. cbn [numbered map fst]. constructor; [apply line_clean; assumption|]. apply IHr; [exact F|lia].
  - assert (NB : forall n g, In (n, g) l -> nat_ids g) by (intros n g J; exact (nat_below (Folder l files i) n g N J)).
    assert (OB : forall n g, In (n, g) l -> one_line g) by (intros n g J h H; apply O; exact (fin_below _ (Folder l files i) n g J H)).
    clear N O F. induction l as [|[n g] l IHl]; [constructor|]. apply Forall_cons_iff in D as [D1 D]. cbn [dirs map fst] in *. constructor.
    + apply line_clean; [apply (NB n g (or_introl eq_refl)), fin_here|]. rewrite in_app_iff. intros [H|[H|[]]]; [contradiction|discriminate].
    + rewrite map_app. apply Forall_app. split; [apply (IH n g (or_introl eq_refl)); [eapply NB; left; reflexivity|eapply OB; left; reflexivity]|]. apply IHl; [intros m h J; apply (IH m h); right; exact J|exact D|intros m h J; eapply NB; right; exact J|intros m h J; eapply OB; right; exact J].
Qed.

(** *** previews *)
Lemma short_bytes_total shown : forall pre post, exists t, short_bytes (pre ++ shown ++ post) (zlen pre) shown = Ok t.
Proof.
  induction shown as [|b shown IH]; intros pre post; [exists []; reflexivity|]. destruct (IH (pre ++ [b]) post) as (t & E). rewrite <- app_assoc in E. cbn [app] in E. rewrite zlen_app, zlen_1 in E. cbn [short_bytes app]. rewrite E.
  assert (B : exists u, short_byte (pre ++ b :: shown ++ post) (zlen pre) b = Ok u); [|destruct B as [u ->]; eexists; reflexivity].
  unfold short_byte. destruct (b <? 8); [|eexists; reflexivity]. destruct (Z.eqb_spec (zlen pre) (zlen (pre ++ b :: shown ++ post) - 1)) as [L|L]; [eexists; reflexivity|].
  destruct (shown ++ post) as [|nx rest]; [rewrite zlen_app, zlen_1 in L; lia|]. assert (G : get (pre ++ b :: nx :: rest) (zlen pre + 1) = Ok nx). { change (pre ++ b :: nx :: rest) with (pre ++ [b] ++ nx :: rest). rewrite app_assoc. apply get_mid. rewrite zlen_app, zlen_1. lia. }
  rewrite G. cbn [bind]. destruct (negb _); eexists; reflexivity.
Qed.
Lemma slice_firstn {A} (l : list A) n : 0 <= n -> slice l 0 n = firstn (Z.to_nat n) l.
Proof. intros N. destruct (Z.leb_spec n (zlen l)); [rewrite <- (firstn_skipn (Z.to_nat n) l) at 1; apply slice_hit; [reflexivity|unfold zlen in *; rewrite firstn_length; lia]|rewrite firstn_all2 by (unfold zlen in *; lia); apply slice_hit_all; lia]. Qed.
Lemma short_total data n : 0 <= n -> exists t, shortBytesRepr data n = Ok t.
Proof.
  intros N. unfold shortBytesRepr. rewrite slice_firstn by exact N. destruct (short_bytes_total (firstn (Z.to_nat n) data) [] (skipn (Z.to_nat n) data)) as (t & E). cbn [app] in E. rewrite firstn_skipn in E. change (zlen []) with 0 in E. rewrite E. cbn [bind]. destruct (n <? zlen data); eexists; reflexivity.
Qed.
Lemma preview_total fl id : 0 <= id -> exists o, preview_of fl id = Ok o.
Proof.
  intros I. destruct fl as [l|]; [|eexists; reflexivity]. unfold preview_of. destruct (Z.leb_spec (zlen l) id); [eexists; reflexivity|].
  destruct (nth_error l (Z.to_nat id)) as [d|] eqn:E; [|apply nth_error_None in E; unfold zlen in *; lia]. rewrite (PyLemmas.get_nth l id d) by assumption. cbn [bind]. destruct (short_total d 16 ltac:(lia)) as (t & ->). eexists; reflexivity.
Qed.
Lemma max_ge l x : In x l -> x <= fold_right Z.max 0 l.
Proof. induction l as [|y l IH]; intros []; cbn [fold_right]; [subst; lia|specialize (IH H); lia]. Qed.
Lemma max_hit l : Forall (Z.le 0) l -> l <> [] -> In (fold_right Z.max 0 l) l.
Proof.
  induction l as [|x l IH]; intros F N; [contradiction|]. apply Forall_cons_iff in F as [X F]. cbn [fold_right]. destruct l as [|y l]; [left; cbn [fold_right]; lia|]. destruct (Z.max_spec x (fold_right Z.max 0 (y :: l))) as [[_ ->]|[_ ->]]; [right; apply IH; [exact F|discriminate]|left; reflexivity].
Qed.
Lemma strList_previews indent fl f : nat_ids f -> exists U, mapM (with_preview (Some fl)) (entries indent f) = Ok U /\ map fst U = map fst (entries indent f).
Proof.
  intros N. assert (F : Forall (fun e => exists o, with_preview (Some fl) e = Ok (fst e, o)) (entries indent f)).
  { apply Forall_forall. intros [x [id|]] I; unfold with_preview; cbn [snd fst]; [|eexists; reflexivity]. apply in_entries_file in I as (p & P & _). destruct (preview_total (Some fl) id (file_id_nat f p id N P)) as [o ->]. eexists; reflexivity. }
  induction F as [|e l [o E] F (U & M & R)]; [exists []; split; reflexivity|]. cbn [mapM]. rewrite E. cbn [bind]. rewrite M. cbn [bind]. eexists. split; [reflexivity|]. cbn [map fst]. rewrite R. reflexivity.
Qed.

(** ** enumerated lists *)
Lemma nth_combine_range {A} (l : list A) k s x : nth_error l k = Some x -> nth_error (combine (range_z s (length l)) l) k = Some (s + Z.of_nat k, x).
Proof.
  revert k s. induction l as [|y l IH]; intros [|k] s E; try discriminate; cbn [length range_z combine nth_error] in *.
  - injection E as ->. rewrite Z.add_0_r. reflexivity.
  - rewrite (IH k (s + 1) E). do 2 f_equal. lia.
Qed.
Lemma combine_range_len {A} (l : list A) s : length (combine (range_z s (length l)) l) = length l.
Proof. revert s. induction l as [|y l IH]; intros s; [reflexivity|]. cbn [length range_z combine]. rewrite IH. reflexivity. Qed.
Lemma enumerated items indent k x : 0 <= indent -> nth_error items k = Some x ->
  exists pad d, nth_error (enumeratedListOfStrs items indent) k = Some (rep 32 indent ++ [91] ++ rep 32 pad ++ d ++ [93; 32] ++ x) /\
  Forall (fun c => 48 <= c < 58) d /\ undec d = Z.of_nat k /\ 0 <= pad /\ pad + zlen d = zlen (str_nat (zlen items - 1)).
Proof.
  intros I E. assert (K : (k < length items)%nat) by (apply nth_error_Some; congruence). unfold enumeratedListOfStrs. rewrite (map_nth_error _ _ _ (nth_combine_range items k 0 x E)). cbn [fst snd]. rewrite Z.add_0_l.
  assert (L : zlen items - 1 >= 0) by (unfold zlen; lia). unfold fmt_width, str_int. replace (zlen items - 1 <? 0) with false by lia. replace (Z.of_nat k <? 0) with false by lia.
  exists (zlen (str_nat (zlen items - 1)) - zlen (str_nat (Z.of_nat k))), (str_nat (Z.of_nat k)). rewrite <- !app_assoc. split; [reflexivity|]. split; [apply digits_chars; lia|]. split; [apply str_nat_value; lia|].
  pose proof (str_nat_len (Z.of_nat k) (zlen items - 1) ltac:(unfold zlen; lia)). lia.
Qed.

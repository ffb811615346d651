(** * The FAT and FILE blocks of a saved sound archive, and reading them *)
From Coq Require Import String.
From Verif Require Import PyBase PyLemmas PyTac AtLemmas CommonModel WaveModel SeqModel SsarModel SbnkModel SdatModel SdatFiles.

(** [cur] rounded up to a multiple of [a] *)
Definition up (a n : Z) : Z := n + (- n) mod a.
Lemma up_mod a n : 0 < a -> up a n mod a = 0.
Proof. intros P. unfold up. rewrite Z.add_mod_idemp_r by lia. rewrite Z.add_opp_diag_r. apply Z.mod_0_l. lia. Qed.
Lemma up_ge a n : 0 < a -> n <= up a n < n + a.
Proof. intros P. unfold up. pose proof (Z.mod_pos_bound (- n) a P). lia. Qed.
Lemma up_id a n : 0 < a -> n mod a = 0 -> up a n = n.
Proof. intros P M. unfold up. rewrite Z.mod_opp_l_z by (lia || exact M). lia. Qed.
(** rounding a position behind an aligned one *)
Lemma up_shift a o n : 0 < a -> o mod a = 0 -> up a (o + n) = o + up a n.
Proof.
  intros P M. unfold up. replace (- (o + n)) with (- n + - o) by lia. rewrite Z.add_mod by lia. rewrite (Z.mod_opp_l_z o a) by (lia || exact M).
  rewrite Z.add_0_r, Z.mod_mod by lia. lia.
Qed.

Fixpoint foffs (a cur : Z) (fs : list bytes) : list Z :=
  match fs with [] => [] | f :: r => up a cur :: foffs a (up a cur + zlen f) r end.
Fixpoint fbytes (a cur : Z) (fs : list bytes) : bytes :=
  match fs with [] => [] | f :: r => zeros ((- cur) mod a) ++ f ++ fbytes a (up a cur + zlen f) r end.
Fixpoint fend (a cur : Z) (fs : list bytes) : Z :=
  match fs with [] => cur | f :: r => fend a (up a cur + zlen f) r end.
Definition flen (fp : bool) (a : Z) (f : bytes) : Z := if fp then up a (zlen f) else zlen f.
Definition fat_bytes (l : list (Z * Z)) : bytes := concat (map (fun p => le 4 (fst p) ++ le 4 (snd p) ++ zeros 8) l).
Definition fat_list (fp : bool) (a cur : Z) (fs : list bytes) : list (Z * Z) := combine (foffs a cur fs) (map (flen fp a) fs).
Definition fat_ok (l : list (Z * Z)) : Prop := Forall (fun p => 0 <= fst p < 2 ^ 32 /\ 0 <= snd p < 2 ^ 32) l.
Lemma zlen_fbytes a fs : 0 < a -> forall cur, cur + zlen (fbytes a cur fs) = fend a cur fs.
Proof.
  intros P. induction fs as [|f fs IH]; intros cur; cbn [fbytes fend]; [change (zlen (@nil Z)) with 0; lia|]. rewrite <- IH. rewrite !zlen_app. pose proof (Z.mod_pos_bound (- cur) a P).
  rewrite zlen_zeros by lia. unfold up. lia.
Qed.

Lemma gap_inv a n g : gap a n = Ok g -> a <> 0 /\ g = (- n) mod Z.abs a.
Proof. unfold gap. destruct (a =? 0) eqn:E; [discriminate|]. intros [= <-]. split; [lia|reflexivity]. Qed.
Lemma files_inv s base fs : forall d fat d' fat', foldM (add_file s base) (d, fat) fs = Ok (d', fat') ->
  (fs = [] \/ fileAlign s <> 0) /\ let a := Z.abs (fileAlign s) in
  d' = d ++ fbytes a (base + zlen d) (map fst fs) /\ fat' = fat ++ fat_bytes (fat_list (fatPad s) a (base + zlen d) (map fst fs)) /\
  fat_ok (fat_list (fatPad s) a (base + zlen d) (map fst fs)).
Proof.
  induction fs as [|f fs IH]; cbn [foldM]; intros d fat d' fat' H.
  - injection H as <- <-. split; [left; reflexivity|]. cbn. rewrite !app_nil_r. split; [reflexivity|]. split; [reflexivity|constructor].
  - apply bind_ok in H as ((d1 & fat1) & E & H). cbn [add_file] in E. apply bind_ok in E as (g & G & E). apply gap_inv in G as [NZ ->]. set (a := Z.abs (fileAlign s)) in *. assert (0 < a) as P by (unfold a; lia).
    pose proof (Z.mod_pos_bound (- (base + zlen d)) a P) as MB. apply bind_ok in E as (e & EE & E). apply bind_ok in E as (w & PW & E). injection E as <- <-.
    assert (e = flen (fatPad s) a (fst f)) as ->.
    { unfold flen. destruct (fatPad s); [|injection EE as <-; reflexivity]. apply bind_ok in EE as (g & G & EE). apply gap_inv in G as [_ ->]. injection EE as <-. reflexivity. }
    apply pack_us_les in PW as [-> PW]. rewrite !zlen_app, zlen_zeros in PW by lia.
    apply IH in H as (_ & -> & -> & O). split; [right; exact NZ|]. cbn [map fbytes]. unfold fat_list in *. cbn [map foffs combine]. rewrite !zlen_app, zlen_zeros in * by lia.
    replace (base + (zlen d + - (base + zlen d) mod a + zlen (fst f))) with (up a (base + zlen d) + zlen (fst f)) in * by (unfold up; lia).
    replace (base + (zlen d + - (base + zlen d) mod a)) with (up a (base + zlen d)) in * by (unfold up; lia).
    split; [rewrite <- !app_assoc; reflexivity|]. split.
    + unfold fat_bytes. cbn [map concat fst snd]. unfold les. cbn [map concat fst snd]. rewrite app_nil_r, <- !app_assoc. reflexivity.
    + constructor; [|exact O]. inversion PW as [|? ? P1 P2]; subst. inversion P2; subst. cbn [fst snd] in *. p256. lia.
Qed.
Definition first_gap (s : sdat) (n : Z) : Z := match firstAlign s with None => 0 | Some a => (- n) mod Z.abs a end.
Definition end_gap (s : sdat) (n : Z) : Z := if padEnd s then (- n) mod Z.abs (fileAlign s) else 0.
Lemma file_block_inv s base fs d fat : file_block s base fs = Ok (d, fat) -> let a := Z.abs (fileAlign s) in let cur := base + 0xC + first_gap s (base + 0xC) in
  (fs = [] \/ 0 < a) /\ (padEnd s = true -> 0 < a) /\ firstAlign s <> Some 0 /\
  d = zeros (first_gap s (base + 0xC)) ++ fbytes a cur (map fst fs) ++ zeros (end_gap s (fend a cur (map fst fs))) /\
  fat = fat_bytes (fat_list (fatPad s) a cur (map fst fs)) /\ fat_ok (fat_list (fatPad s) a cur (map fst fs)).
Proof.
  unfold file_block. intros H. apply bind_ok in H as (g & G & H). apply bind_ok in H as ((d1 & fat1) & E & H). apply bind_ok in H as (g2 & G2 & H). injection H as <- <-.
  assert (0 <= first_gap s (base + 0xC)) as P0. { unfold first_gap. destruct (firstAlign s) as [a|]; [|lia]. apply gap_inv in G as [NZ _]. apply Z.mod_pos_bound. lia. }
  assert (g = first_gap s (base + 0xC) /\ firstAlign s <> Some 0) as [-> F0].
  { unfold first_gap. destruct (firstAlign s) as [a|]; [|injection G as <-; split; [reflexivity|discriminate]]. apply gap_inv in G as [NZ ->]. split; [reflexivity|congruence]. }
  apply files_inv in E as (NZ & -> & -> & O). rewrite zlen_zeros in * by lia. cbn zeta. cbn [app].
  split; [destruct NZ; [left; assumption|right; lia]|]. split; [|split; [exact F0|]].
  { intros PE. rewrite PE in G2. apply gap_inv in G2 as [X _]. lia. }
  split; [|split; [reflexivity|exact O]]. rewrite <- app_assoc. do 3 f_equal.
  unfold end_gap. destruct (padEnd s); [|injection G2 as <-; reflexivity]. apply gap_inv in G2 as [X ->]. f_equal. f_equal. rewrite zlen_app, zlen_zeros by lia. rewrite <- zlen_fbytes by lia. lia.
Qed.

(** ** Reading the table *)
Fixpoint gaps (l : list (Z * Z)) : bool :=
  match l with x :: ((y :: _) as r) => (fst y - fst x =? snd x) && gaps r | _ => true end.
Fixpoint last_end (e : Z) (l : list (Z * Z)) : Z := match l with [] => e | x :: r => last_end (fst x + snd x) r end.
Definition cut (data : bytes) (p : Z * Z) : bytes := slice data (fst p) (fst p + snd p).
Lemma zlen_fat l : zlen (fat_bytes l) = 0x10 * zlen l.
Proof. unfold fat_bytes. rewrite (zlen_concat_map _ _ 16); [lia|]. intros p _. rewrite !zlen_app, !zlen_le, zlen_zeros by lia. reflexivity. Qed.
Lemma fat_read data fatOff count l : forall i t, at_ data (fatOff + 0xC + 0x10 * i) (fat_bytes l) -> fat_ok l -> 0 <= i -> i + zlen l = count ->
  foldM (fat_step data fatOff count) t (range_z i (length l)) = Ok {| tFiles := tFiles t ++ map (cut data) l; tAlign := fold_left detect (map fst l) (tAlign t);
    tFirst := match l with x :: _ => if i =? 0 then Some (detect (tAlign t) (fst x)) else tFirst t | [] => tFirst t end; tPad := tPad t && gaps l; tEnd := last_end (tEnd t) l |}.
Proof.
  induction l as [|[o e] l IH]; intros i t T O I C; cbn [length range_z foldM].
  - destruct t as [t1 t2 t3 t4 t5]. cbn [map gaps last_end fold_left tFiles tAlign tFirst tPad tEnd]. rewrite app_nil_r, andb_true_r. reflexivity.
  - unfold fat_bytes in T. cbn [map concat fst snd] in T. fold (fat_bytes l) in T. rewrite <- !app_assoc in T. inversion O as [|? ? O1 O2]; subst. cbn [fst snd] in O1.
    apply (proj1 (at_app _ _ _ _)) in T as [T1 T]. apply (proj1 (at_app _ _ _ _)) in T as [T2 T]. apply (proj1 (at_app _ _ _ _)) in T as [_ T]. rewrite !zlen_le in *. change (zlen (zeros 8)) with 8 in T.
    unfold fat_step at 1. rewrite (at_u 4 o _ _ _ T1) by (p256; lia). cbn [bind]. rewrite (at_u 4 e _ _ _ T2) by (p256; lia). cbn [bind]. rewrite zlen_cons in *. pose proof (zlen_nonneg l).
    replace (fatOff + 12 + 16 * i + Z.of_nat 4 + Z.of_nat 4 + 8) with (fatOff + 12 + 16 * (i + 1)) in T by lia.
    assert (PD : (if i =? i + (1 + zlen l) - 1 then Ok (tPad t) else next <- unpack_u 4 data (fatOff + 12 + 16 * i + 16) ;; Ok (if next - o =? e then tPad t else false))
      = Ok (tPad t && match l with [] => true | y :: _ => fst y - o =? e end)).
    { destruct l as [|[o2 e2] l'].
      - change (zlen (@nil (Z * Z))) with 0. replace (i =? i + (1 + 0) - 1) with true by lia. rewrite andb_true_r. reflexivity.
      - rewrite zlen_cons in *. pose proof (zlen_nonneg l'). replace (i =? i + (1 + (1 + zlen l')) - 1) with false by lia. unfold fat_bytes in T. cbn [map concat fst snd] in T. rewrite <- !app_assoc in T.
        inversion O2 as [|? ? O3 _]; subst. cbn [fst snd] in O3. rewrite (at_unpack 4 o2 _ _ _ _ T) by (p256; lia). cbn [bind fst]. destruct (o2 - o =? e); [rewrite andb_true_r|rewrite andb_false_r]; reflexivity. }
    rewrite PD. cbn [bind]. rewrite IH by (assumption || lia). cbn [tFiles tAlign tFirst tPad tEnd map fold_left last_end fst snd].
    rewrite <- app_assoc. cbn [app]. f_equal. f_equal.
    + destruct l as [|x l']; [reflexivity|]. replace (i + 1 =? 0) with false by lia. reflexivity.
    + destruct l as [|y l']; cbn [gaps fst snd]; rewrite ?andb_true_r, ?andb_assoc; reflexivity.
Qed.

(** ** The files read back *)
Fixpoint fviews (fp pe : bool) (a : Z) (fs : list bytes) : list bytes :=
  match fs with
  | [] => []
  | f :: r => (f ++ zeros (if fp && (match r with [] => pe | _ => true end) then (- zlen f) mod a else 0)) :: fviews fp pe a r
  end.
Lemma pad_behind a o n : 0 < a -> o mod a = 0 -> (- (o + n)) mod a = (- n) mod a.
Proof. intros P M. pose proof (up_shift a o n P M) as U. unfold up in U. lia. Qed.
Lemma views_read data (fp pe : bool) a : 0 < a -> forall fs cur, at_ data cur (fbytes a cur fs ++ zeros (if pe then (- fend a cur fs) mod a else 0)) ->
  zlen data = fend a cur fs + (if pe then (- fend a cur fs) mod a else 0) -> map (cut data) (fat_list fp a cur fs) = fviews fp pe a fs.
Proof.
  intros P. induction fs as [|f fs IH]; intros cur T L; [reflexivity|]. cbn [fbytes fend] in T, L. unfold fat_list. cbn [foffs map combine fviews]. fold (fat_list fp a (up a cur + zlen f) fs).
  pose proof (Z.mod_pos_bound (- cur) a P). pose proof (zlen_nonneg f). pose proof (up_mod a cur P) as UM. rewrite <- !app_assoc in T. apply (proj1 (at_app _ _ _ _)) in T as [_ T]. rewrite zlen_zeros in T by lia. change (cur + - cur mod a) with (up a cur) in T.
  pose proof T as T'. apply (proj1 (at_app _ _ _ _)) in T' as [TF TR]. f_equal; [|apply IH; assumption]. cbn [app] in *. unfold cut, flen. cbn [fst snd].
  pose proof (Z.mod_pos_bound (- zlen f) a P). pose proof (pad_behind a (up a cur) (zlen f) P UM) as PB.
  destruct fp; cbn [andb].
  2:{ change (zeros 0) with (@nil Z). rewrite app_nil_r. apply (at_slice _ _ _ _ TF). reflexivity. }
  destruct fs as [|g fs].
  - cbn [fbytes fend app] in TR, L. destruct pe.
    + apply at_slice; [|rewrite zlen_app, zlen_zeros by lia; unfold up; lia]. apply (proj2 (at_app _ _ _ _)). split; [exact TF|]. rewrite <- PB. exact TR.
    + change (zeros 0) with (@nil Z) at 1. rewrite app_nil_r. rewrite Z.add_0_r in L. destruct TF as (F1 & F2 & F3).
      transitivity (slice data (up a cur) (up a cur + zlen f)); [|exact F3]. unfold slice. pose proof (up_ge a (zlen f) P).
      replace (clamp (zlen data) (up a cur + up a (zlen f))) with (clamp (zlen data) (up a cur + zlen f)); [reflexivity|]. unfold clamp. replace (up a cur + zlen f <? 0) with false by lia. replace (up a cur + up a (zlen f) <? 0) with false by lia. lia.
  - apply at_slice; [|rewrite zlen_app, zlen_zeros by lia; unfold up; lia]. apply (proj2 (at_app _ _ _ _)). split; [exact TF|]. rewrite <- PB.
    cbn [fbytes] in TR. rewrite <- !app_assoc in TR. apply (proj1 (at_app _ _ _ _)) in TR as [TR _]. exact TR.
Qed.

(** ** The alignment found *)
Definition detect_sweep (k : Z) : bool := let a := 2 ^ k in forallb (fun r => detect a r =? Z.gcd a r) (range_z 0 512).
Lemma detect_mod a o : detect a o = detect a (o mod 512).
Proof.
  unfold detect. cbn [fold_left]. unfold shrink. cbn [fst snd].
  rewrite (Znumtheory.Zmod_div_mod 256 512 o), (Znumtheory.Zmod_div_mod 128 512 o), (Znumtheory.Zmod_div_mod 64 512 o), (Znumtheory.Zmod_div_mod 32 512 o), (Znumtheory.Zmod_div_mod 16 512 o),
    (Znumtheory.Zmod_div_mod 8 512 o), (Znumtheory.Zmod_div_mod 4 512 o), (Znumtheory.Zmod_div_mod 2 512 o) by first [lia | apply Z.mod_divide; [lia|reflexivity]].
  rewrite (Z.mod_mod o 512) by lia. reflexivity.
Qed.
Lemma gcd_mod512 a o : (a | 512) -> Z.gcd a o = Z.gcd a (o mod 512).
Proof.
  intros [q Q]. rewrite (Z.div_mod o 512) at 1 by lia. rewrite Q at 1. replace (q * a * (o / 512) + o mod 512) with (o mod 512 + (q * (o / 512)) * a) by lia.
  apply Z.gcd_add_mult_diag_r.
Qed.
Lemma pow2_512 a : 0 < a -> (a | 512) -> exists k, 0 <= k <= 9 /\ a = 2 ^ k.
Proof.
  intros P D. assert (a <= 512) as B by (apply Z.divide_pos_le; [lia|exact D]). apply Z.mod_divide in D; [|lia].
  assert (S : forallb (fun a => negb (0 <? a) || negb (512 mod a =? 0) || existsb (fun k => a =? 2 ^ k) (range_z 0 10)) (range_z 0 513) = true) by (vm_compute; reflexivity).
  rewrite forallb_forall in S. specialize (S a). rewrite in_range_z in S. specialize (S ltac:(lia)). destruct (0 <? a) eqn:E; [|lia]. destruct (512 mod a =? 0) eqn:E2; [|lia]. cbn [negb orb] in S.
  apply existsb_exists in S as (k & K & E3). apply in_range_z in K. exists k. split; lia.
Qed.
Lemma detect_gcd a o : 0 < a -> (a | 512) -> detect a o = Z.gcd a o.
Proof.
  intros P D. rewrite detect_mod, (gcd_mod512 a o D). destruct (pow2_512 a P D) as (k & K & ->). pose proof (Z.mod_pos_bound o 512 ltac:(lia)) as M.
  assert (S : forallb detect_sweep (range_z 0 10) = true) by (vm_compute; reflexivity). rewrite forallb_forall in S. specialize (S k ltac:(apply in_range_z; lia)).
  unfold detect_sweep in S. rewrite forallb_forall in S. specialize (S (o mod 512) ltac:(apply in_range_z; lia)). lia.
Qed.
Lemma gcd_512 a o : 0 < a -> (a | 512) -> 0 < Z.gcd a o /\ (Z.gcd a o | 512).
Proof.
  intros P D. split.
  - pose proof (Z.gcd_nonneg a o). destruct (Z.eq_dec (Z.gcd a o) 0) as [E|]; [|lia]. apply Z.gcd_eq_0_l in E. lia.
  - eapply Z.divide_trans; [apply Z.gcd_divide_l|exact D].
Qed.
Lemma detect_all l : forall a, 0 < a -> (a | 512) -> fold_left detect l a = fold_left Z.gcd l a.
Proof. induction l as [|o l IH]; intros a P D; cbn [fold_left]; [reflexivity|]. rewrite detect_gcd by assumption. destruct (gcd_512 a o P D). apply IH; assumption. Qed.

(** ** The layout of the files *)
Lemma foffs_length a fs : forall cur, length (foffs a cur fs) = length fs.
Proof. induction fs as [|f fs IH]; intros cur; cbn [foffs length]; [reflexivity|]. rewrite IH. reflexivity. Qed.
Lemma foffs_spec data a : 0 < a -> forall fs cur rest i f, at_ data cur (fbytes a cur fs ++ rest) -> nth_error fs i = Some f ->
  exists o, nth_error (foffs a cur fs) i = Some o /\ at_ data o f /\ o mod a = 0 /\ cur <= o.
Proof.
  intros P. induction fs as [|g fs IH]; intros cur rest i f T N; [destruct i; discriminate|]. cbn [fbytes foffs] in *. rewrite <- !app_assoc in T.
  apply (proj1 (at_app _ _ _ _)) in T as [_ T]. pose proof (Z.mod_pos_bound (- cur) a P). pose proof (up_ge a cur P). pose proof (zlen_nonneg g). rewrite zlen_zeros in T by lia. change (cur + - cur mod a) with (up a cur) in T.
  apply (proj1 (at_app _ _ _ _)) in T as [T1 T]. destruct i as [|i].
  - injection N as ->. exists (up a cur). split; [reflexivity|]. split; [exact T1|]. split; [apply up_mod; exact P|lia].
  - destruct (IH _ _ _ _ T N) as (o & O & A & M & C). exists o. split; [exact O|]. split; [exact A|]. split; [exact M|lia].
Qed.
Lemma foffs_order a : 0 < a -> forall fs cur i j f o o', (i < j)%nat -> nth_error fs i = Some f -> nth_error (foffs a cur fs) i = Some o -> nth_error (foffs a cur fs) j = Some o' ->
  o + up a (zlen f) <= o'.
Proof.
  intros P. induction fs as [|g fs IH]; intros cur i j f o o' L N O O'; [destruct i; discriminate|]. destruct j as [|j]; [lia|]. cbn [foffs] in *. pose proof (up_mod a cur P) as UM. destruct i as [|i].
  - injection N as ->. cbn [nth_error] in O, O'. injection O as <-. clear IH L. rewrite <- (up_shift a (up a cur) (zlen f) P UM). generalize dependent j. generalize (up a cur + zlen f) as c. clear - P.
    induction fs as [|h fs IH]; intros c j O'; [destruct j; discriminate|]. cbn [foffs] in O'. destruct j as [|j]; [injection O' as <-; lia|]. cbn [nth_error] in O'. apply IH in O'.
    pose proof (zlen_nonneg h). pose proof (up_ge a (up a c + zlen h) P). lia.
  - cbn [nth_error] in *. exact (IH _ i j f o o' ltac:(lia) N O O').
Qed.

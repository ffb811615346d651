(** * Lemmas about the Python vocabulary of PyBase *)
From Verif Require Import PyBase.
From Coq Require Export ZifyBool ZifyNat.
Ltac Zify.zify_post_hook ::= Z.div_mod_to_equations.

Arguments Z.add : simpl never.
Arguments Z.sub : simpl never.
Arguments Z.mul : simpl never.
Arguments Z.div : simpl never.
Arguments Z.modulo : simpl never.
Arguments Z.pow : simpl never.
Arguments Z.of_nat : simpl never.
Arguments Z.to_nat : simpl never.

(** ** lengths *)
Lemma zlen_nil {A} : zlen (@nil A) = 0.
Proof. reflexivity. Qed.
Lemma zlen_cons {A} (x : A) l : zlen (x :: l) = 1 + zlen l.
Proof. unfold zlen; cbn [length]; lia. Qed.
Lemma zlen_app {A} (a b : list A) : zlen (a ++ b) = zlen a + zlen b.
Proof. unfold zlen; rewrite app_length; lia. Qed.
Lemma zlen_nonneg {A} (l : list A) : 0 <= zlen l.
Proof. unfold zlen; lia. Qed.
Lemma zlen_rev {A} (l : list A) : zlen (rev l) = zlen l.
Proof. unfold zlen; rewrite rev_length; lia. Qed.
Lemma zlen_map {A B} (f : A -> B) l : zlen (map f l) = zlen l.
Proof. unfold zlen; rewrite map_length; lia. Qed.
Lemma zlen_repeat {A} (x : A) n : zlen (repeat x n) = Z.of_nat n.
Proof. unfold zlen; rewrite repeat_length; lia. Qed.
Lemma zlen_rep {A} (x : A) n : 0 <= n -> zlen (rep x n) = n.
Proof. intros; unfold rep; rewrite zlen_repeat; lia. Qed.
Lemma zlen_rep_max {A} (x : A) n : zlen (rep x n) = Z.max 0 n.
Proof. intros; unfold rep; rewrite zlen_repeat; lia. Qed.
Lemma zlen_zeros n : 0 <= n -> zlen (zeros n) = n.
Proof. apply zlen_rep. Qed.
Lemma zlen_firstn {A} n (l : list A) : zlen (firstn n l) = Z.min (Z.of_nat n) (zlen l).
Proof. unfold zlen; rewrite firstn_length; lia. Qed.
Lemma zlen_skipn {A} n (l : list A) : zlen (skipn n l) = Z.max 0 (zlen l - Z.of_nat n).
Proof. unfold zlen; rewrite skipn_length; lia. Qed.
Lemma zlen_0 {A} (l : list A) : zlen l = 0 -> l = [].
Proof. destruct l; [reflexivity|]; rewrite zlen_cons; pose proof (zlen_nonneg l); lia. Qed.
Lemma zlen_le n v : zlen (le n v) = Z.of_nat n.
Proof.
  revert v; induction n as [|n IH]; intros v; cbn [le]; [reflexivity|].
  rewrite zlen_cons, IH; lia.
Qed.
Lemma length_le n v : length (le n v) = n.
Proof. pose proof (zlen_le n v); unfold zlen in *; lia. Qed.
Lemma zlen_be n v : zlen (be n v) = Z.of_nat n.
Proof. unfold be; rewrite zlen_rev; apply zlen_le. Qed.
Lemma zlen_enc e n v : zlen (enc e n v) = Z.of_nat n.
Proof. destruct e; [apply zlen_le|apply zlen_be]. Qed.
Lemma zlen_upd {A} (l : list A) n x : zlen (upd l n x) = zlen l.
Proof.
  revert n; induction l as [|y l IH]; intros [|n]; cbn [upd]; auto;
  rewrite !zlen_cons, ?IH; lia.
Qed.
Lemma zlen_concat_const {A} (ls : list (list A)) k :
  Forall (fun l => zlen l = k) ls -> zlen (concat ls) = zlen ls * k.
Proof.
  induction 1 as [|l ls H _ IH]; cbn [concat]; [reflexivity|].
  rewrite zlen_app, zlen_cons, IH, H; lia.
Qed.
Lemma zlen_concat_map {A B} (f : A -> list B) l k :
  (forall x, In x l -> zlen (f x) = k) -> zlen (concat (map f l)) = zlen l * k.
Proof.
  intros H. rewrite (zlen_concat_const _ k), zlen_map; [reflexivity|].
  rewrite Forall_map, Forall_forall; exact H.
Qed.
Lemma zlen_range_z s n : zlen (range_z s n) = Z.of_nat n.
Proof. revert s; induction n; intros; cbn [range_z]; [reflexivity|]; rewrite zlen_cons, IHn; lia. Qed.

Create HintDb zl.
#[export] Hint Rewrite @zlen_nil @zlen_cons @zlen_app @zlen_rev @zlen_map @zlen_le @zlen_be
  @zlen_enc @zlen_upd @zlen_range_z @zlen_firstn @zlen_skipn @zlen_rep_max : zl.

(** all [zlen] atoms are non-negative *)
Ltac zlen_pos :=
  repeat match goal with
  | |- context [zlen ?l] =>
      lazymatch goal with
      | _ : 0 <= zlen l |- _ => fail
      | _ => pose proof (zlen_nonneg l)
      end
  | _ : context [zlen ?l] |- _ =>
      lazymatch goal with
      | _ : 0 <= zlen l |- _ => fail
      | _ => pose proof (zlen_nonneg l)
      end
  end.
Ltac zl := unfold zeros in *; autorewrite with zl in *; zlen_pos; try lia.

(** ** bytes *)
Lemma is_bytes_app a b : is_bytes (a ++ b) <-> is_bytes a /\ is_bytes b.
Proof. apply Forall_app. Qed.
Lemma is_bytes_le n v : is_bytes (le n v).
Proof.
  revert v; induction n as [|n IH]; intros v; cbn [le]; constructor; [|apply IH].
  unfold is_byte; lia.
Qed.
Lemma is_bytes_rev l : is_bytes l -> is_bytes (rev l).
Proof. apply Forall_rev. Qed.
Lemma is_bytes_be n v : is_bytes (be n v).
Proof. apply is_bytes_rev, is_bytes_le. Qed.
Lemma is_bytes_rep x n : is_byte x -> is_bytes (rep x n).
Proof. intros H; unfold rep; induction (Z.to_nat n); cbn [repeat]; constructor; auto. Qed.
Lemma is_bytes_zeros n : is_bytes (zeros n).
Proof. apply is_bytes_rep; unfold is_byte; lia. Qed.
Lemma Forall_firstn_ {A} (P : A -> Prop) n l : Forall P l -> Forall P (firstn n l).
Proof. intros H; revert n; induction H; intros [|n]; cbn [firstn]; constructor; auto. Qed.
Lemma Forall_skipn_ {A} (P : A -> Prop) n l : Forall P l -> Forall P (skipn n l).
Proof. intros H; revert n; induction H; intros [|n]; cbn [skipn]; try constructor; auto. Qed.
Lemma is_bytes_slice l i j : is_bytes l -> is_bytes (slice l i j).
Proof. intros; unfold slice; apply Forall_firstn_, Forall_skipn_; assumption. Qed.
Lemma byteb_true b : byteb b = true <-> is_byte b.
Proof. unfold byteb, is_byte; lia. Qed.
Lemma forallb_byteb l : forallb byteb l = true <-> is_bytes l.
Proof.
  unfold is_bytes; rewrite forallb_forall, Forall_forall.
  split; intros H x Hx; apply byteb_true, H, Hx.
Qed.

(** ** little/big endian *)
Lemma unle_range l : is_bytes l -> 0 <= unle l < 256 ^ zlen l.
Proof.
  induction 1 as [|b l Hb _ IH]; cbn [unle]; [change (zlen (@nil Z)) with 0; lia|].
  rewrite zlen_cons. replace (1 + zlen l) with (Z.succ (zlen l)) by lia.
  rewrite Z.pow_succ_r by apply zlen_nonneg. unfold is_byte in Hb. lia.
Qed.
Lemma unle_le n v : unle (le n v) = v mod 256 ^ Z.of_nat n.
Proof.
  revert v; induction n as [|n IH]; intros v; cbn [le unle].
  - rewrite Z.mod_1_r; reflexivity.
  - rewrite IH. rewrite Nat2Z.inj_succ, Z.pow_succ_r by lia.
    rewrite Z.rem_mul_r by (try lia; apply Z.pow_pos_nonneg; lia). lia.
Qed.
Lemma unle_le_id n v : 0 <= v < 256 ^ Z.of_nat n -> unle (le n v) = v.
Proof. intros; rewrite unle_le; apply Z.mod_small; lia. Qed.
Lemma le_unle l : is_bytes l -> le (length l) (unle l) = l.
Proof.
  induction 1 as [|b l Hb _ IH]; cbn [length le unle]; [reflexivity|].
  unfold is_byte in Hb. f_equal; [lia|].
  replace ((b + 256 * unle l) / 256) with (unle l) by lia. exact IH.
Qed.
Lemma le_unle_n n l : is_bytes l -> length l = n -> le n (unle l) = l.
Proof. intros H <-; apply le_unle, H. Qed.
Lemma dec_enc e n v : 0 <= v < 256 ^ Z.of_nat n -> dec e (enc e n v) = v.
Proof.
  intros; destruct e; cbn [dec enc]; [|unfold be, unbe; rewrite rev_involutive];
  apply unle_le_id; assumption.
Qed.

(** ** ranges *)
Lemma in_range_z s n x : In x (range_z s n) <-> s <= x < s + Z.of_nat n.
Proof.
  revert s; induction n as [|n IH]; intros s; cbn [range_z In]; [lia|].
  rewrite IH; lia.
Qed.
Lemma nth_error_range_z s n i : (i < n)%nat -> nth_error (range_z s n) i = Some (s + Z.of_nat i).
Proof.
  revert s i; induction n as [|n IH]; intros s i Hi; [lia|].
  destruct i as [|i]; cbn [range_z nth_error].
  - f_equal; lia.
  - rewrite IH by lia. f_equal; lia.
Qed.
Lemma range_z_snoc s n : range_z s (S n) = range_z s n ++ [s + Z.of_nat n].
Proof.
  revert s; induction n as [|n IH]; intros s.
  - cbn. f_equal. lia.
  - change (range_z s (S (S n))) with (s :: range_z (s + 1) (S n)).
    rewrite IH. cbn [range_z app]. f_equal. f_equal. f_equal. lia.
Qed.
Lemma range_z_app s n m : range_z s (n + m) = range_z s n ++ range_z (s + Z.of_nat n) m.
Proof.
  revert s; induction n as [|n IH]; intros s; cbn [range_z app Nat.add].
  - f_equal; lia.
  - f_equal. rewrite IH. f_equal. f_equal. lia.
Qed.

(** finite sweep lifted to a universally quantified statement *)
Lemma sweep (n : Z) (P : Z -> bool) :
  forallb P (range_z 0 (Z.to_nat n)) = true -> forall x, 0 <= x < n -> P x = true.
Proof.
  rewrite forallb_forall; intros H x Hx. apply H, in_range_z. lia.
Qed.

(** ** bind *)
Lemma bind_ok {A B} (x : res A) (k : A -> res B) b :
  bind x k = Ok b -> exists a, x = Ok a /\ k a = Ok b.
Proof. destruct x; cbn; [eauto|discriminate]. Qed.
Lemma bind_err {A B} (x : res A) (k : A -> res B) e :
  bind x k = Err e -> x = Err e \/ exists a, x = Ok a /\ k a = Err e.
Proof. destruct x; cbn; [right; eauto|intros [= ->]; auto]. Qed.
Lemma guard_ok c e u : guard c e = Ok u -> c = true.
Proof. destruct c; cbn; congruence. Qed.
Lemma guard_true c e : c = true -> guard c e = Ok tt.
Proof. intros ->; reflexivity. Qed.

Lemma mapM_ok_length {A B} (f : A -> res B) l r : mapM f l = Ok r -> length r = length l.
Proof.
  revert r; induction l as [|x l IH]; cbn [mapM]; intros r H.
  - injection H as <-; reflexivity.
  - apply bind_ok in H as (y & Hy & H). apply bind_ok in H as (ys & Hys & H).
    injection H as <-. cbn [length]. f_equal. apply IH, Hys.
Qed.
Lemma mapM_map {A B} (f : A -> res B) (g : A -> B) l :
  (forall x, In x l -> f x = Ok (g x)) -> mapM f l = Ok (map g l).
Proof.
  induction l as [|x l IH]; intros H; cbn [mapM map]; [reflexivity|].
  rewrite H by (left; reflexivity). cbn [bind].
  rewrite IH by (intros; apply H; right; assumption). reflexivity.
Qed.
Lemma mapM_app {A B} (f : A -> res B) l1 l2 :
  mapM f (l1 ++ l2) = (a <- mapM f l1 ;; b <- mapM f l2 ;; Ok (a ++ b)).
Proof.
  induction l1 as [|x l1 IH]; cbn [mapM app bind].
  - destruct (mapM f l2); reflexivity.
  - destruct (f x); cbn [bind]; [|reflexivity]. rewrite IH.
    destruct (mapM f l1); cbn [bind]; [|reflexivity].
    destruct (mapM f l2); reflexivity.
Qed.
Lemma mapM_ok_nth {A B} (f : A -> res B) l r i x :
  mapM f l = Ok r -> nth_error l i = Some x -> exists y, nth_error r i = Some y /\ f x = Ok y.
Proof.
  revert r i; induction l as [|z l IH]; intros r i H Hi; [destruct i; discriminate|].
  cbn [mapM] in H. apply bind_ok in H as (y & Hy & H). apply bind_ok in H as (ys & Hys & H).
  injection H as <-. destruct i as [|i]; cbn [nth_error] in *.
  - injection Hi as ->. eauto.
  - eapply IH; eauto.
Qed.
Lemma mapM_Forall2 {A B} (f : A -> res B) l r :
  mapM f l = Ok r <-> Forall2 (fun x y => f x = Ok y) l r.
Proof.
  revert r; induction l as [|x l IH]; intros r; cbn [mapM]; split; intros H.
  - injection H as <-; constructor.
  - inversion H; reflexivity.
  - apply bind_ok in H as (y & Hy & H). apply bind_ok in H as (ys & Hys & H).
    injection H as <-. constructor; [assumption|]. apply IH, Hys.
  - inversion H as [|? y ? ys Hy Hys]; subst. rewrite Hy. cbn [bind].
    apply IH in Hys. rewrite Hys. reflexivity.
Qed.

(** a table read by index: [for i in range(n): out.append(read(i))] *)
Lemma mapM_table {A B} (read : Z -> res B) (f : A -> B) (xs : list A) (s : Z) :
  (forall l1 x l2, xs = l1 ++ x :: l2 -> read (s + zlen l1) = Ok (f x)) ->
  mapM read (range_z s (length xs)) = Ok (map f xs).
Proof.
  intros H.
  assert (G : forall l2 l1, xs = l1 ++ l2 ->
     mapM read (range_z (s + zlen l1) (length l2)) = Ok (map f l2)).
  { induction l2 as [|x l2 IH]; intros l1 E; cbn [length range_z mapM map]; [reflexivity|].
    rewrite (H l1 x l2 E). cbn [bind].
    specialize (IH (l1 ++ [x])). rewrite zlen_app, zlen_cons, zlen_nil in IH.
    replace (s + zlen l1 + 1) with (s + (zlen l1 + (1 + 0))) by lia.
    rewrite IH; [reflexivity|]. rewrite E, <- app_assoc; reflexivity. }
  specialize (G xs [] eq_refl). rewrite zlen_nil, Z.add_0_r in G. exact G.
Qed.

Lemma foldM_app {S A} (f : S -> A -> res S) s l1 l2 :
  foldM f s (l1 ++ l2) = (s' <- foldM f s l1 ;; foldM f s' l2).
Proof.
  revert s; induction l1 as [|x l1 IH]; intros s; cbn [foldM app bind]; [reflexivity|].
  destruct (f s x); cbn [bind]; [apply IH|reflexivity].
Qed.

(** ** slices *)
Lemma clamp_id n i : 0 <= i <= n -> clamp n i = i.
Proof. unfold clamp; intros; destruct (Z.ltb_spec i 0); lia. Qed.
Lemma clamp_range n i : 0 <= n -> 0 <= clamp n i <= n.
Proof. unfold clamp; intros; destruct (Z.ltb_spec i 0); lia. Qed.
Lemma firstn_app_exact {A} (a b : list A) n : n = length a -> firstn n (a ++ b) = a.
Proof. intros ->. rewrite firstn_app, Nat.sub_diag, firstn_all; cbn [firstn]. apply app_nil_r. Qed.
Lemma skipn_app_exact {A} (a b : list A) n : n = length a -> skipn n (a ++ b) = b.
Proof. intros ->. rewrite skipn_app, Nat.sub_diag, skipn_all; reflexivity. Qed.
Lemma skipn_skipn_ {A} (l : list A) n m : skipn n (skipn m l) = skipn (m + n) l.
Proof.
  revert l; induction m as [|m IH]; intros l; cbn [skipn Nat.add]; [reflexivity|].
  destruct l; [destruct n; reflexivity|]. apply IH.
Qed.

Lemma slice_mid {A} (a b c : list A) i j :
  i = zlen a -> j = i + zlen b -> slice (a ++ b ++ c) i j = b.
Proof.
  intros -> ->. unfold slice. pose proof (zlen_nonneg a); pose proof (zlen_nonneg b);
  pose proof (zlen_nonneg c).
  rewrite !clamp_id by (rewrite !zlen_app; lia).
  rewrite skipn_app_exact by (unfold zlen; lia).
  apply firstn_app_exact. unfold zlen; lia.
Qed.
Lemma slice_skip {A} (a b : list A) i j :
  zlen a <= i -> zlen a <= j -> slice (a ++ b) i j = slice b (i - zlen a) (j - zlen a).
Proof.
  intros Hi Hj. unfold slice, clamp.
  pose proof (zlen_nonneg a); pose proof (zlen_nonneg b).
  rewrite zlen_app.
  destruct (Z.ltb_spec i 0); [lia|]. destruct (Z.ltb_spec (i - zlen a) 0); [lia|].
  destruct (Z.ltb_spec j 0); [lia|]. destruct (Z.ltb_spec (j - zlen a) 0); [lia|].
  f_equal; [lia|]. rewrite skipn_app.
  rewrite skipn_all2 by (unfold zlen in *; lia). cbn [app]. f_equal. unfold zlen in *; lia.
Qed.
Lemma slice_hit {A} (b c : list A) i j : i = 0 -> j = zlen b -> slice (b ++ c) i j = b.
Proof. intros -> ->. apply (slice_mid [] b c); reflexivity. Qed.
Lemma slice_hit_all {A} (b : list A) i j : i = 0 -> zlen b <= j -> slice b i j = b.
Proof.
  intros -> H. unfold slice, clamp. pose proof (zlen_nonneg b).
  destruct (Z.ltb_spec j 0); [lia|]. destruct (Z.ltb_spec 0 0); [lia|].
  rewrite Z.min_r by lia. replace (Z.min 0 (zlen b)) with 0 by lia.
  change (Z.to_nat 0) with O. cbn [skipn]. apply firstn_all2. unfold zlen; lia.
Qed.
Lemma slice_app_l {A} (a b : list A) i j :
  0 <= i -> 0 <= j <= zlen a -> slice (a ++ b) i j = slice a i j.
Proof.
  intros Hi Hj. unfold slice. pose proof (zlen_nonneg a); pose proof (zlen_nonneg b).
  rewrite zlen_app. rewrite (clamp_id _ j) by lia. rewrite (clamp_id _ j) by lia.
  unfold clamp. destruct (Z.ltb_spec i 0); [lia|].
  destruct (Z.le_gt_cases i (zlen a)).
  - rewrite !Z.min_l by lia. rewrite skipn_app, firstn_app.
    replace (Z.to_nat (j - i) - length (skipn (Z.to_nat i) a))%nat with O; [|rewrite skipn_length; unfold zlen in *; lia].
    cbn [firstn]. apply app_nil_r.
  - replace (Z.to_nat (j - Z.min i (zlen a + zlen b))) with O by lia.
    replace (Z.to_nat (j - Z.min i (zlen a))) with O by lia. reflexivity.
Qed.
Lemma zlen_slice {A} (l : list A) i j :
  0 <= i <= zlen l -> i <= j <= zlen l -> zlen (slice l i j) = j - i.
Proof.
  intros. unfold slice. rewrite !clamp_id by lia. autorewrite with zl. lia.
Qed.
Lemma zlen_slice_le {A} (l : list A) i k : 0 <= i -> 0 <= k -> zlen (slice l i (i + k)) <= k.
Proof.
  intros. unfold slice, clamp. rewrite zlen_firstn. replace (i <? 0) with false by lia. replace (i + k <? 0) with false by lia.
  generalize (zlen (skipn (Z.to_nat (Z.min i (zlen l))) l)) (zlen l). intros. lia.
Qed.
Lemma slice_all {A} (l : list A) : slice l 0 (zlen l) = l.
Proof. apply slice_hit_all; lia. Qed.
Lemma slice_app_eq {A} (l : list A) i j k :
  0 <= i <= j -> j <= k -> slice l i j ++ slice l j k = slice l i k.
Proof.
  intros Hi Hj. unfold slice. pose proof (zlen_nonneg l).
  unfold clamp. destruct (Z.ltb_spec i 0); [lia|]. destruct (Z.ltb_spec j 0); [lia|].
  destruct (Z.ltb_spec k 0); [lia|].
  set (a := Z.min i (zlen l)). set (b := Z.min j (zlen l)). set (c := Z.min k (zlen l)).
  replace (skipn (Z.to_nat b) l) with (skipn (Z.to_nat (b - a)) (skipn (Z.to_nat a) l))
    by (rewrite skipn_skipn_; f_equal; lia).
  set (m := skipn (Z.to_nat a) l).
  replace (Z.to_nat (c - a)) with (Z.to_nat (b - a) + Z.to_nat (c - b))%nat by lia.
  generalize (Z.to_nat (b - a)) (Z.to_nat (c - b)). intros n n'. clearbody m. clear.
  revert m; induction n as [|n IH]; intros m; cbn [firstn skipn app Nat.add]; [reflexivity|].
  destruct m; cbn [app]; [apply firstn_nil|]. f_equal; apply IH.
Qed.
Lemma slice_nil {A} (l : list A) i j : 0 <= j <= i -> slice l i j = [].
Proof.
  intros. unfold slice. pose proof (zlen_nonneg l). unfold clamp.
  destruct (Z.ltb_spec i 0); [lia|]. destruct (Z.ltb_spec j 0); [lia|].
  replace (Z.to_nat _) with O by lia. reflexivity.
Qed.

(** ** reading structs *)
Lemma struct_off_in n len off : 0 <= off -> off + n <= len -> struct_off n len off = Ok off.
Proof.
  unfold struct_off; intros. destruct (Z.ltb_spec off 0); [lia|].
  destruct (Z.ltb_spec len (off + n)); [lia|reflexivity].
Qed.
Lemma rd_skip a b off n : zlen a <= off -> rd (a ++ b) off n = rd b (off - zlen a) n.
Proof.
  intros H. unfold rd, struct_off. pose proof (zlen_nonneg a). rewrite zlen_app.
  destruct (Z.ltb_spec off 0); [lia|]. destruct (Z.ltb_spec (off - zlen a) 0); [lia|].
  destruct (Z.ltb_spec (zlen a + zlen b) (off + n)); destruct (Z.ltb_spec (zlen b) (off - zlen a + n));
  try lia; cbn [bind]; [reflexivity|].
  do 2 f_equal. rewrite skipn_app, skipn_all2 by (unfold zlen in *; lia). cbn [app].
  f_equal. unfold zlen in *; lia.
Qed.
Lemma rd_hit b c off n : off = 0 -> zlen b = n -> rd (b ++ c) off n = Ok b.
Proof.
  intros -> H. unfold rd. pose proof (zlen_nonneg b). pose proof (zlen_nonneg c).
  rewrite struct_off_in by (rewrite ?zlen_app; lia). cbn [bind].
  change (Z.to_nat 0) with O. cbn [skipn]. rewrite firstn_app_exact; [reflexivity|].
  unfold zlen in *; lia.
Qed.
Lemma rd_hit_all b off n : off = 0 -> zlen b = n -> rd b off n = Ok b.
Proof. intros H1 H2. pose proof (rd_hit b [] off n H1 H2) as G. rewrite app_nil_r in G. exact G. Qed.
Lemma rd_app_l a b off n : 0 <= off -> 0 <= n -> off + n <= zlen a -> rd (a ++ b) off n = rd a off n.
Proof.
  intros Ho Hn H. unfold rd. pose proof (zlen_nonneg b).
  rewrite !struct_off_in by (rewrite ?zlen_app; lia). cbn [bind]. f_equal.
  rewrite skipn_app, firstn_app.
  replace (Z.to_nat n - _)%nat with O by (rewrite skipn_length; unfold zlen in *; lia).
  cbn [firstn]. apply app_nil_r.
Qed.
Lemma rd_slice data off n : 0 <= off -> 0 <= n -> off + n <= zlen data ->
  rd data off n = Ok (slice data off (off + n)).
Proof.
  intros. unfold rd, slice. rewrite struct_off_in, !clamp_id by lia. cbn [bind].
  do 3 f_equal. lia.
Qed.
Lemma rd_ok_inv data off n b : 0 <= off -> rd data off n = Ok b -> off + n <= zlen data.
Proof.
  unfold rd, struct_off. intros Ho H. destruct (Z.ltb_spec off 0); [lia|].
  destruct (Z.ltb_spec (zlen data) (off + n)); [discriminate|lia].
Qed.

Lemma unpack_e_skip e n a b off :
  zlen a <= off -> unpack_e e n (a ++ b) off = unpack_e e n b (off - zlen a).
Proof. intros; unfold unpack_e; rewrite rd_skip by assumption; reflexivity. Qed.
Lemma unpack_e_hit e n v c off :
  off = 0 -> 0 <= v < 256 ^ Z.of_nat n -> unpack_e e n (enc e n v ++ c) off = Ok v.
Proof.
  intros; unfold unpack_e. rewrite rd_hit by (auto; apply zlen_enc). cbn [bind].
  rewrite dec_enc by assumption; reflexivity.
Qed.
Lemma unpack_e_hit_all e n v off :
  off = 0 -> 0 <= v < 256 ^ Z.of_nat n -> unpack_e e n (enc e n v) off = Ok v.
Proof. intros. rewrite <- (app_nil_r (enc e n v)). apply unpack_e_hit; assumption. Qed.
Lemma unpack_u_skip n a b off :
  zlen a <= off -> unpack_u n (a ++ b) off = unpack_u n b (off - zlen a).
Proof. apply unpack_e_skip. Qed.
Lemma unpack_u_hit n v c off :
  off = 0 -> 0 <= v < 256 ^ Z.of_nat n -> unpack_u n (le n v ++ c) off = Ok v.
Proof. apply (unpack_e_hit LE). Qed.
Lemma unpack_u_hit_all n v off :
  off = 0 -> 0 <= v < 256 ^ Z.of_nat n -> unpack_u n (le n v) off = Ok v.
Proof. apply (unpack_e_hit_all LE). Qed.
Lemma unpack_e_app_l e n a b off :
  0 <= off -> off + Z.of_nat n <= zlen a -> unpack_e e n (a ++ b) off = unpack_e e n a off.
Proof. intros. unfold unpack_e. rewrite rd_app_l by lia. reflexivity. Qed.
Lemma unpack_u_app_l n a b off :
  0 <= off -> off + Z.of_nat n <= zlen a -> unpack_u n (a ++ b) off = unpack_u n a off.
Proof. apply unpack_e_app_l. Qed.

Lemma pack_e_ok e n v : 0 <= v < 256 ^ Z.of_nat n -> pack_e e n v = Ok (enc e n v).
Proof.
  intros. unfold pack_e. destruct (Z.leb_spec 0 v); [|lia].
  destruct (Z.ltb_spec v (256 ^ Z.of_nat n)); [reflexivity|lia].
Qed.
Lemma pack_u_ok n v : 0 <= v < 256 ^ Z.of_nat n -> pack_u n v = Ok (le n v).
Proof. apply (pack_e_ok LE). Qed.
Lemma pack_e_inv e n v b : pack_e e n v = Ok b -> 0 <= v < 256 ^ Z.of_nat n /\ b = enc e n v.
Proof.
  unfold pack_e. destruct (Z.leb_spec 0 v); cbn [andb]; [|discriminate].
  destruct (Z.ltb_spec v (256 ^ Z.of_nat n)); [|discriminate]. intros [= <-]; split; [lia|reflexivity].
Qed.
Lemma pack_u_inv n v b : pack_u n v = Ok b -> 0 <= v < 256 ^ Z.of_nat n /\ b = le n v.
Proof. apply (pack_e_inv LE). Qed.
Lemma pack_u_err n v : ~ (0 <= v < 256 ^ Z.of_nat n) -> pack_u n v = Err StructError.
Proof.
  intros H. unfold pack_u, pack_e. destruct (Z.leb_spec 0 v); [|reflexivity].
  destruct (Z.ltb_spec v (256 ^ Z.of_nat n)); [lia|reflexivity].
Qed.

(** packing several fields *)
Definition les (fs : list (nat * Z)) : bytes := concat (map (fun f => le (fst f) (snd f)) fs).
Lemma pack_us_ok fs :
  Forall (fun f => 0 <= snd f < 256 ^ Z.of_nat (fst f)) fs -> pack_us fs = Ok (les fs).
Proof.
  induction 1 as [|[n v] fs H _ IH]; cbn [pack_us]; [reflexivity|].
  cbn [fst snd] in H. rewrite pack_u_ok by assumption. cbn [bind]. rewrite IH. reflexivity.
Qed.
Lemma pack_us_inv fs b :
  pack_us fs = Ok b -> Forall (fun f => 0 <= snd f < 256 ^ Z.of_nat (fst f)) fs /\ b = les fs.
Proof.
  revert b; induction fs as [|[n v] fs IH]; cbn [pack_us]; intros b H.
  - injection H as <-. split; [constructor|reflexivity].
  - apply bind_ok in H as (b1 & H1 & H). apply bind_ok in H as (b2 & H2 & H).
    injection H as <-. apply pack_u_inv in H1 as [R ->]. apply IH in H2 as [F ->].
    split; [constructor; assumption|reflexivity].
Qed.

(** ** put *)
Lemma put_mid a b c d off : off = zlen a -> zlen b = zlen d -> put (a ++ b ++ c) off d = Ok (a ++ d ++ c).
Proof.
  intros -> H. unfold put. pose proof (zlen_nonneg a); pose proof (zlen_nonneg b); pose proof (zlen_nonneg c).
  rewrite struct_off_in by (rewrite ?zlen_app; lia). cbn [bind]. f_equal.
  rewrite firstn_app_exact by (unfold zlen; lia). f_equal. f_equal.
  rewrite app_assoc. apply skipn_app_exact. rewrite app_length. unfold zlen in *; lia.
Qed.
Lemma put_skip a b off d : zlen a <= off -> put (a ++ b) off d = (b' <- put b (off - zlen a) d ;; Ok (a ++ b')).
Proof.
  intros H. unfold put, struct_off. pose proof (zlen_nonneg a). rewrite zlen_app.
  destruct (Z.ltb_spec off 0); [lia|]. destruct (Z.ltb_spec (off - zlen a) 0); [lia|].
  destruct (Z.ltb_spec (zlen a + zlen b) (off + zlen d)); destruct (Z.ltb_spec (zlen b) (off - zlen a + zlen d)); try lia;
  cbn [bind]; [reflexivity|]. f_equal.
  pose proof (zlen_nonneg d).
  rewrite firstn_app, firstn_all2 by (unfold zlen in *; lia).
  rewrite skipn_app, (skipn_all2 (n := Z.to_nat (off + zlen d)) a) by (unfold zlen in *; lia).
  rewrite <- app_assoc. cbn [app]. do 4 f_equal; unfold zlen in *; lia.
Qed.
Lemma put_hit b c d off : off = 0 -> zlen b = zlen d -> put (b ++ c) off d = Ok (d ++ c).
Proof. intros; apply (put_mid [] b c d); [rewrite zlen_nil|]; assumption. Qed.
Lemma put_zlen data off d r : put data off d = Ok r -> zlen r = zlen data.
Proof.
  unfold put, struct_off. intros H. pose proof (zlen_nonneg d). pose proof (zlen_nonneg data).
  destruct (Z.ltb_spec off 0).
  - destruct ((0 <? off + zlen d) || (off + zlen data <? 0)) eqn:E; [discriminate|].
    cbn [bind] in H. injection H as <-. autorewrite with zl. lia.
  - destruct (Z.ltb_spec (zlen data) (off + zlen d)); [discriminate|].
    cbn [bind] in H. injection H as <-. autorewrite with zl. lia.
Qed.

(** ** get / upd *)
Lemma get_nth {A} (l : list A) i x :
  0 <= i -> nth_error l (Z.to_nat i) = Some x -> get l i = Ok x.
Proof. intros Hi H. unfold get. destruct (Z.ltb_spec i 0); [lia|]. destruct (Z.ltb_spec i 0); [lia|]. rewrite H; reflexivity. Qed.
Lemma get_mid {A} (a b : list A) x i : i = zlen a -> get (a ++ x :: b) i = Ok x.
Proof.
  intros ->. apply get_nth; [apply zlen_nonneg|].
  rewrite nth_error_app2 by (unfold zlen; lia).
  replace (Z.to_nat (zlen a) - length a)%nat with O by (unfold zlen; lia). reflexivity.
Qed.
Lemma get_skip {A} (a b : list A) i : zlen a <= i -> get (a ++ b) i = get b (i - zlen a).
Proof.
  intros H. pose proof (zlen_nonneg a). unfold get.
  destruct (Z.ltb_spec i 0); [lia|]. destruct (Z.ltb_spec (i - zlen a) 0); [lia|].
  destruct (Z.ltb_spec i 0); [lia|]. destruct (Z.ltb_spec (i - zlen a) 0); [lia|].
  rewrite nth_error_app2 by (unfold zlen in *; lia).
  replace (Z.to_nat i - length a)%nat with (Z.to_nat (i - zlen a)) by (unfold zlen in *; lia). reflexivity.
Qed.
Lemma get_app_l {A} (a b : list A) i : 0 <= i < zlen a -> get (a ++ b) i = get a i.
Proof.
  intros H. unfold get. destruct (Z.ltb_spec i 0); [lia|]. destruct (Z.ltb_spec i 0); [lia|].
  rewrite nth_error_app1 by (unfold zlen in *; lia). reflexivity.
Qed.
Lemma get_ok_range {A} (l : list A) i x : 0 <= i -> get l i = Ok x -> i < zlen l.
Proof.
  intros Hi. unfold get. destruct (Z.ltb_spec i 0); [lia|]. destruct (Z.ltb_spec i 0); [lia|].
  destruct (nth_error l (Z.to_nat i)) eqn:E; [|discriminate]. intros _.
  apply nth_error_Some_bound_index in E || (assert (nth_error l (Z.to_nat i) <> None) as E' by congruence; apply nth_error_Some in E'; unfold zlen; lia).
Qed.
Lemma get_some {A} (l : list A) i : 0 <= i < zlen l -> exists x, get l i = Ok x /\ nth_error l (Z.to_nat i) = Some x.
Proof.
  intros Hi. destruct (nth_error l (Z.to_nat i)) as [x|] eqn:E.
  - exists x; split; [apply get_nth; [lia|assumption]|reflexivity].
  - apply nth_error_None in E. unfold zlen in *; lia.
Qed.
Lemma get_ge {A} (l : list A) i : zlen l <= i -> get l i = Err IndexError.
Proof.
  intros H. pose proof (zlen_nonneg l). unfold get. destruct (Z.ltb_spec i 0); [lia|]. destruct (Z.ltb_spec i 0); [lia|].
  replace (nth_error l (Z.to_nat i)) with (@None A); [reflexivity|]. symmetry. apply nth_error_None. unfold zlen in *; lia.
Qed.
Lemma upd_app {A} (a b : list A) x y : upd (a ++ y :: b) (length a) x = a ++ x :: b.
Proof. induction a; cbn [upd app length]; [reflexivity|]. f_equal; assumption. Qed.
Lemma nth_error_upd_same {A} (l : list A) n x : (n < length l)%nat -> nth_error (upd l n x) n = Some x.
Proof. revert n; induction l; intros [|n] H; cbn [upd nth_error length] in *; try lia; [reflexivity|]. apply IHl; lia. Qed.
Lemma nth_error_upd_other {A} (l : list A) n m x : n <> m -> nth_error (upd l n x) m = nth_error l m.
Proof. revert n m; induction l; intros [|n] [|m] H; cbn [upd nth_error]; try reflexivity; try congruence. apply IHl; congruence. Qed.
Lemma length_upd {A} (l : list A) n x : length (upd l n x) = length l.
Proof. revert n; induction l; intros [|n]; cbn [upd length]; auto. Qed.

(** ** comparison *)
Lemma beq_eq a b : beq a b = true <-> a = b.
Proof.
  unfold beq. revert b; induction a as [|x a IH]; intros [|y b]; cbn [list_eqb]; split; intros H; try reflexivity; try discriminate.
  - apply andb_true_iff in H as [H1 H2]. apply Z.eqb_eq in H1 as ->. f_equal. apply IH, H2.
  - injection H as <- <-. rewrite Z.eqb_refl. apply IH. reflexivity.
Qed.
Lemma beq_refl a : beq a a = true.
Proof. apply beq_eq; reflexivity. Qed.
Lemma beq_neq a b : beq a b = false <-> a <> b.
Proof. rewrite <- not_true_iff_false, beq_eq; reflexivity. Qed.
Lemma list_eqb_eq {A} (eqb : A -> A -> bool) (E : forall x y, eqb x y = true <-> x = y) a b :
  list_eqb eqb a b = true <-> a = b.
Proof.
  revert b; induction a as [|x a IH]; intros [|y b]; cbn [list_eqb]; split; intros H; try reflexivity; try discriminate.
  - apply andb_true_iff in H as [H1 H2]. apply E in H1 as ->. f_equal. apply IH, H2.
  - injection H as <- <-. replace (eqb x x) with true by (symmetry; apply E; reflexivity). apply IH. reflexivity.
Qed.

(** ** padding *)
Lemma zlen_pad_to a f d : 0 < a -> zlen (pad_to a f d) = zlen d + (- zlen d) mod a.
Proof. intros. unfold pad_to. rewrite zlen_app, zlen_rep; lia. Qed.
Lemma pad_to_mod a f d : 0 < a -> zlen (pad_to a f d) mod a = 0.
Proof.
  intros. rewrite zlen_pad_to by assumption.
  rewrite Z.add_mod_idemp_r by lia. replace (zlen d + - zlen d) with 0 by lia. apply Z.mod_0_l; lia.
Qed.
Lemma pad_to_aligned a f d : 0 < a -> zlen d mod a = 0 -> pad_to a f d = d.
Proof.
  intros Ha H. unfold pad_to. rewrite Z.mod_opp_l_z by lia. unfold rep. apply app_nil_r.
Qed.
Lemma rep_succ {A} (x : A) n : 0 <= n -> rep x (1 + n) = x :: rep x n.
Proof. intros. unfold rep. replace (Z.to_nat (1 + n)) with (S (Z.to_nat n)) by lia. reflexivity. Qed.
Lemma pad_loop_eq fuel a f d : 0 < a -> a <= Z.of_nat fuel -> pad_loop fuel a f d = pad_to a f d.
Proof.
  intros Ha Hf.
  assert (G : forall fuel d, (- zlen d) mod a <= Z.of_nat fuel -> pad_loop fuel a f d = pad_to a f d).
  { clear fuel d Hf. induction fuel as [|k IH]; intros d H; cbn [pad_loop].
    - unfold pad_to. replace ((- zlen d) mod a) with 0 by (pose proof (Z.mod_pos_bound (- zlen d) a); lia).
      symmetry; apply app_nil_r.
    - destruct (Z.eqb_spec (zlen d mod a) 0) as [E|E].
      + symmetry; apply pad_to_aligned; assumption.
      + assert (E2 : (- zlen d) mod a = 1 + (- zlen (d ++ [f])) mod a).
        { rewrite zlen_app, zlen_cons, zlen_nil.
          rewrite (Z.mod_opp_l_nz (zlen d)) by lia.
          pose proof (Z.mod_pos_bound (zlen d) a Ha) as B.
          pose proof (Z.div_mod (zlen d) a ltac:(lia)) as D. clear H IH. revert E B D.
          generalize (zlen d mod a). intros r. generalize (zlen d / a). intros q. generalize (zlen d). intros L E B D.
          assert (M : a - r - 1 = (- (L + (1 + 0))) mod a).
          { apply (Z.mod_unique_pos _ _ (- q - 1)); [lia|]. rewrite D. ring. }
          rewrite <- M. ring. }
        rewrite IH by lia. unfold pad_to. rewrite E2.
        rewrite rep_succ by (pose proof (Z.mod_pos_bound (- zlen (d ++ [f])) a); lia).
        rewrite <- app_assoc. reflexivity. }
  apply G. pose proof (Z.mod_pos_bound (- zlen d) a). lia.
Qed.

(** ** rstrip / ljust *)
Lemma rstrip_rep c n : rstrip c (repeat c n) = [].
Proof. induction n; cbn [repeat rstrip]; [reflexivity|]. rewrite IHn, Z.eqb_refl. reflexivity. Qed.
Lemma rstrip_app_rep c l n : (l = [] \/ last l 0 <> c) -> rstrip c (l ++ repeat c n) = l.
Proof.
  induction l as [|x l IH]; intros H; cbn [app rstrip]; [apply rstrip_rep|].
  destruct H as [H|H]; [discriminate|].
  destruct l as [|y l].
  - cbn [app]. rewrite rstrip_rep. cbn [last] in H. destruct (Z.eqb_spec x c); [contradiction|reflexivity].
  - rewrite IH by (right; exact H). reflexivity.
Qed.

Lemma get_inv {A} (l : list A) i x : 0 <= i -> get l i = Ok x -> nth_error l (Z.to_nat i) = Some x.
Proof.
  intros Hi. unfold get. destruct (Z.ltb_spec i 0); [lia|]. destruct (Z.ltb_spec i 0); [lia|].
  destruct (nth_error l (Z.to_nat i)); congruence.
Qed.

Lemma slice_from_end {A} (a b : list A) i : 0 < zlen b -> i = - zlen b -> slice_from (a ++ b) i = b.
Proof.
  intros H ->. pose proof (zlen_nonneg a). unfold slice_from, slice. rewrite zlen_app. unfold clamp.
  destruct (Z.ltb_spec (- zlen b) 0); [|lia]. destruct (Z.ltb_spec (zlen a + zlen b) 0); [lia|].
  rewrite Z.max_r, Z.min_id by lia. rewrite skipn_app_exact by (unfold zlen in *; lia). apply firstn_all2. unfold zlen in *; lia.
Qed.
Lemma slice_to_end {A} (a b : list A) i : 0 < zlen b -> i = - zlen b -> slice_to (a ++ b) i = a.
Proof.
  intros H ->. pose proof (zlen_nonneg a). unfold slice_to, slice. rewrite zlen_app. rewrite (clamp_id _ 0) by lia. unfold clamp.
  destruct (Z.ltb_spec (- zlen b) 0); [|lia].
  rewrite Z.max_r by lia. change (Z.to_nat 0) with 0%nat. cbn [skipn]. apply firstn_app_exact. unfold zlen in *; lia.
Qed.

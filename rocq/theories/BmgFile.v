(** * Loading what BMG.save wrote *)
From Coq Require Import String.
From Verif Require Import PyBase PyLemmas PyTac AtLemmas BmgModel BmgSpec BmgText BmgScan.

(** ** Reading fields at an offset, either endianness *)
Lemma at_raw e n data i u : at_ data i u -> zlen u = Z.of_nat n -> unpack_e e n data i = Ok (dec e u).
Proof.
  intros A L. unfold unpack_e. apply at_split in A as (a & b & -> & <-). rewrite rd_skip by lia. rewrite rd_hit by (pose proof (zlen_nonneg a); lia). reflexivity.
Qed.
Lemma at_e e n v data i j : at_ data i (enc e n v) -> 0 <= v < 256 ^ Z.of_nat n -> j = i -> unpack_e e n data j = Ok v.
Proof. intros A V ->. rewrite (at_raw e n data i (enc e n v) A) by apply zlen_enc. rewrite dec_enc by exact V. reflexivity. Qed.
Lemma at_rd data i u n j : at_ data i u -> zlen u = n -> j = i -> rd data j n = Ok u.
Proof. intros A L ->. apply at_split in A as (a & b & -> & <-). rewrite rd_skip by (pose proof (zlen_nonneg u); lia). rewrite rd_hit by (pose proof (zlen_nonneg a); lia). reflexivity. Qed.
Lemma at_eq {A} (data : list A) i j x : at_ data i x -> i = j -> at_ data j x.
Proof. intros H <-. exact H. Qed.
Lemma at_sub {A} (data : list A) i n x j y : at_ data i (slice data i (i + n)) -> at_ (slice data i (i + n)) j x -> y = i + j -> zlen (slice data i (i + n)) = n -> at_ data y x.
Proof.
  intros H1 H2 -> L. apply at_split in H1 as (a & b & E & <-). set (u := slice data (zlen a) (zlen a + n)) in *. clearbody u. subst data. apply at_pre. apply at_ext. exact H2.
Qed.

(** ** Structure of pack results *)
Definition fields_bytes (e : endian) (fs : list (nat * Z)) : bytes := concat (map (fun f => enc e (fst f) (snd f)) fs).
Lemma pack_fields_inv e fs : forall b, pack_fields e fs = Ok b -> b = fields_bytes e fs /\ Forall (fun f => 0 <= snd f < 256 ^ Z.of_nat (fst f)) fs.
Proof.
  induction fs as [|[n v] r IH]; cbn [pack_fields]; intros b H; [inversion H; split; [reflexivity|constructor]|].
  apply bind_ok in H as (x & Hx & H). apply bind_ok in H as (y & Hy & H). inversion H; subst b. apply pack_e_inv in Hx as [R ->]. apply IH in Hy as [-> F].
  split; [reflexivity|]. constructor; assumption.
Qed.
Definition signed (n : nat) (v : Z) : Prop := - (256 ^ Z.of_nat n / 2) <= v < 256 ^ Z.of_nat n / 2.
Definition es (e : endian) (n : nat) (v : Z) : bytes := enc e n (v mod 256 ^ Z.of_nat n).
Lemma pack_es_inv e n v b : pack_es e n v = Ok b -> signed n v /\ b = es e n v.
Proof.
  unfold pack_es. destruct (_ && _) eqn:C; [|discriminate]. intros H. inversion H. split; [|reflexivity]. unfold signed. lia.
Qed.
Lemma zlen_es e n v : zlen (es e n v) = Z.of_nat n.
Proof. apply zlen_enc. Qed.
Lemma at_es e n v data i j : at_ data i (es e n v) -> (n = 1%nat \/ n = 2%nat) -> signed n v -> j = i -> unpack_es e n data j = Ok v.
Proof.
  intros A N S ->. unfold unpack_es, es, signed in *.
  destruct N as [-> | ->].
  - rewrite (at_e e 1 (v mod 256) data i i A) by (p256; try (apply Z.mod_pos_bound); lia). cbn [bind]. f_equal. unfold sign_of. p256. change (256 / 2) with 128 in *.
    destruct (Z.ltb_spec (v mod 256) 128); Z.to_euclidean_division_equations; lia.
  - rewrite (at_e e 2 (v mod 65536) data i i A) by (p256; try (apply Z.mod_pos_bound); lia). cbn [bind]. f_equal. unfold sign_of. p256. change (65536 / 2) with 32768 in *.
    destruct (Z.ltb_spec (v mod 65536) 32768); Z.to_euclidean_division_equations; lia.
Qed.
Lemma es_zero e n : es e n 0 = zeros (Z.of_nat n).
Proof.
  unfold es. rewrite Z.mod_0_l by (apply Z.pow_nonzero; lia). assert (L : forall k, le k 0 = zeros (Z.of_nat k)).
  { induction k as [|k IH]; [reflexivity|]. cbn [le]. rewrite Zmod_0_l, Zdiv_0_l, IH. unfold zeros, rep. rewrite !Nat2Z.id. reflexivity. }
  destruct e; cbn [enc]; [apply L|]. unfold be. rewrite L. unfold zeros, rep. rewrite Nat2Z.id. induction n as [|n IH]; [reflexivity|]. cbn [repeat rev]. rewrite IH.
  clear. induction n; [reflexivity|]. cbn [repeat app]. f_equal. exact IHn.
Qed.
Lemma zeros_app a b : 0 <= a -> 0 <= b -> zeros (a + b) = zeros a ++ zeros b.
Proof. intros H1 H2. unfold zeros, rep. rewrite Z2Nat.inj_add by lia. apply repeat_app. Qed.
Lemma zlen_zeros n : 0 <= n -> zlen (zeros n) = n.
Proof. intros H. unfold zeros, rep, zlen. rewrite repeat_length. lia. Qed.
Lemma concat_zeros (l : list bytes) k : 0 <= k -> Forall (fun x => x = zeros k) l -> concat l = zeros (zlen l * k).
Proof.
  intros K. induction 1 as [|x l -> F IH]; [reflexivity|]. cbn [concat]. rewrite IH, zlen_cons. pose proof (zlen_nonneg l). rewrite <- zeros_app by nia. f_equal. lia.
Qed.

(** ** The message table *)
Definition entry (e : endian) (p : Z * bytes) : bytes := enc e 4 (fst p) ++ snd p.
Definition placed (c : codec) (lo il : Z) (dat : bytes) (en : Z * bytes) (m : message) : Prop :=
  snd en = mInfo m /\ zlen (mInfo m) = il /\ 0 <= fst en < 256 ^ Z.of_nat 4 /\
  (if mNull m then fst en = 0 else lo <= fst en /\ exists b, message_save c m = Ok b /\ at_ dat (fst en) b).
Lemma Forall2_weaken {A B} (P Q : A -> B -> Prop) l k : (forall x y, P x y -> Q x y) -> Forall2 P l k -> Forall2 Q l k.
Proof. intros H. induction 1; constructor; auto. Qed.
Lemma placed_ext c lo lo' il dat x en m : lo' <= lo -> placed c lo il dat en m -> placed c lo' il (dat ++ x) en m.
Proof.
  intros L (H1 & H2 & H3 & H4). repeat split; try assumption; try apply H3. destruct (mNull m); [exact H4|]. destruct H4 as (H4 & b & H5 & H6). split; [lia|]. exists b. split; [exact H5|]. apply at_ext. exact H6.
Qed.
Lemma fold_messages c e il ms : forall inf0 dat0 inf dat, foldM (add_message c e il) (inf0, dat0) ms = Ok (inf, dat) ->
  exists ens x, inf = inf0 ++ concat (map (entry e) ens) /\ dat = dat0 ++ x /\ Forall2 (placed c (zlen dat0) il dat) ens ms.
Proof.
  induction ms as [|m ms IH]; intros inf0 dat0 inf dat H.
  - inversion H; subst. exists [], []. rewrite !app_nil_r. repeat split. constructor.
  - cbn [foldM] in H. apply bind_ok in H as ([inf1 dat1] & H1 & H). unfold add_message in H1. apply bind_ok in H1 as (g & G & H1). apply guard_ok in G. apply Z.eqb_eq in G.
    apply bind_ok in H1 as (o & Ho & H1). apply bind_ok in H1 as (b & Hb & H1). inversion H1; subst inf1 dat1. apply pack_e_inv in Ho as [Ro ->].
    destruct (IH _ _ _ _ H) as (ens & x & -> & -> & F). exists ((if mNull m then 0 else zlen dat0, mInfo m) :: ens), (b ++ x).
    split; [cbn [map concat]; unfold entry at 2; cbn [fst snd]; rewrite <- !app_assoc; reflexivity|]. split; [rewrite app_assoc; reflexivity|].
    constructor.
    + unfold placed. cbn [fst snd]. repeat split; try assumption; try apply Ro. destruct (mNull m); [reflexivity|]. split; [lia|]. exists b. split; [exact Hb|]. rewrite <- app_assoc. apply at_mid.
    + eapply Forall2_weaken; [|exact F]. intros en m' (P1 & P2 & P3 & P4). repeat split; try assumption; try apply P3. destruct (mNull m'); [exact P4|]. destruct P4 as [P4 P5]. split; [|exact P5]. rewrite zlen_app in P4. pose proof (zlen_nonneg b). lia.
Qed.

Lemma load_messages c nul esc dat dat' lo il ens ms : marks c nul esc -> at_ dat 0 nul -> 0 < lo ->
  (forall m s, In m ms -> In (Txt s) (join (mParts m)) -> mNull m = false -> framed c nul esc s) ->
  Forall2 (placed c lo il dat) ens ms -> mapM (load_message c nul esc (dat ++ dat')) ens = Ok (map loaded_message ms).
Proof.
  intros MK A0 LO FR. induction 1 as [|[o info] m ens ms (P1 & P2 & P3 & P4) F IH]; [reflexivity|]. cbn [mapM map fst snd] in *. subst info.
  assert (E : load_message c nul esc (dat ++ dat') (o, mInfo m) = Ok (loaded_message m)).
  { destruct (mNull m) eqn:NM.
    - subst o. unfold loaded_message. rewrite NM. apply load_null; [exact MK|]. apply at_ext. exact A0.
    - destruct P4 as (P4 & b & P5 & P6). apply (load_full c nul esc _ m b o MK NM P5); [|lia|apply at_ext; exact P6]. intros s Hs. apply (FR m s); [left; reflexivity|exact Hs|exact NM]. }
  rewrite E. cbn [bind]. rewrite IH; [reflexivity|]. intros m' s Hm. apply FR. right. exact Hm.
Qed.

(** ** The sections *)
Lemma map_table {A B} (read : Z -> B) (f : A -> B) (xs : list A) (s : Z) :
  (forall l1 x l2, xs = l1 ++ x :: l2 -> read (s + zlen l1) = f x) -> map read (range_z s (length xs)) = map f xs.
Proof.
  intros H. pose proof (mapM_table (fun i => Ok (read i)) f xs s) as T. assert (M : forall l, mapM (fun i => Ok (read i)) l = Ok (map read l)) by (intros l; apply mapM_map; reflexivity).
  rewrite M in T. assert (Ok (map read (range_z s (length xs))) = Ok (map f xs)) as E by (apply T; intros l1 x l2 E; rewrite (H l1 x l2 E); reflexivity). inversion E. reflexivity.
Qed.
Lemma fst_pair {A B} (p : A * B) : (fst p, snd p) = p.
Proof. destruct p; reflexivity. Qed.

Lemma parse_inf1_ok e data o st ens cnt il i rest :
  zlen ens = cnt -> 0 <= o -> 0 <= cnt < 65536 -> 0 <= 4 + il < 65536 -> 0 <= i < 4294967296 ->
  Forall (fun en : Z * bytes => zlen (snd en) = il /\ 0 <= fst en < 256 ^ Z.of_nat 4) ens ->
  at_ data (o + 8) (enc e 2 cnt) -> at_ data (o + 10) (enc e 2 (4 + il)) -> at_ data (o + 12) (enc e 4 i) ->
  at_ data (o + 16) (concat (map (entry e) ens) ++ rest) ->
  parse_inf1 e data o st = Ok (mkSections (sInf st ++ ens) (sDat st) (sInst st) (sLab st) (sScr st) i).
Proof.
  intros LE O RC RL RI F A1 A2 A3 A4. unfold parse_inf1.
  rewrite (at_e e 2 cnt data _ _ A1) by (p256; lia). cbn [bind]. rewrite (at_e e 2 (4 + il) data _ _ A2) by (p256; lia). cbn [bind]. rewrite (at_e e 4 i data _ _ A3) by (p256; lia). cbn [bind].
  apply at_app in A4 as [A4 _]. replace (Z.to_nat cnt) with (length ens) by (unfold zlen in LE; lia).
  rewrite (mapM_table _ (fun en : Z * bytes => en) ens 0).
  - cbn [bind]. rewrite map_id. reflexivity.
  - intros l1 en l2 E. rewrite E in A4, F.
    destruct (concat_at (entry e) (4 + il) l1 en l2) as (C1 & C2 & C3).
    { intros y Hy. rewrite Forall_forall in F. destruct (F y Hy) as [F1 _]. unfold entry. rewrite zlen_app, zlen_enc. lia. }
    rewrite C1 in A4. apply at_app in A4 as [_ A4]. apply at_app in A4 as [A4 _]. unfold entry in A4 at 2. apply at_app in A4 as [A5 A6]. rewrite C2 in A5, A6. rewrite zlen_enc in A6.
    apply Forall_app in F as [_ F]. inversion F as [|? ? [F1 F2] _]; subst.
    rewrite (at_e e 4 (fst en) data _ (o + 16 + (0 + zlen l1) * (4 + zlen (snd en))) A5) by (assumption || lia). cbn [bind].
    rewrite (at_slice data _ (snd en) (o + 16 + (0 + zlen l1) * (4 + zlen (snd en)) + (4 + zlen (snd en))) (at_eq _ _ (o + 16 + (0 + zlen l1) * (4 + zlen (snd en)) + 4) _ A6 ltac:(lia))) by lia. rewrite fst_pair. reflexivity.
Qed.

Lemma enc4_halves e x : 0 <= x < 4294967296 -> exists u v, enc e 4 x = u ++ v /\ zlen u = 2 /\ zlen v = 2 /\ dec e u = snd (loaded_script e (0, x)).
Proof.
  intros H. assert (S : le 4 x = le 2 x ++ le 2 (x / 65536)).
  { cbn [le app]. rewrite !Z.div_div by lia. reflexivity. }
  destruct e; cbn [enc loaded_script snd dec].
  - exists (le 2 x), (le 2 (x / 65536)). split; [exact S|]. split; [reflexivity|]. split; [reflexivity|]. exact (unle_le 2 x).
  - exists (rev (le 2 (x / 65536))), (rev (le 2 x)). unfold be. rewrite S, rev_app_distr. split; [reflexivity|]. split; [reflexivity|]. split; [reflexivity|].
    unfold unbe. rewrite rev_involutive. pose proof (unle_le 2 (x / 65536)) as U. rewrite U. change (256 ^ Z.of_nat 2) with 65536. apply Z.mod_small. Z.to_euclidean_division_equations. lia.
Qed.
Lemma parse_fli1_ok e data o st scr cnt :
  zlen scr = cnt -> 0 <= cnt < 65536 ->
  Forall (fun p : Z * Z => 0 <= fst p < 4294967296 /\ 0 <= snd p < 4294967296) scr ->
  at_ data (o + 8) (enc e 2 cnt) -> at_ data (o + 10) (enc e 2 8) -> at_ data (o + 12) (zeros 4) ->
  at_ data (o + 16) (concat (map (fun p => fields_bytes e [(4%nat, fst p); (4%nat, snd p)]) scr)) ->
  parse_fli1 e data o st = Ok (mkSections (sInf st) (sDat st) (sInst st) (sLab st) (sScr st ++ map (loaded_script e) scr) (sId st)).
Proof.
  intros LE RC F A1 A2 A3 A4. unfold parse_fli1.
  rewrite (at_e e 2 cnt data _ _ A1) by (p256; lia). cbn [bind]. rewrite (at_e e 2 8 data _ _ A2) by (p256; lia). cbn [bind]. rewrite (at_raw e 4 data _ _ A3) by reflexivity. cbn [bind].
  rewrite Z.eqb_refl. cbn [guard bind]. replace (Z.to_nat cnt) with (length scr) by (unfold zlen in LE; lia).
  rewrite (mapM_table _ (loaded_script e) scr 0); [reflexivity|].
  intros l1 p l2 E. rewrite E in A4, F.
  destruct (concat_at (fun p : Z * Z => fields_bytes e [(4%nat, fst p); (4%nat, snd p)]) 8 l1 p l2) as (C1 & C2 & C3).
  { intros y _. unfold fields_bytes. cbn [map concat fst snd]. rewrite !zlen_app, !zlen_enc. reflexivity. }
  rewrite C1 in A4. apply at_app in A4 as [_ A4]. apply at_app in A4 as [A4 _]. rewrite C2 in A4. unfold fields_bytes in A4. cbn [map concat fst snd] in A4.
  apply at_app in A4 as [A5 A6]. rewrite zlen_enc, app_nil_r in A6. apply Forall_app in F as [_ F]. inversion F as [|? ? [F1 F2] _]; subst.
  rewrite (at_e e 4 (fst p) data _ (o + 16 + (0 + zlen l1) * 8) A5) by (p256; lia). cbn [bind].
  destruct (enc4_halves e (snd p) F2) as (u & v & EU & LU & LV & DU). rewrite EU in A6. apply at_app in A6 as [A6 A7]. rewrite LU in A7.
  assert (A8 : at_ data (o + 16 + (0 + zlen l1) * 8 + 4) u) by (apply (at_eq _ _ _ _ A6); lia). rewrite (at_raw e 2 data (o + 16 + (0 + zlen l1) * 8 + 4) u A8 LU). cbn [bind].
  rewrite (at_rd data _ v 2 (o + 16 + (0 + zlen l1) * 8 + 6) A7) by lia. cbn [bind]. rewrite DU. reflexivity.
Qed.

Lemma forallb_zero_eq i : zlen i = 8 -> negb (beq i (zeros 8)) = nonzero_inst i.
Proof.
  intros L. unfold nonzero_inst. f_equal. rewrite <- L. unfold zeros, rep, zlen. rewrite Nat2Z.id. clear L.
  induction i as [|x i IH]; [reflexivity|]. cbn [length repeat forallb]. unfold beq in *. cbn [list_eqb]. rewrite IH, (Z.eqb_sym x 0). reflexivity.
Qed.
Lemma filter_app_none {A} (f : A -> bool) l k : Forall (fun x => f x = false) k -> filter f (l ++ k) = filter f l.
Proof. intros H. rewrite filter_app. induction H as [|x k E _ IH]; cbn [filter]; [apply app_nil_r|]. rewrite E. exact IH. Qed.

Lemma map_repeat_ {A B} (f : A -> B) x n : map f (repeat x n) = repeat (f x) n.
Proof. induction n as [|n IH]; [reflexivity|]. cbn [repeat map]. rewrite IH. reflexivity. Qed.
Definition inst_pad (l : list bytes) : list bytes := l ++ repeat (zeros 8) (Z.to_nat (zlen l mod 2)).
Definition label_pad (l : list (Z * Z)) : list (Z * Z) := l ++ repeat (0, 0) (Z.to_nat ((- zlen l) mod 8)).
Lemma Forall_repeat {A} (P : A -> Prop) x n : P x -> Forall P (repeat x n).
Proof. intros H. induction n; constructor; assumption. Qed.
Lemma inst_pad_bytes l : concat (inst_pad l) = concat l ++ zeros (8 * (zlen l mod 2)).
Proof.
  unfold inst_pad. rewrite concat_app. f_equal. rewrite (concat_zeros _ 8) by (lia || (apply Forall_repeat; reflexivity)). unfold zlen at 1. rewrite repeat_length. f_equal.
  pose proof (Z.mod_pos_bound (zlen l) 2 ltac:(lia)). lia.
Qed.
Lemma label_pad_ix e l : concat (map (fun p : Z * Z => es e 2 (snd p)) (label_pad l)) = concat (map (fun p : Z * Z => es e 2 (snd p)) l) ++ zeros (2 * ((- zlen l) mod 8)).
Proof.
  unfold label_pad. rewrite map_app, concat_app. f_equal. rewrite map_repeat_. cbn [snd]. rewrite es_zero. rewrite (concat_zeros _ 2) by (lia || (apply Forall_repeat; reflexivity)). unfold zlen at 1. rewrite repeat_length. f_equal.
  pose proof (Z.mod_pos_bound (- zlen l) 8 ltac:(lia)). lia.
Qed.
Lemma label_pad_id e l : concat (map (fun p : Z * Z => es e 1 (fst p)) (label_pad l)) = concat (map (fun p : Z * Z => es e 1 (fst p)) l) ++ zeros ((- zlen l) mod 8).
Proof.
  unfold label_pad. rewrite map_app, concat_app. f_equal. rewrite map_repeat_. cbn [fst]. rewrite es_zero. rewrite (concat_zeros _ 1) by (lia || (apply Forall_repeat; reflexivity)). unfold zlen at 1. rewrite repeat_length. f_equal.
  pose proof (Z.mod_pos_bound (- zlen l) 8 ltac:(lia)). lia.
Qed.
Lemma zlen_inst_pad l : zlen (inst_pad l) = zlen l + zlen l mod 2.
Proof. unfold inst_pad. rewrite zlen_app. unfold zlen at 2. rewrite repeat_length. pose proof (Z.mod_pos_bound (zlen l) 2 ltac:(lia)). lia. Qed.
Lemma zlen_label_pad l : zlen (label_pad l) = zlen l + (- zlen l) mod 8.
Proof. unfold label_pad. rewrite zlen_app. unfold zlen at 2. rewrite repeat_length. pose proof (Z.mod_pos_bound (- zlen l) 8 ltac:(lia)). lia. Qed.
Lemma filter_ext_in' {A} (f g : A -> bool) l : Forall (fun x => f x = g x) l -> filter f l = filter g l.
Proof. induction 1 as [|x l E _ IH]; [reflexivity|]. cbn [filter]. rewrite E, IH. reflexivity. Qed.

Lemma parse_flw1_ok e data o st insts labs ic lc rest :
  ic = zlen insts + zlen insts mod 2 -> lc = zlen labs + (- zlen labs) mod 8 -> ic < 65536 -> lc < 65536 ->
  Forall (fun i => zlen i = 8) insts -> Forall (fun p : Z * Z => signed 1 (fst p) /\ signed 2 (snd p)) labs ->
  at_ data (o + 8) (enc e 2 ic) -> at_ data (o + 10) (enc e 2 lc) -> at_ data (o + 12) (zeros 4) ->
  at_ data (o + 16) (concat (inst_pad insts) ++ concat (map (fun p : Z * Z => es e 2 (snd p)) (label_pad labs)) ++ concat (map (fun p : Z * Z => es e 1 (fst p)) (label_pad labs)) ++ rest) ->
  parse_flw1 e data o st = Ok (mkSections (sInf st) (sDat st) (sInst st ++ filter nonzero_inst insts) (sLab st ++ filter nonzero_label labs) (sScr st) (sId st)).
Proof.
  intros EI EL RI RL FI FL A1 A2 A3 A4. unfold parse_flw1.
  pose proof (Z.mod_pos_bound (zlen insts) 2 ltac:(lia)). pose proof (Z.mod_pos_bound (- zlen labs) 8 ltac:(lia)). pose proof (zlen_nonneg insts). pose proof (zlen_nonneg labs).
  rewrite (at_e e 2 ic data _ _ A1) by (p256; lia). cbn [bind]. rewrite (at_e e 2 lc data _ _ A2) by (p256; lia). cbn [bind]. rewrite (at_raw e 4 data _ _ A3) by reflexivity. cbn [bind].
  apply at_app in A4 as [A4 A5]. apply at_app in A5 as [A5 A6]. apply at_app in A6 as [A6 _].
  assert (FI' : Forall (fun i => zlen i = 8) (inst_pad insts)) by (apply Forall_app; split; [exact FI|apply Forall_repeat; reflexivity]).
  assert (L1 : zlen (concat (inst_pad insts)) = ic * 8).
  { rewrite EI, <- zlen_inst_pad. clear - FI'. induction FI' as [|x l E _ IH]; [reflexivity|]. cbn [concat]. rewrite zlen_app, zlen_cons. lia. }
  assert (L2 : zlen (concat (map (fun p : Z * Z => es e 2 (snd p)) (label_pad labs))) = lc * 2).
  { rewrite EL, <- zlen_label_pad. generalize (label_pad labs). clear. induction l as [|x l IH]; [reflexivity|]. cbn [map concat]. rewrite zlen_app, zlen_cons, zlen_es. lia. }
  rewrite L1 in A5, A6. rewrite L2 in A6.
  replace (Z.to_nat ic) with (length (inst_pad insts)) by (pose proof (zlen_inst_pad insts) as Q; unfold zlen in Q at 1; lia).
  replace (Z.to_nat lc) with (length (label_pad labs)) by (pose proof (zlen_label_pad labs) as Q; unfold zlen in Q at 1; lia).
  rewrite (map_table _ (fun i : bytes => i) (inst_pad insts) 0).
  2:{ intros l1 i l2 E. rewrite E in A4, FI'. destruct (concat_at (fun i : bytes => i) 8 l1 i l2) as (C1 & C2 & C3).
      { intros y Hy. rewrite Forall_forall in FI'. apply FI'. exact Hy. }
      rewrite !map_id in C1. rewrite C1 in A4. apply at_app in A4 as [_ A4]. apply at_app in A4 as [A4 _]. rewrite map_id in C2. rewrite C2 in A4.
      assert (A8 : at_ data (o + 16 + (0 + zlen l1) * 8) i) by (apply (at_eq _ _ _ _ A4); lia). apply (at_slice _ _ _ _ A8). lia. }
  assert (FL' : Forall (fun p : Z * Z => signed 1 (fst p) /\ signed 2 (snd p)) (label_pad labs)).
  { apply Forall_app; split; [exact FL|apply Forall_repeat]. unfold signed. cbn [fst snd]. p256. change (256 / 2) with 128. change (65536 / 2) with 32768. lia. }
  rewrite (mapM_table _ (fun p : Z * Z => p) (label_pad labs) 0).
  2:{ intros l1 p l2 E. rewrite E in A5, A6, FL'.
      destruct (concat_at (fun p : Z * Z => es e 2 (snd p)) 2 l1 p l2) as (C1 & C2 & C3); [intros; apply zlen_es|].
      destruct (concat_at (fun p : Z * Z => es e 1 (fst p)) 1 l1 p l2) as (D1 & D2 & D3); [intros; apply zlen_es|].
      rewrite C1 in A5. apply at_app in A5 as [_ A5]. apply at_app in A5 as [A5 _]. rewrite C2 in A5.
      rewrite D1 in A6. apply at_app in A6 as [_ A6]. apply at_app in A6 as [A6 _]. rewrite D2 in A6.
      apply Forall_app in FL' as [_ FL']. inversion FL' as [|? ? [F1 F2] _].
      rewrite (at_es e 2 (snd p) data _ (o + 16 + ic * 8 + (0 + zlen l1) * 2) A5) by (auto || lia). cbn [bind].
      rewrite (at_es e 1 (fst p) data _ (o + 16 + ic * 8 + lc * 2 + (0 + zlen l1)) A6) by (auto || lia). cbn [bind]. rewrite fst_pair. reflexivity. }
  cbn [bind]. rewrite !map_id. f_equal. f_equal.
  - f_equal. rewrite (filter_ext_in' _ nonzero_inst) by (eapply Forall_impl; [|exact FI']; intros i; apply forallb_zero_eq).
    unfold inst_pad. apply filter_app_none. apply Forall_repeat. reflexivity.
  - f_equal. rewrite (filter_ext_in' _ nonzero_label).
    + unfold label_pad. apply filter_app_none. apply Forall_repeat. reflexivity.
    + apply Forall_forall. intros p _. unfold nonzero_label. destruct (fst p =? 0), (snd p =? 0); reflexivity.
Qed.

(** ** The section loop *)
Lemma section_step k e data o st m L : at_ data o (m ++ enc e 4 L) -> zlen m = 4 -> 0 <= L < 4294967296 ->
  parse_sections (S k) e data o st =
    (st' <- (if beq m (asc "INF1") then parse_inf1 e data o st
             else if beq m (asc "DAT1") then Ok (parse_dat1 data o L st)
             else if beq m (asc "FLW1") then parse_flw1 e data o st
             else if beq m (asc "FLI1") then parse_fli1 e data o st
             else Err ValueError) ;; parse_sections k e data (o + L) st').
Proof.
  intros A LM RL. apply at_app in A as [A1 A2]. rewrite LM in A2. cbn [parse_sections]. rewrite (at_rd data o m 4 o A1 LM eq_refl). cbn [bind]. rewrite (at_e e 4 L data _ _ A2) by (p256; lia). reflexivity.
Qed.

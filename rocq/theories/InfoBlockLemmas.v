(** * Info block round trip *)
From Verif Require Import PyBase PyLemmas PyTac CommonModel.

Definition name_of (e : infoEntry) : bytes := match ieName e with Some n => n | None => [] end.
(** what the format can represent *)
Definition name_fits (e : infoEntry) : Prop :=
  zlen (name_of e) <= 16 /\ (name_of e = [] \/ last (name_of e) 0 <> 0).
Definition loaded (e : infoEntry) : infoEntry :=
  {| ieName := Some (name_of e); ieUnk00 := ieUnk00 e; ieUnk02 := ieUnk02 e; ieData := ieData e |}.

Definition unk_bytes (e : infoEntry) : bytes := le 2 (ieUnk00 e) ++ le 2 (ieUnk02 e).
Definition name_bytes (e : infoEntry) : bytes := name_of e ++ rep 0 (16 - zlen (name_of e)).
Definition u16 (v : Z) : Prop := 0 <= v < 65536.

Lemma saveInfoUnk_inv e b : saveInfoUnk e = Ok b -> (u16 (ieUnk00 e) /\ u16 (ieUnk02 e)) /\ b = unk_bytes e.
Proof.
  intros H. apply pack_us_inv in H as [F ->]. inversion F as [|? ? F1 F']; subst. inversion F' as [|? ? F2 _]; subst.
  cbn [fst snd] in *. p256. unfold u16. split; [lia|]. unfold les, unk_bytes. cbn [map concat fst snd]. rewrite app_nil_r. reflexivity.
Qed.
Lemma saveInfoData_inv each e b : saveInfoData each e = Ok b -> zlen (ieData e) = each /\ b = ieData e.
Proof. unfold saveInfoData. destruct (Z.eqb_spec (zlen (ieData e)) each); intros [= <-]; auto. Qed.
Lemma saveInfoName_inv e b : saveInfoName e = Ok b -> is_bytes (name_of e) /\ b = name_bytes e.
Proof.
  unfold saveInfoName, name_bytes, name_of, encode_latin1. destruct (ieName e) as [n|].
  - destruct (forallb byteb n) eqn:E; [|discriminate]. cbn [bind]. intros [= <-]. apply forallb_byteb in E. auto.
  - intros [= <-]. split; [constructor|reflexivity].
Qed.
Lemma saveInfo_shape entries each b : saveInfoBlock entries each = Ok b ->
  (zlen entries < 256 /\ 0 <= each < 65536 /\ 4 + zlen entries * each < 65536 /\
   Forall (fun e => u16 (ieUnk00 e) /\ u16 (ieUnk02 e)) entries /\ Forall (fun e => zlen (ieData e) = each) entries /\
   Forall (fun e => is_bytes (name_of e)) entries /\ zlen b < 65536) /\
  b = [0] ++ le 1 (zlen entries) ++ le 2 (zlen b) ++ le 2 8 ++ le 2 (12 + 4 * zlen entries) ++ le 4 0x17F ++
      concat (map unk_bytes entries) ++ le 2 each ++ le 2 (4 + zlen entries * each) ++
      concat (map ieData entries) ++ concat (map name_bytes entries).
Proof.
  unfold saveInfoBlock. intros H.
  apply bind_ok in H as (h & Hh & H). apply bind_ok in H as (u & Hu & H). apply bind_ok in H as (us & Hus & H).
  apply bind_ok in H as (eh & Heh & H). apply bind_ok in H as (es & Hes & H). apply bind_ok in H as (ns & Hns & H).
  cbv zeta in H. apply bind_ok in H as (sz & Hsz & H).
  apply pack_us_inv in Hh as [Fh ->]. apply pack_us_inv in Hu as [Fu ->]. apply pack_us_inv in Heh as [Feh ->].
  apply (mapM_inv _ _ _ _ _ saveInfoUnk_inv) in Hus as [Fus ->].
  apply (mapM_inv _ _ _ _ _ (saveInfoData_inv each)) in Hes as [Fes ->].
  apply (mapM_inv _ _ _ _ _ saveInfoName_inv) in Hns as [Fns ->].
  apply pack_u_inv in Hsz as [Rsz ->]. pose proof (put_zlen _ _ _ _ H) as HL.
  inversion Fh as [|? ? F1 _]; subst. inversion Feh as [|? ? F2 F3]; subst. inversion F3 as [|? ? F4 _]; subst. cbn [fst snd] in *. p256.
  split; [repeat split; try lia; assumption|].
  rewrite <- HL in H, Rsz. unfold les in H. cbn [map concat fst snd] in H. rewrite !app_nil_r, <- !app_assoc in H.
  replace (0 :: le 1 (zlen entries) ++ le 2 0) with ([0] ++ le 1 (zlen entries) ++ le 2 0) in H by reflexivity.
  rewrite <- !app_assoc in H. rewrite put_skip in H by zg. rewrite put_skip in H by zg. rewrite put_hit in H by zg. cbn [bind] in H.
  symmetry. assert (E : forall x y : bytes, Ok x = Ok y -> x = y) by congruence. apply E. rewrite <- H. reflexivity.
Qed.

Lemma zlen_name_bytes e : name_fits e -> zlen (name_bytes e) = 16.
Proof. intros [H _]. unfold name_bytes. rewrite zlen_app, zlen_rep by lia. lia. Qed.

Lemma loadInfo_roundtrip entries each b pre post exp :
  saveInfoBlock entries each = Ok b -> Forall name_fits entries -> exp = None \/ exp = Some each ->
  loadInfoBlock (pre ++ b ++ post) (zlen pre) exp = Ok (map loaded entries).
Proof.
  intros H Hn Hexp. apply saveInfo_shape in H as [(H1 & H2 & H3 & F1 & F2 & F3 & H4) E].
  pose proof (zlen_nonneg b) as Hsz. set (szb := zlen b) in *. clearbody szb. pose proof (zlen_nonneg entries) as P0.
  rewrite Forall_forall in F1, F2, F3, Hn.
  assert (LU : zlen (concat (map unk_bytes entries)) = zlen entries * 4) by (apply zlen_concat_map; intros; unfold unk_bytes; zg).
  assert (LD : zlen (concat (map ieData entries)) = zlen entries * each) by (apply zlen_concat_map; intros; apply F2; assumption).
  set (U := concat (map unk_bytes entries)) in *. set (D := concat (map ieData entries)) in *. set (N := concat (map name_bytes entries)) in *.
  rewrite E. rewrite <- !app_assoc. unfold loadInfoBlock. cbv zeta.
  rdalls.
  rewrite !Z.eqb_refl. cbn [guard bind]. rdalls.
  rewrite ?Z.eqb_refl.
  replace (match exp with Some x => each =? x | None => true end) with true by (destruct Hexp as [-> | ->]; [reflexivity|symmetry; apply Z.eqb_refl]).
  cbn [guard bind]. rewrite length_zlen. apply mapM_table. intros l1 x l2 Ex. cbn [Z.add].
  pose proof (zlen_nonneg l1).
  assert (Lx : zlen l1 < zlen entries) by (rewrite Ex; zg).
  assert (Inx : In x entries) by (rewrite Ex; apply in_or_app; right; left; reflexivity).
  destruct (F1 x Inx) as [U0 U2]. unfold u16 in U0, U2.
  destruct (concat_at unk_bytes 4 l1 x l2) as (EU & LU1 & LUx); [intros; unfold unk_bytes; zg|].
  destruct (concat_at ieData each l1 x l2) as (ED & LD1 & LDx); [intros; apply F2; rewrite Ex; assumption|].
  destruct (concat_at name_bytes 16 l1 x l2) as (EN & LN1 & LNx); [intros; apply zlen_name_bytes, Hn; rewrite Ex; assumption|].
  rewrite <- Ex in EU, ED, EN. change (U = concat (map unk_bytes l1) ++ unk_bytes x ++ concat (map unk_bytes l2)) in EU.
  change (D = concat (map ieData l1) ++ ieData x ++ concat (map ieData l2)) in ED.
  change (N = concat (map name_bytes l1) ++ name_bytes x ++ concat (map name_bytes l2)) in EN. clearbody U D N.
  unfold loadInfoEntry.
  match goal with |- context [unpack_u 2 ?d _] => set (DATA := d) end.
  match goal with |- context [unpack_u 2 DATA (?o + 2)] => set (o0 := o) end.
  match goal with |- context [slice _ ?i (?i + each)] => set (o1 := i) end.
  match goal with |- context [slice _ ?i (?i + 16)] => set (o2 := i) end.
  assert (R1 : unpack_u 2 DATA o0 = Ok (ieUnk00 x)).
  { unfold DATA, o0. rewrite EU. unfold unk_bytes at 2. rewrite <- !app_assoc. rdalls. reflexivity. }
  assert (R2 : unpack_u 2 DATA (o0 + 2) = Ok (ieUnk02 x)).
  { unfold DATA, o0. rewrite EU. unfold unk_bytes at 2. rewrite <- !app_assoc. rdalls. reflexivity. }
  assert (R3 : slice DATA o1 (o1 + each) = ieData x).
  { unfold DATA, o1. rewrite ED. rewrite <- !app_assoc. rdalls. reflexivity. }
  assert (R4 : slice DATA o2 (o2 + 16) = name_bytes x).
  { unfold DATA, o2. rewrite EN. rewrite <- !app_assoc. rdalls. reflexivity. }
  rewrite R1, R2, R3, R4. cbn [bind]. unfold name_bytes, rep, loaded. rewrite rstrip_app_rep by apply Hn, Inx. reflexivity.
Qed.

Lemma mapM_first_err {A B} (f : A -> res B) l e : mapM f l = Err e -> exists x, In x l /\ f x = Err e.
Proof.
  induction l as [|x l IH]; cbn [mapM]; [discriminate|]. intros H. destruct (f x) as [y|e'] eqn:E.
  - cbn [bind] in H. destruct (mapM f l); cbn [bind] in H; [discriminate|]. injection H as ->.
    destruct IH as (z & Hz & Ez); [reflexivity|]. exists z. split; [right; exact Hz|exact Ez].
  - cbn [bind] in H. injection H as ->. exists x. split; [left; reflexivity|exact E].
Qed.
(** saving succeeds exactly on representable blocks *)
Lemma saveInfo_ok entries each :
  zlen entries < 256 -> 0 <= each < 65536 -> 4 + zlen entries * each < 65536 ->
  Forall (fun e => u16 (ieUnk00 e) /\ u16 (ieUnk02 e) /\ zlen (ieData e) = each /\ is_bytes (name_of e) /\ zlen (name_of e) <= 16) entries ->
  16 + zlen entries * (20 + each) < 65536 ->
  exists b, saveInfoBlock entries each = Ok b /\ zlen b = 16 + zlen entries * (20 + each).
Proof.
  intros H1 H2 H3 F H4. rewrite Forall_forall in F. pose proof (zlen_nonneg entries) as P0.
  unfold saveInfoBlock. rewrite !pack_us_ok by (repeat constructor; cbn [fst snd]; p256; lia).
  cbn [bind].
  rewrite (mapM_map saveInfoUnk unk_bytes).
  2:{ intros e He. destruct (F e He) as (A & B & _). unfold saveInfoUnk, u16 in *. rewrite pack_us_ok by (repeat constructor; cbn [fst snd]; p256; lia).
      unfold les, unk_bytes. cbn [map concat fst snd]. rewrite app_nil_r. reflexivity. }
  cbn [bind]. rewrite ?pack_us_ok by (repeat constructor; cbn [fst snd]; p256; lia). cbn [bind].
  rewrite (mapM_map (saveInfoData each) ieData).
  2:{ intros e He. destruct (F e He) as (_ & _ & A & _). unfold saveInfoData. rewrite A, Z.eqb_refl. reflexivity. }
  cbn [bind]. rewrite (mapM_map saveInfoName name_bytes).
  2:{ intros e He. destruct (F e He) as (_ & _ & _ & A & _). unfold saveInfoName, name_bytes, name_of, encode_latin1 in *.
      destruct (ieName e); [|reflexivity]. apply forallb_byteb in A. rewrite A. reflexivity. }
  cbn [bind]. cbv zeta.
  assert (LU : zlen (concat (map unk_bytes entries)) = zlen entries * 4) by (apply zlen_concat_map; intros; unfold unk_bytes; zg).
  assert (LD : zlen (concat (map ieData entries)) = zlen entries * each) by (apply zlen_concat_map; intros; apply F; assumption).
  assert (LN : zlen (concat (map name_bytes entries)) = zlen entries * 16).
  { apply zlen_concat_map. intros e He. destruct (F e He) as (_ & _ & _ & _ & A). unfold name_bytes. rewrite zlen_app, zlen_rep by lia. lia. }
  set (U := concat (map unk_bytes entries)) in *. set (D := concat (map ieData entries)) in *. set (N := concat (map name_bytes entries)) in *.
  unfold les. cbn [map concat fst snd]. rewrite !app_nil_r, <- !app_assoc.
  match goal with |- context [put ?d 2 _] => assert (L : zlen d = 16 + zlen entries * (20 + each)) by zg; set (DATA := d) in * end.
  rewrite pack_u_ok by (p256; lia). cbn [bind].
  unfold DATA. replace (0 :: le 1 (zlen entries) ++ le 2 0) with ([0] ++ le 1 (zlen entries) ++ le 2 0) by reflexivity.
  rewrite <- !app_assoc. rewrite put_skip by zg. rewrite put_skip by zg. rewrite put_hit by zg. cbn [bind].
  eexists. split; [reflexivity|]. zg.
Qed.

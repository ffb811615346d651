From Coq Require Import String.
From Verif Require Import PyBase PyLemmas PyTac WaveModel.

(** ** the standard header *)
Definition std_bytes (m : bytes) (v s n : Z) : bytes := m ++ le 2 0xFEFF ++ le 2 v ++ le 4 s ++ le 2 0x10 ++ le 2 n.
Lemma std_pack_ok m v s n : 0 <= v < 65536 -> 0 <= s < 4294967296 -> 0 <= n < 65536 -> std_pack m v s n = Ok (std_bytes m v s n).
Proof. intros. unfold std_pack. do_pack. reflexivity. Qed.
Lemma std_pack_inv m v s n d : std_pack m v s n = Ok d -> 0 <= v < 65536 /\ 0 <= s < 4294967296 /\ 0 <= n < 65536 /\ d = std_bytes m v s n.
Proof.
  unfold std_pack. intros H. apply bind_ok in H as (r & Hr & H). inv_pack Hr. injection H as <-. repeat (split; [lia|]). reflexivity.
Qed.
Lemma zlen_std m v s n : zlen (std_bytes m v s n) = zlen m + 12.
Proof. unfold std_bytes. zg. Qed.
Lemma std_unpack_hit m v s n post : zlen m = 4 -> 0 <= v < 65536 -> 0 <= s < 4294967296 -> 0 <= n < 65536 ->
  std_unpack (std_bytes m v s n ++ post) = Ok {| hMagic := m; hBom := 0xFEFF; hVersion := v; hSize := s; hHeaderSize := 0x10; hBlocks := n |}.
Proof. intros Hm Hv Hs Hn. unfold std_unpack, std_bytes. rewrite <- !app_assoc. rdalls. reflexivity. Qed.
Lemma prefixb_app (a b : bytes) : prefixb a (a ++ b) = true.
Proof. induction a as [|x a IH]; [destruct b; reflexivity|]. cbn [app prefixb]. rewrite Z.eqb_refl, IH. reflexivity. Qed.

(** ** SWAV *)
Definition swav_ok (w : swav) : Prop :=
  0 <= wRate w < 65536 /\ 0 <= wTime w < 65536 /\ 0 <= wLoop w < 65536 /\ 0 <= wTotal w - wLoop w < 4294967296 /\
  zlen (wData w) + 0x24 < 4294967296.
Definition info_bytes (w : swav) : bytes :=
  le 1 (wt_val (wType w)) ++ le 1 (b2b (wLooped w)) ++ le 2 (wRate w) ++ le 2 (wTime w) ++ le 2 (wLoop w) ++ le 4 (wTotal w - wLoop w).
Definition swav_bytes (w : swav) : bytes :=
  std_bytes (asc "SWAV") 0x100 (0x24 + zlen (wData w)) 1 ++ asc "DATA" ++ le 4 (0x14 + zlen (wData w)) ++ info_bytes w ++ wData w.
Lemma zlen_info w : zlen (info_bytes w) = 12.
Proof. unfold info_bytes. zg. Qed.
Lemma wt_val_range t : 0 <= wt_val t < 3.
Proof. destruct t; cbn; lia. Qed.
Lemma wt_of_val t : wt_of (wt_val t) = Ok t.
Proof. destruct t; reflexivity. Qed.

Lemma swav_save0_ok w : swav_ok w -> swav_save0 w = Ok (swav_bytes w).
Proof.
  intros (H1 & H2 & H3 & H4 & H5). pose proof (zlen_nonneg (wData w)). pose proof (wt_val_range (wType w)) as HT.
  assert (HB : 0 <= b2b (wLooped w) < 2) by (destruct (wLooped w); cbn; lia). unfold swav_save0.
  replace (wTotal w <? wLoop w) with false by lia. cbn [negb guard bind]. rewrite std_pack_ok by lia. cbn [bind].
  rewrite pack_u_ok by (p256; lia). cbn [bind]. do_pack. cbn [bind]. unfold swav_bytes, info_bytes. rewrite <- !app_assoc. reflexivity.
Qed.
Lemma swav_save0_inv w d : swav_save0 w = Ok d -> swav_ok w /\ d = swav_bytes w.
Proof.
  intros H. assert (O : swav_ok w).
  { unfold swav_save0 in H. apply bind_ok in H as (? & G & H). apply guard_ok in G. apply bind_ok in H as (h & Hh & H). apply std_pack_inv in Hh as (_ & Hs & _).
    apply bind_ok in H as (s & _ & H). apply bind_ok in H as (i & Hi & H). inv_pack Hi. unfold swav_ok. lia. }
  split; [exact O|]. rewrite swav_save0_ok in H by exact O. congruence.
Qed.
Lemma swav_save0_loop w : wTotal w < wLoop w -> swav_save0 w = Err ValueError.
Proof. intros H. unfold swav_save0. replace (wTotal w <? wLoop w) with true by lia. reflexivity. Qed.

Lemma swav_info_hit w rest post : swav_ok w -> swav_info (info_bytes w ++ post) 0 rest =
  Ok {| wType := wType w; wLooped := wLooped w; wRate := wRate w; wTime := wTime w; wLoop := wLoop w; wTotal := wTotal w; wData := rest |}.
Proof.
  intros (H1 & H2 & H3 & H4 & H5). pose proof (wt_val_range (wType w)) as HT.
  assert (HB : 0 <= b2b (wLooped w) < 2) by (destruct (wLooped w); cbn; lia).
  unfold swav_info, info_bytes. rewrite <- !app_assoc. cbn [Z.add]. rdalls. rewrite wt_of_val. cbn [bind].
  f_equal. f_equal; [destruct (wLooped w); reflexivity|lia].
Qed.
Lemma swav_info_skip a b off rest : zlen a <= off -> swav_info (a ++ b) off rest = swav_info b (off - zlen a) rest.
Proof.
  intros H. unfold swav_info. pose proof (zlen_nonneg a).
  rewrite !(unpack_u_skip _ a b) by lia.
  replace (off + 1 - zlen a) with (off - zlen a + 1) by lia. replace (off + 2 - zlen a) with (off - zlen a + 2) by lia.
  replace (off + 4 - zlen a) with (off - zlen a + 4) by lia. replace (off + 6 - zlen a) with (off - zlen a + 6) by lia.
  replace (off + 8 - zlen a) with (off - zlen a + 8) by lia. reflexivity.
Qed.
Lemma swav_roundtrip w post : swav_ok w -> exists d, swav_save0 w = Ok d /\ zlen d = 0x24 + zlen (wData w) /\ swav_load (d ++ post) = Ok w.
Proof.
  intros O. exists (swav_bytes w). split; [apply swav_save0_ok, O|]. split.
  { unfold swav_bytes. rewrite !zlen_app, zlen_std, zlen_info, zlen_le. change (zlen (asc "SWAV")) with 4. change (zlen (asc "DATA")) with 4. lia. }
  pose proof O as (H1 & H2 & H3 & H4 & H5). pose proof (zlen_nonneg (wData w)) as P. pose proof (zlen_nonneg post) as P'.
  unfold swav_load, swav_bytes. rewrite <- !app_assoc.
  replace (prefixb (asc "SWAV") _) with true by (unfold std_bytes; rewrite <- !app_assoc, prefixb_app; reflexivity). cbn [guard bind].
  rewrite std_unpack_hit by (reflexivity || lia). cbn [bind hVersion hMagic hSize]. rewrite beq_refl. cbn [Z.eqb Pos.eqb guard bind].
  pose proof (zlen_std (asc "SWAV") 0x100 (0x24 + zlen (wData w)) 1) as LS. change (zlen (asc "SWAV") + 12) with 16 in LS.
  set (S := std_bytes _ _ _ _) in *. clearbody S.
  rewrite rd_skip by lia. rewrite unpack_u_skip by lia. rewrite LS. pose proof (eq_refl : zlen (asc "DATA") = 4) as LD. rewrite rd_hit by reflexivity. cbn [bind].
  rewrite unpack_u_skip by lia. rewrite unpack_u_hit by (p256; lia). cbn [bind]. rewrite beq_refl. cbn [guard bind].
  pose proof (zlen_info w) as LI. rewrite !swav_info_skip by (rewrite ?zlen_le; lia). rewrite zlen_le, LS, LD. 
  match goal with |- swav_info _ ?o _ = _ => replace o with 0 by lia end.
  rewrite swav_info_hit by exact O. f_equal. destruct w as [a1 a2 a3 a4 a5 a6 a7]. cbn [wType wLooped wRate wTime wLoop wTotal wData] in *. f_equal.
  rewrite slice_skip by lia. rewrite slice_skip by lia. rewrite slice_skip by (rewrite zlen_le; lia). rewrite slice_skip by (rewrite zlen_le; lia). rewrite zlen_le, LS, LD, LI.
  rewrite slice_hit by lia. reflexivity.
Qed.

(** everything that loads can be saved again, to something that loads as the same object *)
Lemma zlen_slice_max {A} (l : list A) i j : 0 <= i -> 0 <= j -> zlen (slice l i j) <= Z.max 0 (j - i).
Proof.
  intros. unfold slice, clamp. rewrite zlen_firstn. replace (i <? 0) with false by lia. replace (j <? 0) with false by lia.
  generalize (zlen (skipn (Z.to_nat (Z.min i (zlen l))) l)) (zlen l). intros. lia.
Qed.
Lemma wt_of_inv v t : wt_of v = Ok t -> v = wt_val t.
Proof. unfold wt_of. destruct (Z.eqb_spec v 0), (Z.eqb_spec v 1), (Z.eqb_spec v 2); intros [= <-]; assumption. Qed.
Lemma swav_info_ok d off rest w : is_bytes d -> swav_info d off rest = Ok w -> zlen rest + 0x24 < 4294967296 -> swav_ok w /\ wData w = rest.
Proof.
  intros B H L. unfold swav_info in H.
  apply bind_ok in H as (v1 & E1 & H). apply bind_ok in H as (v2 & E2 & H). apply bind_ok in H as (v3 & E3 & H). apply bind_ok in H as (v4 & E4 & H).
  apply bind_ok in H as (v5 & E5 & H). apply bind_ok in H as (v6 & E6 & H). apply bind_ok in H as (v7 & E7 & H). injection H as <-.
  apply unpack_u_range in E3; [|assumption]. apply unpack_u_range in E4; [|assumption]. apply unpack_u_range in E5; [|assumption]. apply unpack_u_range in E6; [|assumption].
  p256. unfold swav_ok. cbn [wRate wTime wLoop wTotal wData]. repeat split; lia.
Qed.
Lemma std_size_range d h : is_bytes d -> std_unpack d = Ok h -> 0 <= hSize h < 4294967296.
Proof.
  intros B H. unfold std_unpack in H. apply bind_ok in H as (v1 & E1 & H). apply bind_ok in H as (v2 & E2 & H). apply bind_ok in H as (v3 & E3 & H).
  apply bind_ok in H as (v4 & E4 & H). apply bind_ok in H as (v5 & E5 & H). apply bind_ok in H as (v6 & E6 & H). injection H as <-. cbn [hSize].
  apply unpack_u_range in E4; [|assumption]. p256. lia.
Qed.
Lemma swav_load_ok d w : is_bytes d -> swav_load d = Ok w -> swav_ok w.
Proof.
  intros B H. unfold swav_load in H. apply bind_ok in H as (? & _ & H). apply bind_ok in H as (h & Hh & H). apply bind_ok in H as (? & _ & H). apply bind_ok in H as (? & _ & H).
  apply bind_ok in H as (? & _ & H). apply bind_ok in H as (? & _ & H). apply bind_ok in H as (? & _ & H).
  apply std_size_range in Hh; [|assumption]. apply swav_info_ok in H; [apply H|assumption|].
  pose proof (zlen_slice_max d 0x24 (hSize h)). lia.
Qed.

(** ** SWAR *)
Definition chunk (w : swav) : bytes := info_bytes w ++ wData w.
Fixpoint offs (base : Z) (l : list swav) : list Z :=
  match l with [] => [] | w :: r => base :: offs (base + 12 + zlen (wData w)) r end.
Definition chunks_len (l : list swav) : Z := zlen (concat (map chunk l)).
Lemma zlen_chunk w : zlen (chunk w) = 12 + zlen (wData w).
Proof. unfold chunk. rewrite zlen_app, zlen_info. reflexivity. Qed.
Lemma chunks_len_cons w l : chunks_len (w :: l) = 12 + zlen (wData w) + chunks_len l.
Proof. unfold chunks_len. cbn [map concat]. rewrite zlen_app, zlen_chunk. lia. Qed.
Lemma chunks_len_app a b : chunks_len (a ++ b) = chunks_len a + chunks_len b.
Proof. unfold chunks_len. rewrite map_app, concat_app, zlen_app. reflexivity. Qed.
Lemma chunks_len_nonneg l : 0 <= chunks_len l.
Proof. apply zlen_nonneg. Qed.
Lemma zlen_offs base l : zlen (offs base l) = zlen l.
Proof. revert base; induction l as [|w l IH]; intros base; cbn [offs]; [reflexivity|]. rewrite !zlen_cons, IH. reflexivity. Qed.
Lemma offs_app base a b : offs base (a ++ b) = offs base a ++ offs (base + chunks_len a) b.
Proof.
  revert base; induction a as [|w a IH]; intros base; cbn [app offs].
  - change (chunks_len []) with 0. rewrite Z.add_0_r. reflexivity.
  - rewrite IH, chunks_len_cons. f_equal. f_equal. f_equal. lia.
Qed.
Lemma offs_range base l v : In v (offs base l) -> base <= v <= base + chunks_len l.
Proof.
  revert base; induction l as [|w l IH]; intros base H; cbn [offs In] in H; [contradiction|]. rewrite chunks_len_cons.
  pose proof (zlen_nonneg (wData w)). pose proof (chunks_len_nonneg l). destruct H as [<-|H]; [lia|]. apply IH in H. lia.
Qed.
Lemma slice_from_skip {A} (a b : list A) i : i = zlen a -> slice_from (a ++ b) i = b.
Proof.
  intros ->. pose proof (zlen_nonneg a). pose proof (zlen_nonneg b). unfold slice_from. rewrite zlen_app, slice_skip by lia.
  rewrite Z.sub_diag. replace (zlen a + zlen b - zlen a) with (zlen b) by lia. apply slice_all.
Qed.
Lemma zlen_offsets base l : zlen (concat (map (le 4) (offs base l))) = zlen l * 4.
Proof. rewrite <- (zlen_offs base l). apply zlen_concat_map. intros. apply zlen_le. Qed.
Lemma swav_chop w : slice_from (swav_bytes w) 0x18 = chunk w.
Proof.
  unfold swav_bytes. rewrite !app_assoc. rewrite <- (app_assoc _ (info_bytes w)). apply slice_from_skip.
  rewrite !zlen_app, zlen_std, zlen_le. reflexivity.
Qed.
Lemma swar_fold base ws : Forall swav_ok ws -> forall o t,
  foldM (swar_addWave base) (o, t) ws = Ok (o ++ offs (base + zlen t) ws, t ++ concat (map chunk ws)).
Proof.
  induction 1 as [|w ws Hw _ IH]; intros o t; cbn [foldM offs map concat]; [rewrite !app_nil_r; reflexivity|].
  unfold swar_addWave at 1. rewrite swav_save0_ok by exact Hw. cbn [bind]. rewrite IH, swav_chop, zlen_app, zlen_chunk, <- !app_assoc.
  cbn [app]. f_equal. f_equal. f_equal. f_equal. f_equal. lia.
Qed.
Definition swar_ok (r : swar) : Prop := Forall swav_ok (rWaves r) /\ 0x3C + 4 * zlen (rWaves r) + chunks_len (rWaves r) < 4294967296.
Lemma swar_fileLen ws : fold_right Z.add 0 (map (fun s => 4 + 0xC + zlen (wData s)) ws) = 4 * zlen ws + chunks_len ws.
Proof.
  induction ws as [|w ws IH]; [reflexivity|]. cbn [map fold_right]. rewrite IH, zlen_cons, chunks_len_cons. lia.
Qed.
Definition swar_bytes (ws : list swav) : bytes :=
  let base := 0x3C + 4 * zlen ws in let len := base + chunks_len ws in
  std_bytes (asc "SWAR") 0x100 len 1 ++ asc "DATA" ++ le 4 (len - 0x10) ++ zeros 32 ++ le 4 (zlen ws) ++
  concat (map (le 4) (offs base ws)) ++ concat (map chunk ws).
Lemma les_map l : les (map (fun v => (4%nat, v)) l) = concat (map (le 4) l).
Proof. unfold les. rewrite map_map. reflexivity. Qed.
Lemma swar_save_ok r : swar_ok r -> swar_save r = Ok (swar_bytes (rWaves r), rUnk02 r).
Proof.
  intros [F L]. pose proof (zlen_nonneg (rWaves r)) as P. pose proof (chunks_len_nonneg (rWaves r)) as P'.
  unfold swar_save. cbv zeta. rewrite swar_fileLen. rewrite std_pack_ok by lia. cbn [bind]. rewrite !pack_u_ok by (p256; lia). cbn [bind].
  rewrite swar_fold by exact F. cbn [bind]. change (zlen (@nil Z)) with 0. rewrite Z.add_0_r. cbn [app].
  rewrite pack_us_ok, les_map; [|apply Forall_map, Forall_forall; intros v Hv; apply offs_range in Hv; cbn [fst snd]; p256; lia]. cbn [bind].
  unfold swar_bytes. cbv zeta. rewrite <- !app_assoc. replace (60 + (4 * zlen (rWaves r) + chunks_len (rWaves r))) with (60 + 4 * zlen (rWaves r) + chunks_len (rWaves r)) by lia.
  reflexivity.
Qed.
Lemma swar_fold_inv base ws : forall st st', foldM (swar_addWave base) st ws = Ok st' -> Forall swav_ok ws.
Proof.
  induction ws as [|w ws IH]; intros [o t] st' H; [constructor|]. cbn [foldM] in H. apply bind_ok in H as (st1 & H1 & H). constructor; [|exact (IH _ _ H)].
  unfold swar_addWave in H1. apply bind_ok in H1 as (d & D & _). exact (proj1 (swav_save0_inv w d D)).
Qed.
Lemma swar_save_inv r d u : swar_save r = Ok (d, u) -> swar_ok r.
Proof.
  intros H. unfold swar_save in H. cbv zeta in H. rewrite swar_fileLen in H. apply bind_ok in H as (h & Hh & H). apply std_pack_inv in Hh as (_ & Hs & _).
  apply bind_ok in H as (x & _ & H). apply bind_ok in H as (x' & _ & H). apply bind_ok in H as ((o & t) & F & _). split; [exact (swar_fold_inv _ _ _ _ F)|lia].
Qed.
Lemma swar_roundtrip r post : swar_ok r -> exists d, swar_save r = Ok (d, rUnk02 r) /\ swar_load (d ++ post) (rUnk02 r) = Ok r.
Proof.
  intros O. exists (swar_bytes (rWaves r)). split; [apply swar_save_ok, O|]. destruct r as [ws u]. cbn [rWaves rUnk02] in *. destruct O as [F L]. cbn [rWaves] in *.
  pose proof (zlen_nonneg ws) as P. pose proof (chunks_len_nonneg ws) as P'. unfold swar_load, swar_bytes. cbv zeta. rewrite <- !app_assoc.
  set (base := 0x3C + 4 * zlen ws) in *. set (len := base + chunks_len ws) in *.
  replace (prefixb (asc "SWAR") _) with true by (unfold std_bytes; rewrite <- !app_assoc, prefixb_app; reflexivity). cbn [guard bind].
  rewrite std_unpack_hit by (reflexivity || lia). cbn [bind hVersion hMagic hSize]. rewrite beq_refl. cbn [Z.eqb Pos.eqb guard bind].
  pose proof (zlen_std (asc "SWAR") 0x100 len 1) as LS. change (zlen (asc "SWAR") + 12) with 16 in LS.
  set (S := std_bytes _ _ _ _) in *. clearbody S. pose proof (eq_refl : zlen (asc "DATA") = 4) as LD. set (DA := asc "DATA") in *.
  set (O := concat (map (le 4) (offs base ws))). set (T := concat (map chunk ws)).
  assert (LO : zlen O = 4 * zlen ws).
  { unfold O. rewrite zlen_offsets. lia. }
  assert (LT : zlen T = chunks_len ws) by reflexivity.
  rewrite rd_skip by lia. rewrite LS, rd_hit by lia. cbn [bind].
  rewrite (unpack_u_skip 4 S) by lia. rewrite (unpack_u_skip 4 DA) by lia. rewrite LS, LD. rewrite unpack_u_hit by (p256; lia). cbn [bind].
  rewrite (unpack_u_skip 4 S) by lia. rewrite (unpack_u_skip 4 DA) by lia. rewrite (unpack_u_skip 4 (le 4 _)) by (rewrite zlen_le; lia). rewrite (unpack_u_skip 4 (zeros 32)) by (rewrite zlen_le, LS, LD; unfold zeros; rewrite zlen_rep; lia).
  rewrite unpack_u_hit; [|rewrite zlen_le, LS, LD; reflexivity|p256; lia]. cbn [bind]. rewrite beq_refl. cbn [guard bind].
  rewrite length_zlen. set (PR := S ++ DA ++ le 4 (len - 0x10) ++ zeros 32 ++ le 4 (zlen ws)).
  assert (LP : zlen PR = 0x3C) by (unfold PR; rewrite !zlen_app, !zlen_le, LS, LD; reflexivity).
  replace (S ++ DA ++ le 4 (len - 16) ++ zeros 32 ++ le 4 (zlen ws) ++ O ++ T ++ post) with (PR ++ O ++ T ++ post) by (unfold PR; rewrite <- !app_assoc; reflexivity).
  clearbody PR. rewrite (mapM_table _ (fun w => w) ws); [rewrite map_id; reflexivity|].
  intros l1 x l2 Ex. rewrite Z.add_0_l. pose proof (zlen_nonneg l1) as P1. pose proof (zlen_nonneg l2) as P2.
  assert (Lw : zlen ws = zlen l1 + 1 + zlen l2) by (rewrite Ex, zlen_app, zlen_cons; lia).
  assert (EO : O = concat (map (le 4) (offs base l1)) ++ le 4 (base + chunks_len l1) ++ concat (map (le 4) (offs (base + chunks_len l1 + 12 + zlen (wData x)) l2))).
  { unfold O. rewrite Ex, offs_app, map_app, concat_app. reflexivity. }
  assert (ET : T = concat (map chunk l1) ++ chunk x ++ concat (map chunk l2)).
  { unfold T. rewrite Ex, map_app, concat_app. reflexivity. }
  assert (L1 : zlen (concat (map (le 4) (offs base l1))) = 4 * zlen l1).
  { rewrite zlen_offsets. lia. }
  assert (Lc : chunks_len ws = chunks_len l1 + (12 + zlen (wData x)) + chunks_len l2) by (rewrite Ex, chunks_len_app, chunks_len_cons; lia).
  pose proof (chunks_len_nonneg l1) as C1. pose proof (chunks_len_nonneg l2) as C2. pose proof (zlen_nonneg (wData x)) as CX.
  assert (Hx : swav_ok x) by (rewrite Forall_forall in F; apply F; rewrite Ex; apply in_or_app; right; left; reflexivity).
  unfold swar_loadWave. rewrite (unpack_u_skip 4 PR) by lia. rewrite LP.
  replace (unpack_u 4 (O ++ T ++ post) (60 + 4 * zlen l1 - 60)) with (Ok (base + chunks_len l1)).
  2:{ symmetry. rewrite EO, <- !app_assoc. rewrite unpack_u_skip by lia. apply unpack_u_hit; [lia|p256; lia]. }
  cbn [bind].
  assert (NX : exists nx, unpack_u 4 (PR ++ O ++ T ++ post) (60 + 4 * zlen l1 + 4) = Ok nx /\ (l2 <> [] -> nx = base + chunks_len l1 + 12 + zlen (wData x))).
  { destruct l2 as [|y l2].
    - destruct (unpack_u_some 4 (PR ++ O ++ T ++ post) (60 + 4 * zlen l1 + 4)) as [nx NX]; [lia|rewrite !zlen_app, LP, LO, LT; pose proof (zlen_nonneg post); lia|].
      exists nx. split; [exact NX|congruence].
    - exists (base + chunks_len l1 + 12 + zlen (wData x)). split; [|reflexivity]. rewrite (unpack_u_skip 4 PR) by lia. rewrite LP, EO, <- !app_assoc.
      rewrite unpack_u_skip by lia. rewrite unpack_u_skip by (rewrite zlen_le; lia). rewrite zlen_le. cbn [offs map concat]. rewrite <- !app_assoc. apply unpack_u_hit; [lia|].
      p256. rewrite zlen_cons in *. lia. }
  destruct NX as (nx & -> & NX). cbn [bind].
  replace (if zlen l1 =? zlen ws - 1 then len else nx) with (base + chunks_len l1 + 12 + zlen (wData x)).
  2:{ destruct l2 as [|y l2].
      - change (zlen (@nil swav)) with 0 in Lw. change (chunks_len []) with 0 in Lc. replace (zlen l1 =? zlen ws - 1) with true by lia. unfold len. lia.
      - rewrite zlen_cons in Lw. pose proof (zlen_nonneg l2). replace (zlen l1 =? zlen ws - 1) with false by lia. symmetry. apply NX. discriminate. }
  assert (SL : slice (PR ++ O ++ T ++ post) (base + chunks_len l1) (base + chunks_len l1 + 12 + zlen (wData x)) = chunk x).
  { rewrite slice_skip by lia. rewrite slice_skip by lia. rewrite LP, LO, ET, <- !app_assoc. unfold chunks_len in *. rewrite slice_skip by lia.
    apply slice_hit; [lia|rewrite zlen_chunk; lia]. }
  cbv zeta. rewrite SL. unfold chunk at 1. rewrite swav_info_hit by exact Hx.
  f_equal. unfold chunk. rewrite slice_from_skip by (rewrite zlen_info; reflexivity). destruct x; reflexivity.
Qed.

(** ** STRM *)
(** all channels have [nb] blocks; the last ones have [il] bytes, the others [pb] *)
Definition blocks_ok (nb pb il : Z) (chans : list (list bytes)) : Prop :=
  forall c, In c chans -> zlen c = nb /\
    forall j b, nth_error c j = Some b -> zlen b = if Z.of_nat j =? nb - 1 then il else pb.

Lemma last_nth_error {A} (l : list A) d x : nth_error l (length l - 1) = Some x -> last l d = x.
Proof.
  induction l as [|y l IH]; [discriminate|]. destruct l as [|z l]; [cbn; congruence|].
  intros H. change (last (y :: z :: l) d) with (last (z :: l) d). apply IH. cbn [length] in *. replace (S (S (length l)) - 1)%nat with (S (S (length l) - 1)) in H by lia. exact H.
Qed.
Lemma nth_error_firstn_ {A} n i (l : list A) : (i < n)%nat -> nth_error (firstn n l) i = nth_error l i.
Proof. revert i l; induction n as [|n IH]; intros i l H; [lia|]. destruct l as [|x l]; [destruct i; reflexivity|]. destruct i as [|i]; cbn; [reflexivity|]. apply IH. lia. Qed.
Lemma slice_to_m1 {A} (l : list A) : slice_to l (-1) = firstn (length l - 1) l.
Proof.
  unfold slice_to, slice, clamp. cbn [Z.ltb Z.compare]. change (Z.min 0 (zlen l)) with (Z.min 0 (zlen l)). pose proof (zlen_nonneg l). rewrite Z.min_l by lia.
  cbn [Z.to_nat skipn]. f_equal. unfold zlen. lia.
Qed.
Lemma check_channel_spec pb il c : 0 < zlen c -> check_channel pb il c = true <->
  (forall j b, nth_error c j = Some b -> zlen b = if Z.of_nat j =? zlen c - 1 then il else pb).
Proof.
  intros P. unfold check_channel. rewrite slice_to_m1, andb_true_iff, forallb_forall.
  assert (exists x, nth_error c (length c - 1) = Some x) as [x Hx].
  { destruct (nth_error c (length c - 1)) eqn:E; [eexists; reflexivity|]. apply nth_error_None in E. unfold zlen in P. lia. }
  rewrite (last_nth_error c [] x Hx). split.
  - intros [H1 H2] j b Hj. destruct (Z.eqb_spec (Z.of_nat j) (zlen c - 1)) as [E|E].
    + replace j with (length c - 1)%nat in Hj by (unfold zlen in E; lia). assert (b = x) as -> by congruence. lia.
    + assert (LJ : (j < length c)%nat) by (apply nth_error_Some; congruence). specialize (H1 b). rewrite Z.eqb_eq in H1. apply H1.
      apply nth_error_In with j. rewrite nth_error_firstn_ by (unfold zlen in E; lia). exact Hj.
  - intros H. split.
    + intros b Hb. apply In_nth_error in Hb as [j Hj]. assert (LJ : (j < length (firstn (length c - 1) c))%nat) by (apply nth_error_Some; congruence).
      rewrite firstn_length in LJ. rewrite nth_error_firstn_ in Hj by lia. specialize (H j b Hj). replace (Z.of_nat j =? zlen c - 1) with false in H by (unfold zlen; lia). lia.
    + specialize (H _ _ Hx). replace (Z.of_nat (length c - 1) =? zlen c - 1) with true in H by (unfold zlen in *; lia). lia.
Qed.
Lemma strm_sizes_inv chans nb pb il : strm_sizes chans = Ok (nb, pb, il) -> 0 <= nb /\ blocks_ok nb pb il chans.
Proof.
  unfold strm_sizes. destruct chans as [|c0 cs]; [intros [= <- <- <-]; split; [lia|intros c []]|].
  intros H. apply bind_ok in H as (? & G & H). apply guard_ok in G. rewrite forallb_forall in G. pose proof (zlen_nonneg c0) as P.
  destruct (Z.ltb_spec 0 (zlen c0)) as [E|E].
  - apply bind_ok in H as (? & G2 & H). apply guard_ok in G2. rewrite forallb_forall in G2. injection H as <- <- <-. split; [exact P|].
    intros c Hc. specialize (G c Hc). specialize (G2 c Hc). apply Z.eqb_eq in G. split; [exact G|]. rewrite <- G. apply check_channel_spec; [lia|assumption].
  - injection H as <- <- <-. split; [exact P|]. intros c Hc. specialize (G c Hc). apply Z.eqb_eq in G. split; [exact G|]. intros j b Hj.
    assert (LJ : (j < length c)%nat) by (apply nth_error_Some; congruence). unfold zlen in *. lia.
Qed.
Lemma strm_sizes_ok chans nb pb il : blocks_ok nb pb il chans -> chans <> [] -> 0 < nb ->
  strm_sizes chans = Ok (nb, if nb =? 1 then il else pb, il).
Proof.
  intros B N P. destruct chans as [|c0 cs]; [congruence|]. unfold strm_sizes. destruct (B c0 (or_introl eq_refl)) as [L0 B0].
  rewrite (proj2 (forallb_forall _ _)); [|intros c Hc; destruct (B c Hc); lia]. cbn [guard bind]. rewrite L0. replace (0 <? nb) with true by lia.
  assert (H0 : zlen (hd [] c0) = if nb =? 1 then il else pb).
  { destruct c0 as [|b0 c0]; [change (zlen (@nil bytes)) with 0 in L0; lia|]. cbn [hd]. rewrite (B0 0%nat b0 eq_refl). replace (Z.of_nat 0 =? nb - 1) with (nb =? 1) by lia. reflexivity. }
  assert (H1 : zlen (last c0 []) = il).
  { destruct (nth_error c0 (length c0 - 1)) as [x|] eqn:E; [|apply nth_error_None in E; unfold zlen in *; lia].
    rewrite (last_nth_error _ _ _ E). rewrite (B0 _ _ E). replace (Z.of_nat (length c0 - 1) =? nb - 1) with true by (unfold zlen in *; lia). reflexivity. }
  rewrite H0, H1. rewrite (proj2 (forallb_forall _ _)); [reflexivity|]. intros c Hc. destruct (B c Hc) as [L Bc]. apply check_channel_spec; [lia|].
  intros j b Hj. rewrite (Bc j b Hj), L. destruct (Z.of_nat j =? nb - 1) eqn:Ej; [reflexivity|]. destruct (nb =? 1) eqn:En; [|reflexivity].
  assert (LJ : (j < length c)%nat) by (apply nth_error_Some; congruence). unfold zlen in *. lia.
Qed.
(** inconsistent sizes *)
Lemma strm_sizes_bad chans : (forall nb pb il, ~ blocks_ok nb pb il chans) -> strm_sizes chans = Err ValueError.
Proof.
  intros N. destruct (strm_sizes chans) as [[[nb pb] il]|e] eqn:E.
  - apply strm_sizes_inv in E as [_ B]. exfalso. exact (N _ _ _ B).
  - unfold strm_sizes in E. destruct chans as [|c0 cs]; [discriminate|]. destruct (forallb _ (c0 :: cs)); cbn [guard bind] in E; [|congruence].
    destruct (0 <? zlen c0); [|discriminate]. destruct (forallb _ (c0 :: cs)); cbn [guard bind] in E; congruence.
Qed.

(** the rows and the offsets of the reader *)
Definition row (chans : list (list bytes)) (k : nat) : list bytes := map (fun c => nth k c []) chans.
Definition wave (chans : list (list bytes)) (k : nat) : bytes :=
  fold_left (fun d j => pad_to 4 0 (d ++ concat (row chans (Z.to_nat j)))) (range_z 0 k) [].
Lemma fold_left_map_ {A B C} (f : A -> C -> A) (g : B -> C) l a : fold_left f (map g l) a = fold_left (fun x y => f x (g y)) l a.
Proof. revert a; induction l as [|y l IH]; intros a; cbn; [reflexivity|apply IH]. Qed.
Lemma wave_eq chans n : strm_waveData (strm_rows chans n) = wave chans (Z.to_nat n).
Proof. unfold strm_waveData, strm_rows, wave, row. apply fold_left_map_. Qed.
Lemma wave_S chans k : wave chans (S k) = pad_to 4 0 (wave chans k ++ concat (row chans k)).
Proof. unfold wave. rewrite range_z_snoc, fold_left_app. cbn [fold_left]. rewrite Z.add_0_l, Nat2Z.id. reflexivity. Qed.
Lemma wave_prefix chans k m : exists r, wave chans (k + m) = wave chans k ++ r.
Proof.
  induction m as [|m [r IH]]; [exists []; rewrite Nat.add_0_r, app_nil_r; reflexivity|].
  rewrite Nat.add_succ_r, wave_S, IH. unfold pad_to. rewrite <- !app_assoc. eexists. reflexivity.
Qed.
Lemma wave_at chans k n : (k < n)%nat -> exists r, wave chans n = wave chans k ++ concat (row chans k) ++ r.
Proof.
  intros H. destruct (wave_prefix chans (S k) (n - S k)) as [r E]. replace (S k + (n - S k))%nat with n in E by lia.
  rewrite E, wave_S. unfold pad_to. rewrite <- !app_assoc. eexists. reflexivity.
Qed.

Lemma firstn_S_nth {A} (l : list A) k d : (k < length l)%nat -> firstn (S k) l = firstn k l ++ [nth k l d].
Proof. revert k; induction l as [|x l IH]; intros k H; cbn in H; [lia|]. destruct k as [|k]; [reflexivity|]. cbn [firstn nth app]. f_equal. apply IH. lia. Qed.

Lemma read_row_spec bs chans k : (forall c, In c chans -> (k < length c)%nat /\ zlen (nth k c []) = bs) -> forall pre post o, o = zlen pre ->
  read_row (pre ++ concat (row chans k) ++ post) bs (map (firstn k) chans) o = (map (firstn (S k)) chans, o + zlen (concat (row chans k))).
Proof.
  induction chans as [|c chans IH]; intros H pre post o ->.
  - cbn. f_equal. rewrite Z.add_0_r. reflexivity.
  - destruct (H c (or_introl eq_refl)) as [Hk Hb]. cbn [row map concat read_row].
    assert (HR : forall c, In c chans -> (k < length c)%nat /\ zlen (nth k c []) = bs) by (intros; apply H; right; assumption).
    rewrite <- app_assoc. pose proof (IH HR (pre ++ nth k c []) post (zlen pre + bs) ltac:(rewrite zlen_app; lia)) as E.
    rewrite <- app_assoc in E. unfold row in E. rewrite E. f_equal; [|rewrite zlen_app; lia].
    f_equal. rewrite slice_skip by (pose proof (zlen_nonneg pre); pose proof (zlen_nonneg (nth k c [])); lia). rewrite Z.sub_diag.
    replace (zlen pre + bs - zlen pre) with bs by lia. rewrite slice_hit by lia. symmetry. apply firstn_S_nth. exact Hk.
Qed.

Lemma read_blocks chans nb pb il big pb' il' post : blocks_ok nb pb il chans -> 0 <= nb ->
  (forall k, 0 <= k < nb -> (let b := if k =? nb - 1 then il' else pb' in if big : bool then b + 4 else b) = if k =? nb - 1 then il else pb) ->
  forall k, Z.of_nat k <= nb ->
  fold_left (read_block (wave chans (Z.to_nat nb) ++ post) nb pb' il' big) (range_z 0 k) (map (firstn 0) chans, 0) = (map (firstn k) chans, zlen (wave chans k)).
Proof.
  intros B N S. induction k as [|k IH]; intros Hk; [reflexivity|].
  rewrite range_z_snoc, fold_left_app, IH by lia. cbn [fold_left]. rewrite Z.add_0_l. unfold read_block at 1.
  specialize (S (Z.of_nat k) ltac:(lia)). cbv zeta in S. cbv zeta. rewrite S.
  destruct (wave_at chans k (Z.to_nat nb) ltac:(lia)) as [r E]. rewrite E. rewrite <- !app_assoc.
  rewrite (read_row_spec _ chans k); [|intros c Hc; destruct (B c Hc) as [L Bc]|reflexivity].
  - f_equal. rewrite wave_S, zlen_pad_to by lia. rewrite !zlen_app. reflexivity.
  - split; [unfold zlen in L; lia|]. destruct (nth_error c k) as [b|] eqn:Eb; [|apply nth_error_None in Eb; unfold zlen in L; lia].
    rewrite (nth_error_nth c k [] Eb). apply Bc. exact Eb.
Qed.

Definition strm_fields (s : strm) (nb pb il adj : Z) : bytes :=
  le 1 (wt_val (sType s)) ++ le 1 (b2b (sLooped s)) ++ le 1 (zlen (sChannels s)) ++ le 1 (sUnk03 s) ++ le 2 (sRate s) ++ le 2 (sTime s) ++
  le 4 (sLoop s) ++ le 4 ((nb - 1) * sPerBlock s + sInLast s) ++ le 4 0x68 ++ le 4 nb ++ le 4 (pb - adj) ++ le 4 (sPerBlock s) ++ le 4 (il - adj) ++ le 4 (sInLast s) ++
  concat (map (le 4) (sUnks s)).
Definition strm_adj (s : strm) (nb : Z) : Z := if (wt_val (sType s) =? wt_val ADPCM) && (nb =? 1) then 4 else 0.
Definition u8r (v : Z) := 0 <= v < 256.
Definition u16r (v : Z) := 0 <= v < 65536.
Definition u32r (v : Z) := 0 <= v < 4294967296.
Definition strm_ranges (s : strm) (nb pb il : Z) : Prop :=
  zlen (sChannels s) < 256 /\ u8r (sUnk03 s) /\ u16r (sRate s) /\ u16r (sTime s) /\ u32r (sLoop s) /\ u32r ((nb - 1) * sPerBlock s + sInLast s) /\
  u32r nb /\ u32r (pb - strm_adj s nb) /\ u32r (sPerBlock s) /\ u32r (il - strm_adj s nb) /\ u32r (sInLast s) /\ Forall u32r (sUnks s) /\
  0x68 + zlen (wave (sChannels s) (Z.to_nat nb)) < 4294967296.
Definition strm_bytes (s : strm) (nb pb il : Z) : bytes :=
  let W := wave (sChannels s) (Z.to_nat nb) in
  std_bytes (asc "STRM") 0x100 (0x68 + zlen W) 2 ++ asc "HEAD" ++ le 4 0x50 ++ strm_fields s nb pb il (strm_adj s nb) ++ asc "DATA" ++ le 4 (8 + zlen W) ++ W.

Lemma strm_save0_ok s nb pb il : strm_sizes (sChannels s) = Ok (nb, pb, il) -> strm_ranges s nb pb il ->
  strm_save0 s = Ok (strm_bytes s nb pb il, sInfo s).
Proof.
  intros E (H1 & H2 & H3 & H4 & H5 & H6 & H7 & H8 & H9 & H10 & H11 & H12 & H13). unfold strm_save0. rewrite E. cbn [bind]. rewrite wave_eq.
  unfold u8r, u16r, u32r, strm_adj in *. set (W := wave _ _) in *. pose proof (zlen_nonneg W). pose proof (wt_val_range (sType s)). pose proof (zlen_nonneg (sChannels s)).
  assert (0 <= b2b (sLooped s) < 2) by (destruct (sLooped s); cbn; lia).
  rewrite std_pack_ok by lia. cbn [bind]. rewrite pack_u_ok by (p256; lia). cbn [bind]. set (adj := if _ && _ then 4 else 0) in *.
  rewrite pack_us_ok.
  2:{ apply Forall_app. split; [repeat apply Forall_cons; try apply Forall_nil; cbn [fst snd]; p256; lia|].
      apply Forall_map. eapply Forall_impl; [|exact H12]. intros v Hv. cbn [fst snd]. p256. exact Hv. }
  cbn [bind]. rewrite pack_u_ok by (p256; lia). cbn [bind]. unfold strm_bytes, strm_fields, strm_adj. cbv zeta. fold W. fold adj.
  unfold les. rewrite map_app, concat_app, map_map. cbn [map concat fst snd]. rewrite <- !app_assoc. reflexivity.
Qed.
Lemma strm_save0_inv s d i : strm_save0 s = Ok (d, i) -> exists nb pb il,
  strm_sizes (sChannels s) = Ok (nb, pb, il) /\ strm_ranges s nb pb il /\ d = strm_bytes s nb pb il /\ i = sInfo s.
Proof.
  intros H. assert (R : exists nb pb il, strm_sizes (sChannels s) = Ok (nb, pb, il) /\ strm_ranges s nb pb il).
  { unfold strm_save0 in H. apply bind_ok in H as ([[nb pb] il] & E & H). exists nb, pb, il. split; [exact E|]. cbv zeta in H. rewrite wave_eq in H.
    apply bind_ok in H as (h & Hh & H). apply std_pack_inv in Hh as (_ & Hs & _). apply bind_ok in H as (hs & _ & H). apply bind_ok in H as (f & Hf & H).
    apply pack_us_inv in Hf as [F _]. apply Forall_app in F as [F1 F2]. repeat rewrite Forall_cons_iff in F1. cbn [fst snd] in F1. p256.
    apply Forall_map in F2. unfold strm_ranges, strm_adj, u8r, u16r, u32r. repeat (split; [lia|]). split; [|lia].
    eapply Forall_impl; [|exact F2]. intros v Hv. cbn [fst snd] in Hv. p256. exact Hv. }
  destruct R as (nb & pb & il & E & R). exists nb, pb, il. rewrite (strm_save0_ok s nb pb il E R) in H. repeat (split; [assumption|]). split; congruence.
Qed.
Lemma strm_load_saved s d i post : zlen (sUnks s) = 8 -> strm_save0 s = Ok (d, i) -> strm_load (d ++ post) i = Ok s.
Proof.
  intros L8 H. apply strm_save0_inv in H as (nb & pb & il & E & R & -> & ->). pose proof R as (H1 & H2 & H3 & H4 & H5 & H6 & H7 & H8 & H9 & H10 & H11 & H12 & H13).
  unfold u8r, u16r, u32r in *. unfold strm_load, strm_bytes. cbv zeta. set (W := wave _ _) in *. pose proof (zlen_nonneg W). pose proof (wt_val_range (sType s)) as HT. pose proof (zlen_nonneg (sChannels s)).
  assert (HB : 0 <= b2b (sLooped s) < 2) by (destruct (sLooped s); cbn; lia).
  rewrite <- !app_assoc.
  replace (prefixb (asc "STRM") _) with true by (unfold std_bytes; rewrite <- !app_assoc, prefixb_app; reflexivity). cbn [guard bind].
  rewrite std_unpack_hit by (reflexivity || lia). cbn [bind hVersion hMagic hSize]. rewrite beq_refl. cbn [Z.eqb Pos.eqb guard bind].
  pose proof (zlen_std (asc "STRM") 0x100 (0x68 + zlen W) 2) as LS. change (zlen (asc "STRM") + 12) with 16 in LS.
  set (S := std_bytes _ _ _ _) in *. clearbody S. pose proof (eq_refl : zlen (asc "DATA") = 4) as LD. pose proof (eq_refl : zlen (asc "HEAD") = 4) as LH.
  set (DA := asc "DATA") in *. set (HE := asc "HEAD") in *. clearbody DA HE.
  set (adj := strm_adj s nb) in *. set (U := concat (map (le 4) (sUnks s))).
  assert (LU : zlen U = 32) by (unfold U; rewrite (zlen_concat_map (le 4) (sUnks s) 4) by (intros; apply zlen_le); lia).
  unfold strm_fields. fold U. rewrite <- !app_assoc. rewrite LS || idtac.
  rdalls. rewrite beq_refl. cbn [guard bind]. rdalls.
  replace (mapM _ (range_z 0 8)) with (Ok (sUnks s)).
  2:{ symmetry. replace 8%nat with (length (sUnks s)) by (unfold zlen in L8; lia). rewrite (mapM_table _ (fun v => v)); [rewrite map_id; reflexivity|].
      intros l1 x l2 Ex. rewrite Z.add_0_l. pose proof (zlen_nonneg l1). rewrite !unpack_u_skip by (rewrite ?zlen_le; lia). rewrite !zlen_le, LS, LH.
      destruct (concat_at (le 4) 4 l1 x l2) as (EU & LU1 & LUx); [intros; apply zlen_le|]. unfold U. rewrite Ex, EU, <- !app_assoc.
      rewrite unpack_u_skip by lia. apply unpack_u_hit; [lia|]. rewrite Forall_forall in H12. apply H12. rewrite Ex. apply in_or_app. right. left. reflexivity. }
  cbn [bind guard Z.eqb Pos.eqb]. rewrite wt_of_val. cbn [bind]. rdalls. rewrite beq_refl. cbn [guard bind].
  apply strm_sizes_inv in E as [N B].
  match goal with |- context [read_block ?D ?a ?b ?c ?g] => replace D with (W ++ []) by (rewrite app_nil_r; symmetry; rdalls; reflexivity); set (big := g) end.
  rewrite length_zlen || idtac.
  replace (rep [] (zlen (sChannels s))) with (map (firstn 0) (sChannels s)).
  2:{ unfold rep, zlen. rewrite Nat2Z.id. clear. induction (sChannels s) as [|c l IH]; [reflexivity|]. cbn [map length repeat]. rewrite IH. reflexivity. }
  unfold W. rewrite (read_blocks (sChannels s) nb pb il big (pb - adj) (il - adj) [] B N); [| |lia].
  2:{ intros k Hk. cbv zeta. unfold big, adj, strm_adj. destruct (nb =? 1), (wt_val (sType s) =? wt_val ADPCM); cbn [andb]; destruct (k =? nb - 1); lia. }
  f_equal. destruct s as [t0 b0 ch u3 ra ti lo pbk ila un inf]. cbn [sType sLooped sChannels sUnk03 sRate sTime sLoop sPerBlock sInLast sUnks sInfo] in *. f_equal.
  - destruct b0; reflexivity.
  - transitivity (map (fun c : list bytes => c) ch); [|apply map_id]. apply map_ext_in. intros c Hc. destruct (B c Hc) as [L _]. apply firstn_all2. unfold zlen in L. lia.
Qed.

Lemma strm_roundtrip s up s' d i post : zlen (sUnks s) = 8 -> strm_save s up = Ok (s', (d, i)) ->
  strm_load (d ++ post) i = Ok s' /\ (up = false -> s' = s) /\
  (up = true -> sTime s' = Z.quot 16756991 (32 * sRate s) /\ sChannels s' = sChannels s /\ sRate s' = sRate s).
Proof.
  intros L H. unfold strm_save in H. destruct up.
  - apply bind_ok in H as (sz & _ & H). apply bind_ok in H as (? & _ & H). apply bind_ok in H as (s1 & U & H). apply bind_ok in H as ([d1 i1] & S & H).
    injection H as <- <- <-. unfold strm_update in U. destruct (sRate s =? 0); [discriminate|]. injection U as <-.
    split; [refine (strm_load_saved _ _ _ post _ S); exact L|]. split; [discriminate|]. intros _. repeat split.
  - apply bind_ok in H as ([d1 i1] & S & H). injection H as <- <- <-.
    split; [exact (strm_load_saved _ _ _ post L S)|]. split; [reflexivity|discriminate].
Qed.
Lemma swav_roundtrip_upd w ut ul w' d post : swav_save w ut ul = Ok (w', d) ->
  swav_load (d ++ post) = Ok w' /\ zlen d = 0x24 + zlen (wData w) /\
  w' = {| wType := wType w; wLooped := wLooped w; wRate := wRate w; wTime := if ut then Z.quot 16756991 (wRate w) else wTime w;
          wLoop := wLoop w; wTotal := if ul then zlen (wData w) / 4 else wTotal w; wData := wData w |}.
Proof.
  intros H. unfold swav_save in H. apply bind_ok in H as (w1 & U & H). apply bind_ok in H as (d1 & S & H). injection H as <- <-.
  pose proof (swav_save0_inv _ _ S) as [O _]. destruct (swav_roundtrip w1 post O) as (d2 & S2 & L2 & R). assert (d2 = d1) as -> by congruence.
  split; [exact R|].
  assert (E : w1 = {| wType := wType w; wLooped := wLooped w; wRate := wRate w; wTime := if ut then Z.quot 16756991 (wRate w) else wTime w;
          wLoop := wLoop w; wTotal := if ul then zlen (wData w) / 4 else wTotal w; wData := wData w |}).
  { unfold swav_update in U. destruct ut.
    - destruct (wRate w =? 0); [discriminate|]. cbn [bind] in U. injection U as <-. destruct ul; reflexivity.
    - cbn [bind] in U. injection U as <-. destruct ul; [reflexivity|]. destruct w; reflexivity. }
  split; [|exact E]. rewrite L2, E. reflexivity.
Qed.

(** ** group entries *)
Lemma low_bit o k : 0 <= k < 4 -> negb (Z.land o (2 ^ k) =? 0) = negb (Z.land (o mod 16) (2 ^ k) =? 0).
Proof. intros. rewrite !land_bit by lia. change 16 with (2 ^ 4). symmetry. apply Z.mod_pow2_bits_low. lia. Qed.
Lemma group_roundtrip t o i g : group_new t o i = Ok g ->
  group_save g = (t, o mod 16, i) /\ group_new t (o mod 16) i = Ok g.
Proof.
  unfold group_new. intros H. apply bind_ok in H as (u & G & H). rewrite G. cbn [bind]. injection H as <-.
  pose proof (low_bit o 0 ltac:(lia)) as B0. pose proof (low_bit o 1 ltac:(lia)) as B1. pose proof (low_bit o 2 ltac:(lia)) as B2. pose proof (low_bit o 3 ltac:(lia)) as B3.
  change (2 ^ 0) with 1 in B0. change (2 ^ 1) with 2 in B1. change (2 ^ 2) with 4 in B2. change (2 ^ 3) with 8 in B3.
  rewrite B0, B1, B2, B3. split; [|reflexivity]. clear B0 B1 B2 B3. unfold group_save. cbn [gType gLoadSSEQ gSwarIds gLoadSWAR gLoadSSAR gId].
  pose proof (Z.mod_pos_bound o 16 ltac:(lia)) as R. set (m := o mod 16) in *. clearbody m.
  f_equal. f_equal. apply Z.eqb_eq. revert m R. apply (sweep 16 (fun m => _)). vm_compute. reflexivity.
Qed.
Lemma group_save_new g : 0 <= gType g < 4 -> let '(t, o, i) := group_save g in group_new t o i = Ok g /\ 0 <= o < 16.
Proof.
  intros H. destruct g as [t i a b c d]. cbn [gType] in H. unfold group_save, group_new. cbn [gType gLoadSSEQ gSwarIds gLoadSWAR gLoadSSAR gId].
  replace ((0 <=? t) && (t <? 4)) with true by lia. cbn [guard bind]. destruct a, b, c, d; (split; [reflexivity|]); vm_compute; split; congruence.
Qed.
Lemma group_flags t i a b c d : 0 <= t < 4 -> group_fromFlags t i a b c d = Ok {| gType := t; gId := i; gLoadSSEQ := a; gSwarIds := b; gLoadSWAR := c; gLoadSSAR := d |}.
Proof. intros H. unfold group_fromFlags, group_new. replace ((0 <=? t) && (t <? 4)) with true by lia. reflexivity. Qed.
Lemma group_bad t o i : ~ (0 <= t < 4) -> group_new t o i = Err ValueError.
Proof. intros H. unfold group_new. replace ((0 <=? t) && (t <? 4)) with false by lia. reflexivity. Qed.
Lemma swar_fromFile_waves contents unk02 : swar_fromFile contents unk02 =
  match swar_load contents unk02 with Ok r => Ok {| rWaves := rWaves r; rUnk02 := 0 |} | Err e => Err e end.
Proof.
  unfold swar_fromFile, swar_load.
  repeat match goal with |- context [bind ?e _] => destruct e; cbn [bind]; [|reflexivity] end. reflexivity.
Qed.
Lemma strm_savable s nb pb il : blocks_ok nb pb il (sChannels s) -> sChannels s <> [] -> 0 < nb ->
  strm_ranges s nb (if nb =? 1 then il else pb) il -> exists d, strm_save s false = Ok (s, (d, sInfo s)).
Proof.
  intros B N P R. pose proof (strm_sizes_ok _ _ _ _ B N P) as E. unfold strm_save. rewrite (strm_save0_ok s _ _ _ E R). cbn [bind]. eexists. reflexivity.
Qed.
Lemma strm_inconsistent s up : (forall nb pb il, ~ blocks_ok nb pb il (sChannels s)) -> strm_save s up = Err ValueError.
Proof.
  intros N. pose proof (strm_sizes_bad _ N) as E. unfold strm_save, strm_save0. rewrite E. destruct up; reflexivity.
Qed.

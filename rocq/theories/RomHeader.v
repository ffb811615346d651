(** * The header of a saved ROM *)
From Verif Require Import PyBase PyLemmas PyTac AtLemmas CommonModel FntModel CodeModel RomModel RomSpec RomBody.

Definition henc (f : hfield) : bytes :=
  match f with
  | HLen b _ => b
  | HFix b n => slice (ljust b n 0) 0 n
  | H8 v => [v]
  | H16 v => le 2 v
  | H32 v => le 4 v
  end.
Definition hvalid (f : hfield) : Prop :=
  match f with
  | HLen b n => zlen b = n
  | HFix b n => True
  | H8 v => is_byte v
  | H16 v => 0 <= v < 256 ^ Z.of_nat 2
  | H32 v => 0 <= v < 256 ^ Z.of_nat 4
  end.
Definition width (f : hfield) : Z := match f with HLen _ n | HFix _ n => n | H8 _ => 1 | H16 _ => 2 | H32 _ => 4 end.
Definition wsum (l : list hfield) : Z := fold_right (fun f a => width f + a) 0 l.

Lemma hwrite_inv f b : hwrite f = Ok b -> hvalid f /\ b = henc f.
Proof.
  destruct f as [x n|x n|v|v|v]; cbn [hwrite hvalid henc]; intros H.
  - apply bind_ok in H as (u & G & H). apply guard_ok in G. split; [lia|congruence].
  - split; [exact I|congruence].
  - destruct (byteb v) eqn:B; [|discriminate]. split; [apply byteb_true; exact B|congruence].
  - apply pack_u_inv in H. exact H.
  - apply pack_u_inv in H. exact H.
Qed.
Lemma hwrite_ok f : hvalid f -> hwrite f = Ok (henc f).
Proof.
  destruct f as [x n|x n|v|v|v]; cbn [hwrite hvalid henc]; intros H.
  - rewrite guard_true by lia. reflexivity.
  - reflexivity.
  - rewrite (proj2 (byteb_true v) H). reflexivity.
  - apply pack_u_ok. exact H.
  - apply pack_u_ok. exact H.
Qed.
Lemma zlen_fix b n : 0 <= n -> zlen (slice (ljust b n 0) 0 n) = n.
Proof. intros N. unfold ljust. pose proof (zlen_nonneg b). assert (n <= zlen (b ++ rep 0 (n - zlen b))) by (rewrite zlen_app, zlen_rep_max; lia). rewrite zlen_slice by lia. lia. Qed.
Lemma zlen_henc f : hvalid f -> 0 <= width f -> zlen (henc f) = width f.
Proof.
  destruct f as [x n|x n|v|v|v]; cbn [hvalid henc width]; intros H N; [exact H|apply zlen_fix; exact N|reflexivity|apply zlen_le|apply zlen_le].
Qed.
Lemma mapM_hwrite fs bs : mapM hwrite fs = Ok bs -> Forall hvalid fs /\ bs = map henc fs.
Proof.
  revert bs. induction fs as [|f fs IH]; cbn [mapM map]; intros bs H; [split; [constructor|congruence]|].
  apply bind_ok in H as (b & E & H). apply bind_ok in H as (bs' & E' & H). apply hwrite_inv in E as (V & ->). apply IH in E' as (VS & ->).
  split; [constructor; assumption|congruence].
Qed.
Lemma zlen_hencs fs : Forall hvalid fs -> Forall (fun f => 0 <= width f) fs -> zlen (concat (map henc fs)) = wsum fs.
Proof.
  intros V W. induction fs as [|f fs IH]; [reflexivity|]. inversion V; inversion W; subst. cbn [map concat wsum fold_right]. fold (wsum fs).
  rewrite zlen_app, zlen_henc, IH by assumption. reflexivity.
Qed.
Lemma fields_at d fs o : Forall hvalid fs -> Forall (fun f => 0 <= width f) fs -> at_ d o (concat (map henc fs)) ->
  forall k f, nth_error fs k = Some f -> at_ d (o + wsum (firstn k fs)) (henc f) /\ hvalid f.
Proof.
  revert o. induction fs as [|g fs IH]; intros o V W A k f N; [destruct k; discriminate|]. inversion V; inversion W; subst.
  cbn [map concat] in A. apply at_app in A as (A1 & A2). destruct k as [|k].
  - injection N as <-. cbn [firstn wsum fold_right]. rewrite Z.add_0_r. split; assumption.
  - cbn [nth_error] in N. rewrite zlen_henc in A2 by assumption. specialize (IH _ ltac:(assumption) ltac:(assumption) A2 k f N).
    cbn [firstn wsum fold_right]. fold (wsum (firstn k fs)). rewrite Z.add_assoc. exact IH.
Qed.

Lemma widths_1 r l cap : Forall (fun f => 0 <= width f) (header_fields r l cap).
Proof. unfold header_fields. repeat (apply Forall_cons; [cbn [width]; lia|]). apply Forall_nil. Qed.
Lemma widths_2 r l : Forall (fun f => 0 <= width f) (debug_fields r l).
Proof. unfold debug_fields. repeat (apply Forall_cons; [cbn [width]; lia|]). apply Forall_nil. Qed.
Lemma wsum_1 r l cap : wsum (header_fields r l cap) = 0x15E.
Proof. reflexivity. Qed.
Lemma wsum_2 r l : wsum (debug_fields r l) = 0xA0.
Proof. reflexivity. Qed.

Record header_spec (r : rom) (l : layout) (cap : Z) (h : bytes) : Prop := {
  hs_v1 : Forall hvalid (header_fields r l cap);
  hs_v2 : Forall hvalid (debug_fields r l);
  hs_h : h = concat (map henc (header_fields r l cap)) ++ le 2 (crc16 (concat (map henc (header_fields r l cap)))) ++ concat (map henc (debug_fields r l));
  hs_crc : 0 <= crc16 (concat (map henc (header_fields r l cap))) < 256 ^ Z.of_nat 2;
  hs_len : zlen h = 0x200 }.
Lemma rom_header_spec r l cap h : rom_header r l cap = Ok h -> header_spec r l cap h.
Proof.
  intros H. unfold rom_header in H. apply bind_ok in H as (a & EA & H). apply bind_ok in H as (c & EC & H). apply bind_ok in H as (b & EB & H).
  apply mapM_hwrite in EA as (VA & ->). apply mapM_hwrite in EB as (VB & ->). apply hwrite_inv in EC as (VC & ->). cbn [hvalid henc] in VC, H.
  assert (h = concat (map henc (header_fields r l cap)) ++ le 2 (crc16 (concat (map henc (header_fields r l cap)))) ++ concat (map henc (debug_fields r l))) as E by congruence.
  constructor; try assumption.
  rewrite E, !zlen_app, zlen_le, !zlen_hencs by first [assumption|apply widths_1|apply widths_2]. rewrite wsum_1, wsum_2. reflexivity.
Qed.

(** every header field is found at its place in any file beginning with the header *)
Lemma header_at r l cap h tail : header_spec r l cap h -> forall k f, nth_error (header_fields r l cap) k = Some f ->
  at_ (h ++ tail) (wsum (firstn k (header_fields r l cap))) (henc f) /\ hvalid f.
Proof.
  intros [V1 V2 E C L] k f N. pose proof (fields_at (h ++ tail) _ 0 V1 (widths_1 r l cap)) as F. rewrite E, <- app_assoc in F |- *. specialize (F (at_whole _ _) k f N).
  rewrite Z.add_0_l in F. exact F.
Qed.
Lemma debug_at r l cap h tail : header_spec r l cap h -> forall k f, nth_error (debug_fields r l) k = Some f ->
  at_ (h ++ tail) (0x160 + wsum (firstn k (debug_fields r l))) (henc f) /\ hvalid f.
Proof.
  intros [V1 V2 E C L] k f N. refine (fields_at (h ++ tail) _ 0x160 V2 (widths_2 r l) _ k f N).
  rewrite E. rewrite app_assoc, <- app_assoc. replace 0x160 with (zlen (concat (map henc (header_fields r l cap)) ++ le 2 (crc16 (concat (map henc (header_fields r l cap)))))).
  - apply at_mid.
  - rewrite zlen_app, zlen_le, zlen_hencs by first [assumption|apply widths_1]. reflexivity.
Qed.
Lemma crc_at r l cap h tail : header_spec r l cap h ->
  at_ (h ++ tail) 0x15E (le 2 (crc16 (slice (h ++ tail) 0 0x15E))).
Proof.
  intros [V1 V2 E C L]. assert (LA : zlen (concat (map henc (header_fields r l cap))) = 0x15E) by (rewrite zlen_hencs by first [assumption|apply widths_1]; reflexivity).
  rewrite E, <- !app_assoc. rewrite slice_hit by (reflexivity || (symmetry; exact LA)). rewrite <- LA at 1. apply at_mid.
Qed.

Lemma ok_pair {A B} (a a' : A) (b b' : B) : Ok (a, b) = Ok (a', b') -> a = a' /\ b = b'.
Proof. intros H. split; congruence. Qed.

(** the saved file *)
Lemma rom_save_spec upd r data r1 : rom_save upd r = Ok (data, r1) -> exists D l P fnt h cap,
  body_spec r D l P fnt /\ header_spec r l cap h /\ data = h ++ skipn 0x200 D /\ r1 = set_capacity r cap /\
  cap = (if upd then Z.log2_up (zlen data) - 17 else deviceCapacity r) /\ zlen data = zlen D /\
  (forall s b, 0x200 <= s -> at_ D s b -> at_ data s b).
Proof.
  intros H. unfold rom_save in H. apply bind_ok in H as ([D l] & EB & H). apply bind_ok in H as (h & EH & H).
  destruct (rom_body_spec _ _ _ EB) as (P & fnt & B). set (cap := if upd then _ else _) in *. pose proof (rom_header_spec _ _ _ _ EH) as HS.
  apply ok_pair in H as (<- & <-). exists D, l, P, fnt, h, cap. pose proof (hs_len _ _ _ _ HS) as L.
  assert (GD : 0x4000 <= zlen D).
  { rewrite (bs_size _ _ _ _ _ B). pose proof (bs_rsa _ _ _ _ _ B) as (R & _). pose proof (zlen_nonneg (rsaSignature r)). unfold round.
    pose proof (Z.mod_pos_bound (- (oRsa l + zlen (rsaSignature r))) 0x400). lia. }
  assert (LZ : zlen (h ++ skipn 0x200 D) = zlen D) by (rewrite zlen_app, zlen_skipn, L; lia).
  split; [exact B|]. split; [exact HS|]. split; [reflexivity|]. split; [reflexivity|]. split; [rewrite LZ; reflexivity|]. split; [exact LZ|].
  intros s b S A. assert (LS : zlen h <= s) by lia. apply (proj2 (at_app_r _ _ _ _ LS)).
  rewrite <- (firstn_skipn 0x200 D) in A. assert (LF : zlen (firstn 0x200 D) <= s) by (rewrite zlen_firstn; lia).
  apply (proj1 (at_app_r _ _ _ _ LF)) in A. replace (zlen (firstn 0x200 D)) with (zlen h) in A by (rewrite zlen_firstn; lia). exact A.
Qed.

(** * The body of a saved ROM: where every part is placed *)
From Verif Require Import PyBase PyLemmas PyTac AtLemmas CommonModel FntModel CodeModel RomModel.

Lemma at_app_l {A} (a r : list A) s b : s + zlen b <= zlen a -> at_ (a ++ r) s b <-> at_ a s b.
Proof.
  intros L. unfold at_. rewrite zlen_app. pose proof (zlen_nonneg r). pose proof (zlen_nonneg b).
  split; intros (H1 & H2 & H3); (split; [lia|]); (split; [lia|]); [rewrite slice_app_l in H3 by lia|rewrite slice_app_l by lia]; exact H3.
Qed.
Lemma at_app_r {A} (a r : list A) s b : zlen a <= s -> at_ (a ++ r) s b <-> at_ r (s - zlen a) b.
Proof.
  intros L. unfold at_. rewrite zlen_app. pose proof (zlen_nonneg a). pose proof (zlen_nonneg b).
  split; intros (H1 & H2 & H3); (split; [lia|]); (split; [lia|]).
  - rewrite slice_skip in H3 by lia. rewrite <- H3 at 2. f_equal. lia.
  - rewrite slice_skip by lia. rewrite <- H3 at 2. f_equal. lia.
Qed.
Lemma put_split d o w d' : 0 <= o -> put d o w = Ok d' -> exists a m c, d = a ++ m ++ c /\ d' = a ++ w ++ c /\ zlen a = o /\ zlen m = zlen w.
Proof.
  intros O H. unfold put in H. apply bind_ok in H as (o' & E & H). unfold struct_off in E.
  destruct (Z.ltb_spec o 0); [lia|]. destruct (Z.ltb_spec (zlen d) (o + zlen w)); [discriminate|]. assert (o' = o) by congruence. subst o'.
  assert (d' = firstn (Z.to_nat o) d ++ w ++ skipn (Z.to_nat (o + zlen w)) d) as -> by congruence. clear H E.
  pose proof (zlen_nonneg w).
  exists (firstn (Z.to_nat o) d), (firstn (Z.to_nat (zlen w)) (skipn (Z.to_nat o) d)), (skipn (Z.to_nat (o + zlen w)) d).
  split; [|split; [reflexivity|split]].
  - replace (Z.to_nat (o + zlen w)) with (Z.to_nat o + Z.to_nat (zlen w))%nat by lia.
    rewrite <- skipn_skipn_, firstn_skipn, firstn_skipn. reflexivity.
  - rewrite zlen_firstn. lia.
  - rewrite zlen_firstn, zlen_skipn. lia.
Qed.
Lemma at_put_same d o w d' : 0 <= o -> put d o w = Ok d' -> at_ d' o w.
Proof. intros O H. apply put_split in H as (a & m & c & -> & -> & <- & E); [|exact O]. apply at_mid. Qed.
Lemma at_put_other d o w d' s b : 0 <= o -> put d o w = Ok d' -> at_ d s b -> s + zlen b <= o \/ o + zlen w <= s -> at_ d' s b.
Proof.
  intros O H A D. apply put_split in H as (a & m & c & -> & -> & <- & E); [|exact O]. destruct D as [D|D].
  - apply (proj2 (at_app_l _ _ _ _ D)). exact (proj1 (at_app_l _ _ _ _ D) A).
  - rewrite app_assoc in A |- *. assert (L1 : zlen (a ++ m) <= s) by (rewrite zlen_app; lia). assert (L2 : zlen (a ++ w) <= s) by (rewrite zlen_app; lia).
    apply (proj2 (at_app_r _ _ _ _ L2)). apply (proj1 (at_app_r _ _ _ _ L1)) in A. rewrite zlen_app in A |- *. rewrite <- E. exact A.
Qed.

(** ** Pieces *)
Inductive own := Head | Rsa | Arm9 | Ovt9 | Arm7 | Ovt7 | Fnt | Fat | Banner | Debug | File (i : Z).
Definition piece : Type := own * Z * bytes.
Fixpoint chain (P : list piece) (hi : Z) : Prop :=
  match P with [] => True | (_, s, b) :: P' => s + zlen b <= hi /\ chain P' s end.
Definition piece_ok (fs : list bytes) (d : bytes) (p : piece) : Prop :=
  let '(t, s, b) := p in
  at_ d s b /\ s mod 0x200 = 0 /\ (t = Head /\ s = 0 \/ 0x4000 <= s) /\ match t with File i => get fs i = Ok b | _ => True end.
Definition inv (fs : list bytes) (d : bytes) (P : list piece) : Prop :=
  chain P (zlen d) /\ Forall (piece_ok fs d) P /\ 0x4000 <= zlen d.
Definition aligned (d : bytes) : Prop := zlen d mod 0x200 = 0.
Fixpoint foffs (P : list piece) : offs :=
  match P with [] => [] | (File i, s, _) :: P' => (i, s) :: foffs P' | _ :: P' => foffs P' end.

Lemma chain_weak P hi hi' : chain P hi -> hi <= hi' -> chain P hi'.
Proof. destruct P as [|[[t s] b] P]; [easy|]. cbn [chain]. intros (H1 & H2) L. split; [lia|exact H2]. Qed.
Lemma piece_ext fs d x p : piece_ok fs d p -> piece_ok fs (d ++ x) p.
Proof. destruct p as [[t s] b]. cbn [piece_ok]. intros (H1 & H2). split; [apply at_ext; exact H1|exact H2]. Qed.
Lemma inv_grow fs d P x : inv fs d P -> inv fs (d ++ x) P.
Proof.
  intros (H1 & H2 & H3). pose proof (zlen_nonneg x). unfold inv. rewrite zlen_app. split; [eapply chain_weak; [exact H1|lia]|].
  split; [|lia]. eapply Forall_impl; [|exact H2]. intros p. apply piece_ext.
Qed.
Lemma inv_add fs d P t b : inv fs d P -> aligned d -> match t with File i => get fs i = Ok b | _ => True end -> inv fs (d ++ b) ((t, zlen d, b) :: P).
Proof.
  intros I A T. destruct (inv_grow _ _ _ b I) as (_ & H2 & H3). destruct I as (H1 & _ & H0). unfold inv. split; [|split; [|exact H3]].
  - cbn [chain]. rewrite zlen_app. split; [lia|exact H1].
  - constructor; [|exact H2]. cbn [piece_ok]. split; [|split; [exact A|split; [right; exact H0|exact T]]].
    pose proof (at_mid d b []) as M. rewrite app_nil_r in M. exact M.
Qed.
Lemma aligned_F d : aligned (alignF d).
Proof. unfold aligned, alignF. apply pad_to_mod. lia. Qed.
Lemma inv_F fs d P : inv fs d P -> inv fs (alignF d) P.
Proof. intros I. unfold alignF, pad_to. apply inv_grow. exact I. Qed.
Lemma inv_put fs d P t b : inv fs d P -> aligned d -> match t with File i => get fs i = Ok b | _ => True end -> inv fs (alignF (d ++ b)) ((t, zlen d, b) :: P).
Proof. intros. apply inv_F, inv_add; assumption. Qed.

Lemma chain_le P hi p : chain P hi -> In p P -> snd (fst p) + zlen (snd p) <= hi.
Proof.
  revert hi. induction P as [|[[t s] b] P IH]; intros hi C I; [easy|]. cbn [chain] in C. destruct C as (C1 & C2). destruct I as [<-|I]; [exact C1|].
  specialize (IH s C2 I). pose proof (zlen_nonneg b). lia.
Qed.
(** pieces of different owners do not overlap *)
Lemma chain_disjoint P hi p q : chain P hi -> In p P -> In q P -> fst (fst p) <> fst (fst q) ->
  snd (fst p) + zlen (snd p) <= snd (fst q) \/ snd (fst q) + zlen (snd q) <= snd (fst p).
Proof.
  revert hi. induction P as [|[[t s] b] P IH]; intros hi C I J N; [easy|]. cbn [chain] in C. destruct C as (C1 & C2).
  destruct I as [<-|I], J as [<-|J].
  - congruence.
  - right. cbn [fst snd]. apply (chain_le P s q C2 J).
  - left. cbn [fst snd]. apply (chain_le P s p C2 I).
  - exact (IH s C2 I J N).
Qed.
(** two copies of a file *)
Lemma chain_pairs P hi : chain P hi -> ForallOrdPairs (fun p q : piece => snd (fst q) + zlen (snd q) <= snd (fst p)) P.
Proof.
  revert hi. induction P as [|[[t s] b] P IH]; intros hi C; [constructor|]. cbn [chain] in C. destruct C as (C1 & C2).
  constructor; [|exact (IH s C2)]. apply Forall_forall. intros q Q. cbn [fst snd]. exact (chain_le P s q C2 Q).
Qed.

(** ** The packing steps *)
Definition opt (t : own) (o : Z) (b : bytes) : list piece := match b with [] => [] | _ => [(t, o, b)] end.
Lemma part_inv fs d P t part d' o : inv fs d P -> aligned d -> match t with File _ => False | _ => True end -> pack_part part d = (d', o) ->
  inv fs d' (opt t o part ++ P) /\ aligned d' /\ foffs (opt t o part ++ P) = foffs P /\ (part = [] -> o = 0) /\ (part <> [] -> 0x4000 <= o).
Proof.
  intros I A T E. unfold pack_part in E. destruct part as [|x r].
  - injection E as <- <-. cbn [opt app]. split; [exact I|]. split; [exact A|]. split; [reflexivity|]. split; [reflexivity|congruence].
  - injection E as <- <-. cbn [opt app]. split; [apply inv_put; [exact I|exact A|destruct t; exact Logic.I || destruct T]|].
    split; [apply aligned_F|]. split; [destruct t; [reflexivity..|destruct T]|]. split; [discriminate|]. intros _. destruct I as (_ & _ & I). exact I.
Qed.

Definition only_files (Q : list piece) : Prop := Forall (fun p => match fst (fst p) with File _ => True | _ => False end) Q.
Lemma overlays_inv fs table ns : forall d P d' o', inv fs d P -> aligned d ->
  foldM (pack_overlay fs table) (d, foffs P) ns = Ok (d', o') ->
  exists Q, inv fs d' (Q ++ P) /\ aligned d' /\ o' = foffs (Q ++ P) /\ only_files Q.
Proof.
  induction ns as [|n ns IH]; intros d P d' o' I A H.
  - cbn [foldM] in H. apply (f_equal (fun x => match x with Ok v => v | _ => (d, []) end)) in H. injection H as <- <-. exists []. cbn [app].
    split; [exact I|]. split; [exact A|]. split; [reflexivity|constructor].
  - cbn [foldM] in H. apply bind_ok in H as (st & E & H). unfold pack_overlay in E.
    apply bind_ok in E as (a & E1 & E). apply bind_ok in E as (a0 & E2 & E). cbn [fst snd] in E. injection E as <-.
    apply (IH _ ((File a, zlen d, a0) :: P)) in H as (Q & H1 & H2 & H3 & H4).
    + exists (Q ++ [(File a, zlen d, a0)]). rewrite <- app_assoc. cbn [app]. split; [exact H1|]. split; [exact H2|]. split; [exact H3|].
      apply Forall_app. split; [exact H4|]. constructor; [exact Logic.I|constructor].
    + apply inv_put; assumption.
    + apply aligned_F.
Qed.

Lemma file_inv fs d P n st : inv fs d P -> pack_file fs (d, foffs P) n = Ok st ->
  exists Q, inv fs (fst st) (Q ++ P) /\ snd st = foffs (Q ++ P) /\ only_files Q /\ off_of (snd st) n <> None.
Proof.
  intros I H. unfold pack_file in H. apply bind_ok in H as (f & E & H). cbn [fst snd] in H. injection H as <-.
  exists [(File n, zlen (alignF d), f)]. cbn [app fst snd foffs]. split; [|split; [reflexivity|split]].
  - apply inv_add; [apply inv_F; exact I|apply aligned_F|exact E].
  - constructor; [exact Logic.I|constructor].
  - cbn [off_of]. rewrite Z.eqb_refl. discriminate.
Qed.
Lemma off_of_app (Q : list piece) P n : off_of (foffs P) n <> None -> off_of (foffs (Q ++ P)) n <> None.
Proof.
  intros H. induction Q as [|[[t s] b] Q IH]; [exact H|]. cbn [app foffs]. destruct t; try exact IH. cbn [off_of]. destruct (_ =? _); [discriminate|exact IH].
Qed.
(** a loop whose steps either skip or pack one file *)
Lemma loop_inv fs (step : bytes * offs -> Z -> res (bytes * offs)) :
  (forall st n, step st n = Ok st \/ step st n = pack_file fs st n) ->
  forall ns d P st, inv fs d P -> foldM step (d, foffs P) ns = Ok st ->
  exists Q, inv fs (fst st) (Q ++ P) /\ snd st = foffs (Q ++ P) /\ only_files Q.
Proof.
  intros S. induction ns as [|n ns IH]; intros d P st I H.
  - cbn [foldM] in H. injection H as <-. exists []. split; [exact I|]. split; [reflexivity|constructor].
  - cbn [foldM] in H. apply bind_ok in H as (st1 & E & H). destruct (S (d, foffs P) n) as [E1|E1]; rewrite E1 in E.
    + injection E as <-. exact (IH _ _ _ I H).
    + apply (file_inv _ _ _ _ _ I) in E as (Q & H1 & H2 & H3 & _). destruct st1 as [d1 o1]. cbn [fst snd] in H1, H2. subst o1.
      apply (IH _ _ _ H1) in H as (Q' & G1 & G2 & G3). exists (Q' ++ Q). rewrite <- app_assoc. split; [exact G1|]. split; [exact G2|].
      apply Forall_app. split; assumption.
Qed.
Lemma sorted_step fs st n : pack_sorted fs st n = Ok st \/ pack_sorted fs st n = pack_file fs st n.
Proof. unfold pack_sorted. destruct (_ && _); [right|left]; reflexivity. Qed.
Lemma rest_step fs st n : pack_rest fs st n = Ok st \/ pack_rest fs st n = pack_file fs st n.
Proof. unfold pack_rest. destruct (negb _); [right|left]; reflexivity. Qed.
(** after the loop over all numbers, every number has an offset *)
Lemma rest_all fs ns : forall d P st, inv fs d P -> foldM (pack_rest fs) (d, foffs P) ns = Ok st ->
  forall n, In n ns -> off_of (snd st) n <> None.
Proof.
  induction ns as [|m ns IH]; intros d P st I H n N; [easy|]. cbn [foldM] in H. apply bind_ok in H as (st1 & E & H).
  assert (G : exists d1 P1, st1 = (d1, foffs P1) /\ inv fs d1 P1 /\ off_of (foffs P1) m <> None).
  { unfold pack_rest in E. cbn [snd] in E. unfold packed in E. destruct (off_of (foffs P) m) eqn:O; cbn [negb] in E.
    - injection E as <-. exists d, P. split; [reflexivity|]. split; [exact I|congruence].
    - apply (file_inv _ _ _ _ _ I) in E as (Q & H1 & H2 & H3 & H4). destruct st1 as [d1 o1]. cbn [fst snd] in *. subst o1. exists d1, (Q ++ P). auto. }
  destruct G as (d1 & P1 & -> & I1 & O1). destruct N as [<-|N]; [|exact (IH _ _ _ I1 H n N)].
  apply (loop_inv fs _ (rest_step fs) _ _ _ _ I1) in H as (Q & _ & -> & _). apply off_of_app. exact O1.
Qed.
Lemma off_in fs d P n s : inv fs d P -> off_of (foffs P) n = Some s -> exists b, In (File n, s, b) P /\ get fs n = Ok b.
Proof.
  intros (_ & F & _). induction P as [|[[t s'] b] P IH]; cbn [foffs]; intros H; [easy|]. inversion F as [|? ? F1 F2]. subst. specialize (IH F2).
  destruct t; try (destruct (IH H) as (b' & H1 & H2); exists b'; split; [right; exact H1|exact H2]).
  cbn [off_of] in H. destruct (Z.eqb_spec i n) as [->|N].
  - injection H as <-. exists b. split; [left; reflexivity|]. cbn [piece_ok] in F1. apply F1.
  - destruct (IH H) as (b' & H1 & H2). exists b'. split; [right; exact H1|exact H2].
Qed.

(** ** The FAT *)
Lemma zlen_us2 a b w : pack_us [(4%nat, a); (4%nat, b)] = Ok w -> w = le 4 a ++ le 4 b /\ 0 <= a < 2 ^ 32 /\ 0 <= b < 2 ^ 32.
Proof. intros H. cbn [pack_us bind] in H. apply bind_ok in H as (x & X & H). apply bind_ok in H as (y & Y & H). apply bind_ok in Y as (y' & Y & Y'). apply pack_u_inv in X as (X & ->). apply pack_u_inv in Y as (Y & ->).
  injection Y' as <-. injection H as <-. rewrite ?app_nil_r. change (256 ^ Z.of_nat 4) with (2 ^ 32) in *. auto. Qed.
Lemma fat_inv o fat : 0 <= fat -> forall fs i d d', 0 <= i -> foldM (put_fat o fat) d (combine (range_z i (length fs)) fs) = Ok d' ->
  zlen d' = zlen d /\
  (forall s b, at_ d s b -> s + zlen b <= fat + 8 * i \/ fat + 8 * (i + zlen fs) <= s -> at_ d' s b) /\
  (forall k f, nth_error fs k = Some f -> exists s, off_of o (i + Z.of_nat k) = Some s /\ 0 <= s /\ s + zlen f < 2 ^ 32 /\
     at_ d' (fat + 8 * (i + Z.of_nat k)) (le 4 s ++ le 4 (s + zlen f))).
Proof.
  intros F0. induction fs as [|f fs IH]; intros i d d' I H.
  - cbn in H. injection H as <-. split; [reflexivity|]. split; [easy|]. intros [|k] g; discriminate.
  - cbn [length range_z combine foldM] in H. apply bind_ok in H as (d1 & E & H). unfold put_fat in E.
    destruct (off_of o i) as [s|] eqn:O; [|discriminate]. apply bind_ok in E as (w & W & E). apply zlen_us2 in W as (-> & W1 & W2).
    apply (IH (i + 1)) in H as (L & K & G); [|lia]. pose proof (zlen_nonneg fs). rewrite zlen_cons. split; [|split].
    + rewrite L. exact (put_zlen _ _ _ _ E).
    + intros s0 b A D. apply K; [|lia]. eapply at_put_other; [|exact E|exact A|]; [lia|]. rewrite zlen_app, !zlen_le. lia.
    + intros [|k] g N.
      * cbn in N. injection N as <-. exists s. replace (i + Z.of_nat 0) with i by lia. split; [exact O|]. split; [lia|]. split; [lia|].
        apply K; [|rewrite zlen_app, !zlen_le; lia]. eapply at_put_same; [|exact E]. lia.
      * cbn [nth_error] in N. apply G in N as (s' & N). exists s'. replace (i + Z.of_nat (S k)) with (i + 1 + Z.of_nat k) by lia. exact N.
Qed.

(** ** The whole body *)
Definition round (a n : Z) : Z := n + (- n) mod a.
(** the padding after the header, before the word at 0x1000 is written *)
Definition head_pad (r : rom) : bytes := pad200 r ++ zeros (round 0x4000 (0x200 + zlen (pad200 r)) - 0x200 - zlen (pad200 r)).
Definition arm9_all (r : rom) : bytes := arm9 r ++ arm9PostData r ++ rep 0xFF ((- zlen (arm9 r ++ arm9PostData r)) mod 0x200).
Definition part_at (P : list piece) (t : own) (o : Z) (b : bytes) : Prop := (b = [] -> o = 0) /\ (b <> [] -> 0x4000 <= o /\ In (t, o, b) P).
Definition at_end (fs : list bytes) (D : bytes) (p : piece) : Prop :=
  let '(t, s, b) := p in
  s mod 0x200 = 0 /\ (t = Head /\ s = 0 \/ 0x4000 <= s) /\ (t = Head \/ t = Fat \/ at_ D s b) /\ match t with File i => get fs i = Ok b | _ => True end.

Record body_spec (r : rom) (D : bytes) (l : layout) (P : list piece) (fnt : bytes) : Prop := {
  bs_fnt : FntModel.save (filenames r) = Ok fnt;
  bs_lfnt : lFnt l = zlen fnt;
  bs_banner : iconBanner r = [] \/ exists v, unpack_u 2 (iconBanner r) 0 = Ok v /\ zlen (iconBanner r) = banner_len v;
  bs_chain : chain P (oRsa l);
  bs_ends : Forall (at_end (files r) D) P;
  bs_oarm9 : oArm9 l = round 0x4000 (0x200 + zlen (pad200 r));
  bs_head : In (Head, 0, zeros 0x200 ++ head_pad r) P;
  bs_arm9 : In (Arm9, oArm9 l, arm9_all r) P;
  bs_ovt9 : part_at P Ovt9 (oOvt9 l) (arm9OverlayTable r);
  bs_arm7 : In (Arm7, oArm7 l, arm7 r) P;
  bs_ovt7 : part_at P Ovt7 (oOvt7 l) (arm7OverlayTable r);
  bs_infnt : In (Fnt, oFnt l, fnt) P;
  bs_infat : In (Fat, oFat l, zeros (8 * zlen (files r))) P;
  bs_inbanner : part_at P Banner (oBanner l) (iconBanner r);
  bs_indebug : part_at P Debug (oDebug l) (debugRom r);
  bs_files : forall k f, nth_error (files r) k = Some f -> exists s, off_of (oFiles l) (Z.of_nat k) = Some s /\ In (File (Z.of_nat k), s, f) P /\
     s + zlen f < 2 ^ 32 /\ at_ D (oFat l + 8 * Z.of_nat k) (le 4 s ++ le 4 (s + zlen f));
  bs_rsa : 0x4000 <= oRsa l < 2 ^ 32 /\ oRsa l mod 0x20 = 0;
  bs_1000 : at_ D 0x1000 (le 4 (oRsa l));
  bs_pad : at_ D 0x200 (firstn 0xE00 (head_pad r) ++ le 4 (oRsa l) ++ skipn 0xE04 (head_pad r));
  bs_size : zlen D = round 0x400 (oRsa l + zlen (rsaSignature r));
  bs_atrsa : at_ D (oRsa l) (rsaSignature r ++ zeros ((- (oRsa l + zlen (rsaSignature r))) mod 0x400)) }.

Lemma foffs_files Q P : foffs (Q ++ P) = foffs Q ++ foffs P.
Proof. induction Q as [|[[t s] b] Q IH]; [reflexivity|]. cbn [app foffs]. rewrite IH. destruct t; reflexivity. Qed.
Lemma in_opt t o b P : b <> [] -> In (t, o, b) (opt t o b ++ P).
Proof. destruct b; [congruence|]. intros _. left. reflexivity. Qed.
Lemma round_mod a n : 0 < a -> round a n mod a = 0.
Proof. unfold round. intros. rewrite Z.add_mod_idemp_r by lia. rewrite Z.add_opp_diag_r. apply Z.mod_0_l. lia. Qed.

Lemma rom_body_spec r D l : rom_body r = Ok (D, l) -> exists P fnt, body_spec r D l P fnt.
Proof.
  intros H. unfold rom_body in H. cbv zeta in H.
  set (d0 := pad_to 0x4000 0 (zeros 0x200 ++ pad200 r)) in H. set (fs := files r) in H.
  assert (E0 : d0 = zeros 0x200 ++ head_pad r).
  { unfold d0, pad_to, head_pad. rewrite <- app_assoc. do 2 f_equal. unfold zeros at 1 2. f_equal. rewrite zlen_app, zlen_zeros by lia. unfold round. lia. }
  assert (L0 : zlen d0 = round 0x4000 (0x200 + zlen (pad200 r))) by (unfold d0; rewrite zlen_pad_to, zlen_app, zlen_zeros by lia; reflexivity).
  assert (M0 : zlen d0 mod 0x4000 = 0) by (apply pad_to_mod; lia).
  assert (G0 : 0x4000 <= zlen d0).
  { pose proof (zlen_nonneg (pad200 r)) as N. unfold round in L0. clearbody d0. clear - L0 M0 N. Z.to_euclidean_division_equations. lia. }
  assert (I0 : inv fs d0 [(Head, 0, d0)]).
  { split; [cbn [chain]; split; [lia|exact Logic.I]|]. split; [|exact G0]. constructor; [|constructor]. cbn [piece_ok].
    split; [pose proof (at_whole d0 []) as W; rewrite app_nil_r in W; exact W|]. split; [reflexivity|]. split; [left; split; reflexivity|exact Logic.I]. }
  assert (A0 : aligned d0) by (unfold aligned; clear - M0; clearbody d0; Z.to_euclidean_division_equations; lia).
  set (d1 := alignF (d0 ++ arm9 r ++ arm9PostData r)) in H.
  assert (E1 : d1 = d0 ++ arm9_all r).
  { unfold d1, alignF, pad_to, arm9_all. rewrite <- !app_assoc. do 4 f_equal. rewrite (zlen_app d0). unfold aligned in A0. clear - A0. set (q := zlen (arm9 r ++ _)). clearbody q. clearbody d0. Z.to_euclidean_division_equations. lia. }
  assert (A1 : aligned d1) by apply aligned_F.
  assert (I1 : inv fs d1 ((Arm9, zlen d0, arm9_all r) :: [(Head, 0, d0)])) by (rewrite E1; apply inv_add; [exact I0|exact A0|exact Logic.I]).
  destruct (pack_part (arm9OverlayTable r) d1) as [d2 ov9] eqn:E2.
  destruct (part_inv fs d1 _ Ovt9 _ d2 ov9 I1 A1 Logic.I E2) as (I2 & A2 & F2 & Z2 & N2).
  set (P2 := opt Ovt9 ov9 (arm9OverlayTable r) ++ _) in I2, F2. change (foffs P2 = []) in F2.
  apply bind_ok in H as ([d3 o3] & E3 & H). unfold pack_overlays in E3. rewrite <- F2 in E3.
  apply (overlays_inv fs _ _ _ _ _ _ I2 A2) in E3 as (Q3 & I3 & A3 & -> & T3). set (P3 := Q3 ++ P2) in *.
  set (d4 := alignF (d3 ++ arm7 r)) in H.
  assert (I4 : inv fs d4 ((Arm7, zlen d3, arm7 r) :: P3)) by (apply inv_put; [exact I3|exact A3|exact Logic.I]).
  assert (A4 : aligned d4) by apply aligned_F. set (P4 := (Arm7, zlen d3, arm7 r) :: P3) in I4.
  destruct (pack_part (arm7OverlayTable r) d4) as [d5 ov7] eqn:E5.
  destruct (part_inv fs d4 _ Ovt7 _ d5 ov7 I4 A4 Logic.I E5) as (I5 & A5 & F5 & Z5 & N5).
  set (P5 := opt Ovt7 ov7 (arm7OverlayTable r) ++ P4) in I5, F5. change (foffs P5 = foffs P3) in F5.
  apply bind_ok in H as ([d6 o6] & E6 & H). unfold pack_overlays in E6. rewrite <- F5 in E6.
  apply (overlays_inv fs _ _ _ _ _ _ I5 A5) in E6 as (Q6 & I6 & A6 & -> & T6). set (P6 := Q6 ++ P5) in *.
  apply bind_ok in H as (fnt & EF & H).
  set (d7 := alignF (d6 ++ fnt)) in H.
  assert (I7 : inv fs d7 ((Fnt, zlen d6, fnt) :: P6)) by (apply inv_put; [exact I6|exact A6|exact Logic.I]).
  assert (A7 : aligned d7) by apply aligned_F. set (P7 := (Fnt, zlen d6, fnt) :: P6) in I7.
  set (d8 := alignF (d7 ++ zeros (8 * zlen fs))) in H.
  assert (I8 : inv fs d8 ((Fat, zlen d7, zeros (8 * zlen fs)) :: P7)) by (apply inv_put; [exact I7|exact A7|exact Logic.I]).
  assert (A8 : aligned d8) by apply aligned_F. set (P8 := (Fat, zlen d7, zeros (8 * zlen fs)) :: P7) in I8.
  apply bind_ok in H as (u & EB & H).
  destruct (pack_part (iconBanner r) d8) as [d9 ob] eqn:E9.
  destruct (part_inv fs d8 _ Banner _ d9 ob I8 A8 Logic.I E9) as (I9 & A9 & F9 & Z9 & N9). set (P9 := opt Banner ob (iconBanner r) ++ P8) in I9, F9.
  destruct (pack_part (debugRom r) d9) as [d10 od] eqn:E10.
  destruct (part_inv fs d9 _ Debug _ d10 od I9 A9 Logic.I E10) as (I10 & A10 & F10 & Z10 & N10). set (P10 := opt Debug od (debugRom r) ++ P9) in I10, F10.
  rewrite F9 in F10. change (foffs P10 = foffs P6) in F10. rewrite <- F10 in H.
  apply bind_ok in H as (st11 & E11 & H).
  apply (loop_inv fs _ (sorted_step fs) _ _ _ _ I10) in E11 as (Q11 & I11 & F11 & T11). destruct st11 as [d11 o11]. cbn [fst snd] in I11, F11. subst o11.
  set (P11 := Q11 ++ P10) in *.
  apply bind_ok in H as ([d12 o12] & E12 & H). pose proof (rest_all fs _ _ _ _ I11 E12) as ALL. cbn [snd] in ALL.
  apply (loop_inv fs _ (rest_step fs) _ _ _ _ I11) in E12 as (Q12 & I12 & F12 & T12). cbn [fst snd] in I12, F12. subst o12.
  set (P := Q12 ++ P11) in *.
  apply bind_ok in H as (d13 & E13 & H).
  destruct I12 as (C12 & K12 & G12).
  assert (INC : forall p, In p P10 -> In p P) by (intros p Hp; unfold P, P11; apply in_or_app; right; apply in_or_app; right; exact Hp).
  assert (INFAT : In (Fat, zlen d7, zeros (8 * zlen fs)) P).
  { apply INC. unfold P10, P9. apply in_or_app. right. apply in_or_app. right. left. reflexivity. }
  assert (FB := proj1 (Forall_forall _ _) K12 _ INFAT). cbn [piece_ok] in FB. destruct FB as (FA & FM & [(FC & _)|FG] & _); [discriminate|].
  apply (fat_inv (foffs P) (zlen d7) ltac:(lia) fs 0 d12 d13 ltac:(lia)) in E13 as (L13 & K13 & X13).
  apply bind_ok in H as (w & EW & H). apply pack_u_inv in EW as (WR & ->). set (oR := zlen (pad_to 0x20 0 d13)) in *.
  apply bind_ok in H as (d15 & E15 & H). assert (ED : pad_to 0x400 0 d15 = D) by congruence. assert (EL := f_equal (fun x => match x with Ok (_, y) => y | _ => l end) H). cbv beta iota in EL. clear H.
  pose proof (put_zlen _ _ _ _ E15) as L15. rewrite zlen_app in L15. fold oR in L15.
  assert (LR : oR = round 0x20 (zlen d12)) by (unfold oR; rewrite zlen_pad_to, L13 by lia; reflexivity).
  assert (GR : zlen d12 <= oR) by (rewrite LR; unfold round; pose proof (Z.mod_pos_bound (- zlen d12) 0x20); lia).
  assert (KEEP : forall s b, 0x4000 <= s -> at_ d13 s b -> at_ D s b).
  { intros s b Hs A. subst D. unfold pad_to. apply at_ext. eapply at_put_other; [|exact E15| |]; [lia| |right; rewrite zlen_le; lia].
    unfold pad_to. rewrite <- app_assoc. apply at_ext. exact A. }
  assert (LD : zlen D = round 0x400 (oR + zlen (rsaSignature r))) by (subst D; rewrite zlen_pad_to, L15 by lia; reflexivity).
  exists P, fnt. subst l. constructor; cbn [oArm9 oOvt9 oArm7 oOvt7 oFnt lFnt oFat oBanner oDebug oRsa oFiles]; fold fs.
  - exact EF.
  - reflexivity.
  - destruct (iconBanner r) as [|x b]; [left; reflexivity|]. right. apply bind_ok in EB as (v & EV & EB). exists v. split; [exact EV|]. apply guard_ok in EB. lia.
  - eapply chain_weak; [exact C12|exact GR].
  - apply Forall_forall. intros [[t s] b] Hp. pose proof (proj1 (Forall_forall _ _) K12 _ Hp) as Kp. cbn [piece_ok] in Kp. destruct Kp as (Kp1 & Kp2 & Kp3 & Kp4).
    cbn [at_end]. split; [exact Kp2|]. split; [exact Kp3|]. split; [|exact Kp4].
    destruct Kp3 as [(Kp3 & _)|Kp3]; [left; exact Kp3|].
    assert (DEC : t = Fat \/ t <> Fat) by (destruct t; try (right; discriminate); left; reflexivity).
    destruct DEC as [TF|TF]; [right; left; exact TF|]. right. right. apply KEEP; [exact Kp3|]. apply K13; [exact Kp1|].
    pose proof (chain_disjoint P _ _ _ C12 Hp INFAT TF) as DJ. cbn [fst snd] in DJ. rewrite zlen_zeros in DJ by (pose proof (zlen_nonneg fs); lia). lia.
  - exact L0.
  - rewrite <- E0. apply INC. unfold P10, P9, P8, P7, P6, P5, P4, P3, P2. repeat first [left; reflexivity | apply in_or_app; right | right].
  - apply INC. unfold P10, P9, P8, P7, P6, P5, P4, P3, P2. do 2 (apply in_or_app; right). right. right. do 2 (apply in_or_app; right). right. do 2 (apply in_or_app; right). left. reflexivity.
  - split; [exact Z2|]. intros N. split; [exact (N2 N)|]. apply INC. unfold P10, P9, P8, P7, P6, P5, P4, P3, P2. do 2 (apply in_or_app; right). right. right. do 2 (apply in_or_app; right). right. apply in_or_app; right. apply in_opt. exact N.
  - apply INC. unfold P10, P9, P8, P7, P6, P5, P4. do 2 (apply in_or_app; right). right. right. do 2 (apply in_or_app; right). left. reflexivity.
  - split; [exact Z5|]. intros N. split; [exact (N5 N)|]. apply INC. unfold P10, P9, P8, P7, P6, P5. do 2 (apply in_or_app; right). right. right. apply in_or_app; right. apply in_opt. exact N.
  - apply INC. unfold P10, P9, P8, P7. do 2 (apply in_or_app; right). right. left. reflexivity.
  - exact INFAT.
  - split; [exact Z9|]. intros N. split; [exact (N9 N)|]. apply INC. unfold P10, P9. apply in_or_app; right. apply in_opt. exact N.
  - split; [exact Z10|]. intros N. split; [exact (N10 N)|]. apply INC. unfold P10. apply in_opt. exact N.
  - intros k f N. destruct (X13 k f N) as (s & O & S0 & S1 & A). rewrite Z.add_0_l in O, A. exists s. split; [exact O|].
    destruct (off_in fs d12 P _ _ (conj C12 (conj K12 G12)) O) as (b & B1 & B2).
    assert (b = f). { apply get_inv in B2; [|lia]. rewrite Nat2Z.id in B2. congruence. }
    subst b. split; [exact B1|]. split; [exact S1|]. apply KEEP; [lia|exact A].
  - change (256 ^ Z.of_nat 4) with (2 ^ 32) in WR. split; [lia|]. rewrite LR. apply round_mod. lia.
  - subst D. unfold pad_to. apply at_ext. eapply at_put_same; [|exact E15]. lia.
  - assert (INH : In (Head, 0, d0) P) by (apply INC; unfold P10, P9, P8, P7, P6, P5, P4, P3, P2; repeat first [left; reflexivity | apply in_or_app; right | right]).
    pose proof (chain_disjoint P _ _ _ C12 INH INFAT ltac:(discriminate)) as DJ. cbn [fst snd] in DJ. rewrite zlen_zeros in DJ by (pose proof (zlen_nonneg fs); lia).
    pose proof (proj1 (Forall_forall _ _) K12 _ INH) as KH. cbn [piece_ok] in KH. destruct KH as (KH & _).
    assert (LH : zlen (head_pad r) = zlen d0 - 0x200) by (rewrite E0, zlen_app, zlen_zeros by lia; lia).
    assert (KH' : at_ (pad_to 0x20 0 d13 ++ rsaSignature r) 0 d0).
    { unfold pad_to. rewrite <- app_assoc. apply at_ext, K13; [exact KH|]. lia. }
    rewrite E0 in KH'. apply at_app in KH' as (_ & KH'). rewrite zlen_zeros in KH' by lia. cbn [Z.add] in KH'.
    rewrite <- (firstn_skipn 0xE00 (head_pad r)) in KH'. rewrite <- (firstn_skipn 4 (skipn 0xE00 (head_pad r))) in KH'. rewrite skipn_skipn_ in KH'.
    change (0xE00 + 4)%nat with 0xE04%nat in KH'. apply at_app in KH' as (KA & KB). apply at_app in KB as (KB & KC).
    assert (LG : 0x3E00 <= zlen (head_pad r)) by (clear - LH L0; pose proof (zlen_nonneg (pad200 r)); assert (0x4000 <= round 0x4000 (0x200 + zlen (pad200 r))) by (pose proof (round_mod 0x4000 (0x200 + zlen (pad200 r)) ltac:(lia)); unfold round in *; pose proof (Z.mod_pos_bound (- (0x200 + zlen (pad200 r))) 0x4000); lia); lia).
    assert (LA : zlen (firstn 0xE00 (head_pad r)) = 0xE00) by (clear - LG; rewrite zlen_firstn; lia).
    assert (LB : zlen (firstn 4 (skipn 0xE00 (head_pad r))) = 4) by (clear - LG; rewrite zlen_firstn, zlen_skipn; lia).
    subst D. unfold pad_to at 1. apply at_ext. apply at_app. split.
    + eapply at_put_other; [|exact E15|exact KA|left; clear - LA; lia]; clear; lia.
    + apply at_app. split.
      * rewrite LA. eapply at_put_same; [|exact E15]. clear; lia.
      * eapply at_put_other; [|exact E15| |right; rewrite LA, zlen_le; clear; lia]; [clear; lia|]. rewrite LB in KC. rewrite zlen_le. exact KC.
  - exact LD.
  - apply at_app. split.
    + subst D. unfold pad_to at 1. apply at_ext. eapply at_put_other; [|exact E15| |right; rewrite zlen_le; lia]; [lia|].
      pose proof (at_mid (pad_to 0x20 0 d13) (rsaSignature r) []) as M. rewrite app_nil_r in M. exact M.
    + subst D. unfold pad_to at 1. rewrite <- L15. pose proof (at_mid d15 (rep 0 (- zlen d15 mod 1024)) []) as M. rewrite app_nil_r in M. exact M.
Qed.

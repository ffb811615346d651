(** * Words of a saved ROM and the ranges they announce *)
From Coq Require Import FinFun.
From Verif Require Import PyBase PyLemmas PyTac AtLemmas CommonModel FntModel CodeModel RomModel RomSpec RomBody RomHeader.

Lemma at_stored d o b : at_ d o b -> stored d o b.
Proof. intros A. apply at_split in A as (u & v & E & L). exists u, v. split; assumption. Qed.
Lemma stored_at d o b : stored d o b -> at_ d o b.
Proof. intros (u & v & -> & <-). apply at_mid. Qed.
Lemma word_at d o v : at_ d o (le 4 v) -> 0 <= v < 256 ^ Z.of_nat 4 -> word d o = v.
Proof. intros A V. unfold word. rewrite (at_slice _ _ _ _ A) by (rewrite zlen_le; reflexivity). apply unle_le_id. exact V. Qed.
Lemma half_at d o v : at_ d o (le 2 v) -> 0 <= v < 256 ^ Z.of_nat 2 -> half d o = v.
Proof. intros A V. unfold half. rewrite (at_slice _ _ _ _ A) by (rewrite zlen_le; reflexivity). apply unle_le_id. exact V. Qed.

(** facts about the [k]-th header field *)
Ltac hfield HS k :=
  lazymatch type of HS with header_spec ?r ?l ?cap ?h =>
    let X := fresh "X" in
    lazymatch goal with |- context [h ++ ?tail] =>
      pose proof (header_at r l cap h tail HS k _ eq_refl) as X;
      let w := eval lazy in (wsum (firstn k (header_fields r l cap))) in
      change (wsum (firstn k (header_fields r l cap))) with w in X; cbn [henc hvalid] in X
    end end.
Ltac dfield HS k :=
  lazymatch type of HS with header_spec ?r ?l ?cap ?h =>
    let X := fresh "X" in
    lazymatch goal with |- context [h ++ ?tail] =>
      pose proof (debug_at r l cap h tail HS k _ eq_refl) as X;
      let w := eval lazy in (0x160 + wsum (firstn k (debug_fields r l))) in
      change (0x160 + wsum (firstn k (debug_fields r l))) with w in X; cbn [henc hvalid] in X
    end end.
Ltac hword HS k := hfield HS k; match goal with X : at_ _ _ _ /\ _ |- _ => exact (word_at _ _ _ (proj1 X) (proj2 X)) end.
Ltac dword HS k := dfield HS k; match goal with X : at_ _ _ _ /\ _ |- _ => exact (word_at _ _ _ (proj1 X) (proj2 X)) end.

Record words (r : rom) (l : layout) (fnt : bytes) (d : bytes) : Prop := {
  w_arm9 : word d 0x20 = oArm9 l; w_arm9len : word d 0x2C = zlen (arm9 r);
  w_arm7 : word d 0x30 = oArm7 l; w_arm7len : word d 0x3C = zlen (arm7 r);
  w_fnt : word d 0x40 = oFnt l; w_fntlen : word d 0x44 = zlen fnt;
  w_fat : word d 0x48 = oFat l; w_fatlen : word d 0x4C = zlen (files r) * 8;
  w_ovt9 : word d 0x50 = oOvt9 l; w_ovt9len : word d 0x54 = zlen (arm9OverlayTable r);
  w_ovt7 : word d 0x58 = oOvt7 l; w_ovt7len : word d 0x5C = zlen (arm7OverlayTable r);
  w_banner : word d 0x68 = oBanner l;
  w_rsa : word d 0x80 = oRsa l; w_size : word d 0x84 = 0x4000;
  w_debug : word d 0x160 = oDebug l; w_debuglen : word d 0x164 = zlen (debugRom r) }.
Lemma header_words r l cap h tail fnt : header_spec r l cap h -> lFnt l = zlen fnt -> words r l fnt (h ++ tail).
Proof.
  intros HS LF. constructor.
  - hword HS 17%nat.
  - hword HS 20%nat.
  - hword HS 21%nat.
  - hword HS 24%nat.
  - hword HS 25%nat.
  - rewrite <- LF. hword HS 26%nat.
  - hword HS 27%nat.
  - hword HS 28%nat.
  - hword HS 29%nat.
  - hword HS 30%nat.
  - hword HS 31%nat.
  - hword HS 32%nat.
  - hword HS 35%nat.
  - hword HS 41%nat.
  - hword HS 42%nat.
  - dword HS 0%nat.
  - dword HS 1%nat.
Qed.

(** ** Pieces in the finished file *)
Lemma piece_stored fs D P t s b d : Forall (at_end fs D) P -> In (t, s, b) P -> t <> Head -> t <> Fat ->
  (forall s b, 0x200 <= s -> at_ D s b -> at_ d s b) -> at_ d s b /\ s mod 0x200 = 0 /\ 0x4000 <= s.
Proof.
  intros F I N1 N2 K. pose proof (proj1 (Forall_forall _ _) F _ I) as E. cbn [at_end] in E. destruct E as (E1 & [(E2 & _)|E2] & [E3|[E3|E3]] & _); try congruence.
  split; [|split; assumption]. apply K; [lia|exact E3].
Qed.
Lemma part_announced fs D P t o b d w : Forall (at_end fs D) P -> part_at P t o b -> t <> Head -> t <> Fat ->
  (forall s b, 0x200 <= s -> at_ D s b -> at_ d s b) -> word d w = o -> announced d w b.
Proof.
  intros F (Z0 & N0) N1 N2 K W. unfold announced. rewrite W. destruct b as [|x b].
  - apply Z0. reflexivity.
  - destruct N0 as (G & I); [discriminate|]. split; [|exact G]. apply at_stored. eapply piece_stored; eassumption.
Qed.

Lemma fat_words d o s e : at_ d o (le 4 s ++ le 4 e) -> 0 <= s < 2 ^ 32 -> 0 <= e < 2 ^ 32 -> word d o = s /\ word d (o + 4) = e.
Proof.
  intros A HS HE. apply at_app in A as (A1 & A2). rewrite zlen_le in A2. split; apply word_at; assumption.
Qed.

(** ** Disjointness *)
Definition covered (P : list piece) (x : own * (Z * Z)) : Prop :=
  let '(t, (s, n)) := x in 0 <= n /\ ((s = 0 /\ n = 0) \/ exists b, In (t, s, b) P /\ n <= zlen b).
Lemma covered_disjoint P hi x y : chain P hi -> (forall t s b, In (t, s, b) P -> 0 <= s) -> covered P x -> covered P y -> fst x <> fst y -> disjoint (snd x) (snd y).
Proof.
  destruct x as [t [s n]], y as [t' [s' n']]. cbn [covered fst snd]. unfold disjoint. cbn [fst snd]. intros C G (N1 & C1) (N2 & C2) T.
  destruct C1 as [(-> & ->)|(b & I1 & L1)], C2 as [(-> & ->)|(b' & I2 & L2)]; [lia| | |].
  - pose proof (G _ _ _ I2). lia.
  - pose proof (G _ _ _ I1). lia.
  - pose proof (chain_disjoint P hi _ _ C I1 I2 T) as D. cbn [fst snd] in D. lia.
Qed.
Lemma covered_pairs P hi xs : chain P hi -> (forall t s b, In (t, s, b) P -> 0 <= s) -> Forall (covered P) xs -> NoDup (map fst xs) -> ForallOrdPairs disjoint (map snd xs).
Proof.
  intros C G F N. induction xs as [|x xs IH]; [constructor|]. inversion F; inversion N; subst. cbn [map]. constructor; [|apply IH; assumption].
  apply Forall_forall. intros q Q. apply in_map_iff in Q as (y & <- & Y). apply (covered_disjoint P hi); [exact C|exact G|assumption| |].
  - apply (proj1 (Forall_forall _ _) H2 y Y).
  - intros E. apply H5. rewrite E. apply in_map. exact Y.
Qed.
Lemma part_covered P t o b : part_at P t o b -> covered P (t, (o, zlen b)).
Proof.
  intros (Z0 & N0). pose proof (zlen_nonneg b). cbn [covered]. split; [lia|]. destruct b as [|x b]; [left; split; [apply Z0; reflexivity|reflexivity]|].
  right. exists (x :: b). split; [apply N0; discriminate|lia].
Qed.
Lemma ordpairs_app {A} (R : A -> A -> Prop) l1 l2 : ForallOrdPairs R l1 -> ForallOrdPairs R l2 -> (forall x y, In x l1 -> In y l2 -> R x y) -> ForallOrdPairs R (l1 ++ l2).
Proof.
  intros F1 F2 X. induction F1 as [|a l F F1 IH]; [exact F2|]. cbn [app]. constructor.
  - apply Forall_app. split; [exact F|]. apply Forall_forall. intros y Y. apply X; [left; reflexivity|exact Y].
  - apply IH. intros x y Hx. apply X. right. exact Hx.
Qed.

Lemma in_combine_seq {A} (l : list A) p : In p (combine (seq 0 (length l)) l) -> nth_error l (fst p) = Some (snd p).
Proof.
  assert (G : forall s, In p (combine (seq s (length l)) l) -> (s <= fst p)%nat /\ nth_error l (fst p - s) = Some (snd p)).
  { induction l as [|x l IH]; cbn [length seq combine]; intros s I; [easy|]. destruct I as [<-|I].
    - cbn [fst snd]. split; [lia|]. rewrite Nat.sub_diag. reflexivity.
    - destruct (IH (S s) I) as (L & E). split; [lia|]. replace (fst p - s)%nat with (S (fst p - S s)) by lia. exact E. }
  intros I. destruct (G 0%nat I) as (_ & E). rewrite Nat.sub_0_r in E. exact E.
Qed.
Lemma combine_fst {A B} (a : list A) (b : list B) : length a = length b -> map fst (combine a b) = a.
Proof. revert b. induction a as [|x a IH]; intros [|y b] L; try discriminate; [reflexivity|]. cbn. rewrite IH; [reflexivity|]. injection L as L. exact L. Qed.

Section Saved.
Context (upd : bool) (r : rom) (data : bytes) (r1 : rom) (E : rom_save upd r = Ok (data, r1)).

Lemma saved_layout :
  (word data 0x20 mod 0x4000 = 0 /\ 0x4000 <= word data 0x20 /\ word data 0x2C = zlen (arm9 r) /\
   stored data (word data 0x20) (arm9 r ++ arm9PostData r)) /\
  (word data 0x3C = zlen (arm7 r) /\ stored data (word data 0x30) (arm7 r)) /\
  (exists fnt, FntModel.save (filenames r) = Ok fnt /\ word data 0x44 = zlen fnt /\ stored data (word data 0x40) fnt) /\
  (word data 0x54 = zlen (arm9OverlayTable r) /\ announced data 0x50 (arm9OverlayTable r)) /\
  (word data 0x5C = zlen (arm7OverlayTable r) /\ announced data 0x58 (arm7OverlayTable r)) /\
  announced data 0x68 (iconBanner r) /\
  (word data 0x164 = zlen (debugRom r) /\ announced data 0x160 (debugRom r)) /\
  (word data 0x1000 = word data 0x80 /\ stored data (word data 0x80) (rsaSignature r)) /\
  word data 0x4C = 8 * zlen (files r) /\
  (forall i f, nth_error (files r) i = Some f ->
     word data (word data 0x48 + 8 * Z.of_nat i + 4) = fat_start data i + zlen f /\
     stored data (fat_start data i) f /\ fat_start data i mod 0x200 = 0 /\ 0x4000 <= fat_start data i).
Proof.
  destruct (rom_save_spec _ _ _ _ E) as (D & l & P & fnt & h & cap & B & HS & ED & _ & _ & LD & K).
  assert (W : words r l fnt data) by (rewrite ED; eapply header_words; [exact HS|apply (bs_lfnt _ _ _ _ _ B)]).
  destruct B as [B1 B2 B3 B4 B5 B6 B7 B8 B9 B10 B11 B12 B13 B14 B15 B16 B17 B18 B19 B20 B21].
  destruct B17 as (R1 & R2). clear B19.
  assert (PS : forall t s b, In (t, s, b) P -> t <> Head -> t <> Fat -> at_ data s b /\ s mod 0x200 = 0 /\ 0x4000 <= s) by (intros; eapply piece_stored; eassumption).
  repeat match goal with |- _ /\ _ => split end.
  - rewrite (w_arm9 _ _ _ _ W), B6. apply round_mod. lia.
  - rewrite (w_arm9 _ _ _ _ W). apply (PS _ _ _ B8); discriminate.
  - exact (w_arm9len _ _ _ _ W).
  - rewrite (w_arm9 _ _ _ _ W). destruct (PS _ _ _ B8) as (A & _); [discriminate..|]. unfold arm9_all in A. rewrite app_assoc in A. apply at_app in A as (A & _). apply at_stored. exact A.
  - exact (w_arm7len _ _ _ _ W).
  - rewrite (w_arm7 _ _ _ _ W). apply at_stored, (PS _ _ _ B10); discriminate.
  - exists fnt. split; [exact B1|]. split; [exact (w_fntlen _ _ _ _ W)|]. rewrite (w_fnt _ _ _ _ W). apply at_stored, (PS _ _ _ B12); discriminate.
  - exact (w_ovt9len _ _ _ _ W).
  - eapply part_announced; [exact B5|exact B9|discriminate|discriminate|exact K|exact (w_ovt9 _ _ _ _ W)].
  - exact (w_ovt7len _ _ _ _ W).
  - eapply part_announced; [exact B5|exact B11|discriminate|discriminate|exact K|exact (w_ovt7 _ _ _ _ W)].
  - eapply part_announced; [exact B5|exact B14|discriminate|discriminate|exact K|exact (w_banner _ _ _ _ W)].
  - exact (w_debuglen _ _ _ _ W).
  - eapply part_announced; [exact B5|exact B15|discriminate|discriminate|exact K|exact (w_debug _ _ _ _ W)].
  - rewrite (w_rsa _ _ _ _ W). apply word_at; [apply K; [lia|exact B18]|]. change (256 ^ Z.of_nat 4) with (2 ^ 32). lia.
  - rewrite (w_rsa _ _ _ _ W). apply at_stored. apply at_app in B21 as (B21 & _). apply K; [lia|exact B21].
  - rewrite (w_fatlen _ _ _ _ W). lia.
  - intros i f N. unfold fat_start. rewrite (w_fat _ _ _ _ W). destruct (B16 i f N) as (s & O & I & L & A).
    destruct (PS _ _ _ I) as (A2 & M & G); [discriminate..|]. pose proof (zlen_nonneg f).
    assert (GF : 0x4000 <= oFat l). { pose proof (proj1 (Forall_forall _ _) B5 _ B13) as X. cbn [at_end] in X. destruct X as (_ & [(X & _)|X] & _); [discriminate|exact X]. }
    apply K in A; [|lia].
    destruct (fat_words data _ _ _ A) as (-> & ->); [lia|lia|].
    split; [reflexivity|]. split; [apply at_stored; exact A2|]. split; [exact M|exact G].
Qed.

Lemma saved_disjoint : ForallOrdPairs disjoint (regions r data).
Proof.
  destruct (rom_save_spec _ _ _ _ E) as (D & l & P & fnt & h & cap & B & HS & ED & _ & _ & LD & K).
  assert (W : words r l fnt data) by (rewrite ED; eapply header_words; [exact HS|apply (bs_lfnt _ _ _ _ _ B)]).
  destruct B as [B1 B2 B3 B4 B5 B6 B7 B8 B9 B10 B11 B12 B13 B14 B15 B16 B17 B18 B19 B20 B21].
  destruct B17 as (R1 & R2). clear B19.
  set (FS := combine (seq 0 (length (files r))) (files r)).
  set (xs := [ (Arm9, (word data 0x20, zlen (arm9 r) + zlen (arm9PostData r))); (Ovt9, (word data 0x50, zlen (arm9OverlayTable r)));
    (Arm7, (word data 0x30, zlen (arm7 r))); (Ovt7, (word data 0x58, zlen (arm7OverlayTable r)));
    (Fnt, (word data 0x40, word data 0x44)); (Fat, (word data 0x48, 8 * zlen (files r)));
    (Banner, (word data 0x68, zlen (iconBanner r))); (Debug, (word data 0x160, zlen (debugRom r)));
    (Rsa, (word data 0x80, zlen (rsaSignature r))) ] ++ map (fun p => (File (Z.of_nat (fst p)), (fat_start data (fst p), zlen (snd p)))) FS).
  assert (ER : regions r data = [(0, 0x200); (0x1000, 4)] ++ map snd xs).
  { unfold regions, xs. fold FS. rewrite map_app, map_map. cbn [map snd app]. repeat f_equal. }
  set (P' := (Rsa, oRsa l, rsaSignature r) :: P).
  assert (C' : chain P' (oRsa l + zlen (rsaSignature r))) by (split; [lia|exact B4]).
  assert (G' : forall t s b, In (t, s, b) P' -> (t = Head /\ s = 0) \/ 0x4000 <= s).
  { intros t s b [I|I]; [injection I as <- <- <-; right; lia|]. pose proof (proj1 (Forall_forall _ _) B5 _ I) as X. cbn [at_end] in X. apply X. }
  assert (CV : Forall (covered P') xs).
  { assert (MONO : forall x, covered P x -> covered P' x).
    { intros [t [s n]] (N0 & [C|(b & I & L)]); (split; [exact N0|]); [left; exact C|right; exists b; split; [right; exact I|exact L]]. }
    unfold xs. apply Forall_app. split.
    - apply Forall_cons; [apply MONO|apply Forall_cons; [apply MONO|apply Forall_cons; [apply MONO|apply Forall_cons; [apply MONO|apply Forall_cons; [apply MONO|apply Forall_cons; [apply MONO|apply Forall_cons; [apply MONO|apply Forall_cons; [apply MONO|apply Forall_cons; [|apply Forall_nil]]]]]]]]].
      + cbn [covered]. rewrite (w_arm9 _ _ _ _ W). zlen_pos_goal. split; [lia|]. right. exists (arm9_all r). split; [exact B8|]. unfold arm9_all. rewrite !zlen_app. zlen_pos_goal. lia.
      + rewrite (w_ovt9 _ _ _ _ W). apply part_covered. exact B9.
      + cbn [covered]. rewrite (w_arm7 _ _ _ _ W). split; [apply zlen_nonneg|]. right. exists (arm7 r). split; [exact B10|lia].
      + rewrite (w_ovt7 _ _ _ _ W). apply part_covered. exact B11.
      + cbn [covered]. rewrite (w_fnt _ _ _ _ W), (w_fntlen _ _ _ _ W). split; [apply zlen_nonneg|]. right. exists fnt. split; [exact B12|lia].
      + cbn [covered]. rewrite (w_fat _ _ _ _ W). pose proof (zlen_nonneg (files r)). split; [lia|]. right. eexists. split; [exact B13|]. rewrite zlen_zeros; lia.
      + rewrite (w_banner _ _ _ _ W). apply part_covered. exact B14.
      + rewrite (w_debug _ _ _ _ W). apply part_covered. exact B15.
      + cbn [covered]. rewrite (w_rsa _ _ _ _ W). split; [apply zlen_nonneg|]. right. exists (rsaSignature r). split; [left; reflexivity|lia].
    - apply Forall_map, Forall_forall. intros p I. apply MONO. cbn [covered]. split; [apply zlen_nonneg|]. right. exists (snd p). split; [|lia].
      apply in_combine_seq in I. destruct (B16 _ _ I) as (s & O & J & L & A). replace (fat_start data (fst p)) with s; [exact J|].
      assert (GF : 0x4000 <= oFat l). { pose proof (proj1 (Forall_forall _ _) B5 _ B13) as X. cbn [at_end] in X. destruct X as (_ & [(X & _)|X] & _); [discriminate|exact X]. }
      apply K in A; [|lia]. pose proof (zlen_nonneg (snd p)). assert (0x4000 <= s) by (destruct (G' _ _ _ (or_intror J)) as [(X & _)|X]; [discriminate|exact X]).
      unfold fat_start. rewrite (w_fat _ _ _ _ W). symmetry. apply (fat_words data _ _ _ A); lia. }
  assert (ND : NoDup (map fst xs)).
  { unfold xs. rewrite map_app, map_map. cbn [map fst app].
    assert (NF : NoDup (map (fun p : nat * bytes => File (Z.of_nat (fst p))) FS)).
    { rewrite <- (map_map fst (fun k => File (Z.of_nat k))). unfold FS. rewrite combine_fst by apply seq_length.
      apply Injective_map_NoDup; [|apply seq_NoDup]. intros a b H. injection H as H. lia. }
    repeat (constructor; [cbn [In]; rewrite in_map_iff; intros H; repeat (destruct H as [H|H]; [discriminate|]); destruct H as (p & H & _); discriminate|]). exact NF. }
  rewrite ER. apply ordpairs_app.
  - apply FOP_cons; [apply Forall_cons; [left; cbn [fst snd]; lia|apply Forall_nil]|apply FOP_cons; [apply Forall_nil|apply FOP_nil]].
  - eapply covered_pairs; [exact C'| |exact CV|exact ND]. intros t s b I. destruct (G' _ _ _ I); lia.
  - intros x y Hx Hy. apply in_map_iff in Hy as ([t [s n]] & <- & Hy). pose proof (proj1 (Forall_forall _ _) CV _ Hy) as (N0 & C). cbn [snd].
    assert (TH : t <> Head).
    { intros ->. unfold xs in Hy. apply in_app_or in Hy as [Hy|Hy]; [cbn [In] in Hy; repeat (destruct Hy as [Hy|Hy]; [discriminate|]); exact Hy|]. apply in_map_iff in Hy as (p & Hp & _). discriminate. }
    unfold disjoint. cbn [fst snd]. destruct C as [(-> & ->)|(b & I & L)]; [right|left; destruct (G' _ _ _ I) as [(Q & _)|Q]; [congruence|]];
    destruct Hx as [<-|[<-|[]]]; cbn [fst snd]; lia.
Qed.
End Saved.

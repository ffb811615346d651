(** * Byte strings found at an offset of a larger one *)
From Verif Require Import PyBase PyLemmas PyTac.

Definition at_ {A} (data : list A) (i : Z) (x : list A) : Prop := 0 <= i /\ i + zlen x <= zlen data /\ slice data i (i + zlen x) = x.

Lemma at_mid {A} (a x b : list A) : at_ (a ++ x ++ b) (zlen a) x.
Proof. unfold at_. rewrite !zlen_app. pose proof (zlen_nonneg a). pose proof (zlen_nonneg b). split; [lia|]. split; [lia|]. apply slice_mid; lia. Qed.
Lemma at_slice {A} (data : list A) i x j : at_ data i x -> j = i + zlen x -> slice data i j = x.
Proof. intros (_ & _ & E) ->. exact E. Qed.
Lemma slice_concrete {A} (l : list A) i j : 0 <= i <= j -> j <= zlen l -> slice l i j = firstn (Z.to_nat (j - i)) (skipn (Z.to_nat i) l).
Proof. intros H1 H2. unfold slice. rewrite !clamp_id by lia. reflexivity. Qed.
Lemma at_app {A} (data : list A) i x y : at_ data i (x ++ y) <-> at_ data i x /\ at_ data (i + zlen x) y.
Proof.
  unfold at_. rewrite zlen_app. pose proof (zlen_nonneg x). pose proof (zlen_nonneg y). split.
  - intros (H1 & H2 & H3). assert (S : slice data i (i + zlen x) ++ slice data (i + zlen x) (i + zlen x + zlen y) = x ++ y).
    { rewrite slice_app_eq by lia. replace (i + zlen x + zlen y) with (i + (zlen x + zlen y)) by lia. exact H3. }
    assert (L : length (slice data i (i + zlen x)) = length x).
    { assert (zlen (slice data i (i + zlen x)) = zlen x); [|unfold zlen in *; lia]. rewrite zlen_slice by lia. lia. }
    assert (E1 : slice data i (i + zlen x) = x).
    { apply (f_equal (firstn (length x))) in S. rewrite !firstn_app_exact in S by (rewrite ?L; reflexivity). exact S. }
    rewrite E1 in S. apply app_inv_head in S. repeat split; try lia; assumption.
  - intros ((H1 & H2 & H3) & H4 & H5 & H6). split; [lia|]. split; [lia|]. rewrite <- H3 at 2. rewrite <- H6 at 2. rewrite slice_app_eq by lia. f_equal. lia.
Qed.
Lemma at_ext {A} (data post : list A) i x : at_ data i x -> at_ (data ++ post) i x.
Proof.
  intros (H1 & H2 & H3). unfold at_. rewrite zlen_app. pose proof (zlen_nonneg post). pose proof (zlen_nonneg x). split; [lia|]. split; [lia|].
  rewrite slice_app_l by lia. exact H3.
Qed.
Lemma at_pre {A} (pre data : list A) i x : at_ data i x -> at_ (pre ++ data) (zlen pre + i) x.
Proof.
  intros (H1 & H2 & H3). unfold at_. rewrite zlen_app. pose proof (zlen_nonneg pre). pose proof (zlen_nonneg x). split; [lia|]. split; [lia|].
  rewrite slice_skip by lia. rewrite <- H3 at 2. f_equal; lia.
Qed.
Lemma at_split {A} (data : list A) i x : at_ data i x -> exists a b, data = a ++ x ++ b /\ zlen a = i.
Proof.
  intros (H1 & H2 & H3). pose proof (zlen_nonneg x). exists (slice data 0 i), (slice data (i + zlen x) (zlen data)). split.
  - assert (E : slice data 0 i ++ slice data i (i + zlen x) ++ slice data (i + zlen x) (zlen data) = data) by (rewrite !slice_app_eq by lia; apply slice_all).
    rewrite H3 in E. symmetry. exact E.
  - rewrite zlen_slice by lia. lia.
Qed.
Lemma at_unpack n v data i x j : at_ data i (le n v ++ x) -> 0 <= v < 256 ^ Z.of_nat n -> j = i -> unpack_u n data j = Ok v.
Proof.
  intros H V ->. apply at_split in H as (a & b & -> & E). rewrite unpack_u_skip by lia. rewrite <- app_assoc, unpack_u_hit by lia. reflexivity.
Qed.
Lemma at_nil {A} (data : list A) i : 0 <= i <= zlen data -> at_ data i [].
Proof. intros H. unfold at_. change (zlen (@nil A)) with 0. split; [lia|]. split; [lia|]. apply slice_nil. lia. Qed.
Lemma at_u n v data i j : at_ data i (le n v) -> 0 <= v < 256 ^ Z.of_nat n -> j = i -> unpack_u n data j = Ok v.
Proof. intros H V E. apply (at_unpack n v data i [] j); [|assumption|assumption]. rewrite app_nil_r. exact H. Qed.
Lemma at_whole {A} (x post : list A) : at_ (x ++ post) 0 x.
Proof. exact (at_mid [] x post). Qed.
Ltac at_all := repeat match goal with H : at_ _ _ (_ ++ _) |- _ => apply at_app in H; destruct H end.
(** rewrite one read of a fixed-position field; the positions are compared by computation *)
Ltac rdat := match goal with |- context [unpack_u ?n ?d ?j] =>
  match goal with A : at_ d ?i (le n ?v) |- _ => rewrite (at_u n v d i j A ltac:(p256; lia) eq_refl); cbn [bind] end end.

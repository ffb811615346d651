(** * Saving a loaded bank with unlisted instruments again *)
From Coq Require Import String Permutation Sorted.
From Verif Require Import PyBase PyLemmas PyTac WaveModel SbnkModel SbnkSpec SbnkLemmas SbnkBank SbnkInacc SbnkGuess SbnkLayout SbnkScan SbnkBack SbnkBack2.

Lemma first_sorted (l : list key) : (forall a y c, l = a ++ y :: c -> ~ In y a -> forall x, In x a -> snd x < snd y) -> StronglySorted (fun x y => snd x < snd y) (dedup [] l).
Proof.
  induction l as [|y l IH] using rev_ind; intros H; [constructor|].
  assert (H' : forall a y0 c, l = a ++ y0 :: c -> ~ In y0 a -> forall x, In x a -> snd x < snd y0) by (intros a y0 c E N x X; apply (H a y0 (c ++ [y])); [rewrite E, <- app_assoc; reflexivity|exact N|exact X]).
  rewrite dedup_app. cbn [app dedup]. destruct (kmem y (dedup [] l)) eqn:K; [rewrite app_nil_r; apply IH; exact H'|].
  apply kmem_false in K. rewrite dedup_In0 in K. apply sorted_app; [apply IH; exact H'|repeat constructor|]. intros x z X [<-|[]]. apply (proj1 (dedup_In0 _ _)) in X. exact (H l y [] eq_refl K x X).
Qed.
(** pieces of a file that cover it without overlap *)
Lemma tile f : forall es lo hi, StronglySorted (fun x y : key => snd x + zlen (fst x) <= snd y) es ->
  (forall k, In k es -> lo <= snd k /\ snd k + zlen (fst k) <= hi /\ 0 < zlen (fst k) /\ slice f (snd k) (snd k + zlen (fst k)) = fst k) ->
  (forall x, lo <= x < hi -> exists k, In k es /\ snd k <= x < snd k + zlen (fst k)) -> 0 <= lo <= hi -> hi <= zlen f ->
  concat (map fst es) = slice f lo hi /\ forall k, In k es -> pos es k = snd k - lo.
Proof.
  induction es as [|k es IH]; intros lo hi S B C L F.
  - assert (lo = hi). { destruct (Z.eq_dec lo hi) as [E|NE]; [exact E|]. destruct (C lo) as (k & [] & _). lia. } subst hi. split; [|intros k []]. cbn [map concat]. rewrite slice_nil by lia. reflexivity.
  - inversion S as [|? ? S1 S2]. subst. rewrite Forall_forall in S2. destruct (B k (or_introl eq_refl)) as (B1 & B2 & B3 & B4).
    assert (E : snd k = lo). { destruct (Z.eq_dec (snd k) lo) as [E|NE]; [exact E|]. destruct (C lo) as (k' & [<-|K] & R); [lia|lia|]. specialize (S2 k' K). lia. }
    destruct (IH (lo + zlen (fst k)) hi S1) as (I1 & I2).
    + intros k' K. destruct (B k' (or_intror K)) as (_ & X2 & X3 & X4). specialize (S2 k' K). split; [lia|]. split; [exact X2|]. split; assumption.
    + intros x X. destruct (C x) as (k' & [<-|K] & R); [lia|lia|]. exists k'. split; assumption.
    + lia.
    + exact F.
    + split.
      * cbn [map concat]. rewrite I1. rewrite E in B4. rewrite <- B4 at 1. apply slice_app_eq; lia.
      * intros k' K. destruct (key_eqb k k') eqn:Q; [apply key_eqb_eq in Q; subst k'; unfold pos; cbn [posn]; rewrite key_eqb_refl; lia|]. assert (N := proj1 (key_eqb_neq _ _) Q). destruct K as [K|K]; [congruence|]. specialize (I2 k' K).
        destruct (posn_split k' es K) as (x & y & EE & NX & PX). unfold pos in I2. rewrite PX in I2.
        rewrite (pos_split (k :: es) (k :: x) k' y); [rewrite lens_cons; lia|rewrite EE; reflexivity|intros [C1|C1]; [congruence|contradiction]].
Qed.

Record tidy (f : bytes) (lo hi : Z) (b : sbnk) : Prop := {
  tAt : forall i, member b i -> body_fits (iBody i) /\ iMerge i = iKey i /\ lo <= iKey i /\ iKey i + body_size (iBody i) <= hi /\ slice f (iKey i) (iKey i + body_size (iBody i)) = body_bytes (iBody i);
  tSame : forall i j, member b i -> member b j -> iKey i = iKey j -> body_bytes (iBody i) = body_bytes (iBody j);
  tApart : forall i j, member b i -> member b j -> iKey i < iKey j -> before i j;
  tCover : forall x, lo <= x < hi -> exists i, member b i /\ iKey i <= x < iKey i + body_size (iBody i);
  tOrder : forall i j, In (Some i) (bInsts b) -> In (Some j) (bInsts b) -> iKey i < iKey j -> kind (iBody i) <= kind (iBody j);
  tKeys : NoDup (map fst (bInacc b));
  tFiled : forall k l i, In (k, l) (bInacc b) -> In i l -> filed_under (bInsts b) (iKey i) k;
  tSorted : forall k l, In (k, l) (bInacc b) -> StronglySorted before l;
  tNot : forall k l i j, In (k, l) (bInacc b) -> In i l -> In (Some j) (bInsts b) -> iKey i <> iKey j }.

Section Tidy.
  Variables (f : bytes) (lo hi : Z) (b : sbnk).
  Hypothesis T : tidy f lo hi b.
  Hypothesis LH : 0 <= lo <= hi.
  Hypothesis HF : hi <= zlen f.
  Lemma t_ok : insts_ok (bInsts b).
  Proof using T. intros i I. apply (tAt _ _ _ _ T i (or_introl I)). Qed.
  Lemma t_at k i : In i (inacc_at b k) -> exists l, In (k, l) (bInacc b) /\ inacc_at b k = l.
  Proof using. unfold inacc_at. destruct (assoc k (bInacc b)) as [l|] eqn:E; [|intros []]. intros _. exists l. split; [apply assoc_some; exact E|reflexivity]. Qed.
  Lemma t_member k i : In i (inacc_at b k) -> member b i.
  Proof using. intros H. destruct (t_at k i H) as (l & A & E). right. exists k, l. split; [exact A|rewrite <- E; exact H]. Qed.
  Lemma t_filed k i : In i (inacc_at b k) -> filed_under (bInsts b) (iKey i) k.
  Proof using T. intros H. destruct (t_at k i H) as (l & A & E). apply (tFiled _ _ _ _ T k l i A). rewrite <- E. exact H. Qed.
  Lemma t_not k i j : In i (inacc_at b k) -> In (Some j) (bInsts b) -> iKey i <> iKey j.
  Proof using T. intros H J. destruct (t_at k i H) as (l & A & E). apply (tNot _ _ _ _ T k l i j A); [rewrite <- E; exact H|exact J]. Qed.
  Lemma t_sorted k : StronglySorted before (inacc_at b k).
  Proof using T. destruct (inacc_at b k) as [|i r] eqn:Q; [constructor|]. destruct (t_at k i) as (l & A & E); [rewrite Q; left; reflexivity|]. rewrite <- Q, E. exact (tSorted _ _ _ _ T k l A). Qed.
  Lemma t_high : flat_map (fun k => map (hid (Some k)) (inacc_at b (Some k))) (high_ids b) = [].
  Proof using T.
    assert (G : forall l, (forall k, In k l -> zlen (bInsts b) <= k) -> flat_map (fun k => map (hid (Some k)) (inacc_at b (Some k))) l = []).
    { induction l as [|k l IH]; intros H; cbn [flat_map]; [reflexivity|]. rewrite IH by (intros k' K; apply H; right; exact K). destruct (inacc_at b (Some k)) as [|x r] eqn:E; [reflexivity|].
      destruct (t_filed (Some k) x) as (P & i & N & _); [rewrite E; left; reflexivity|]. assert (L : (Z.to_nat k < length (bInsts b))%nat) by (apply nth_error_Some; congruence). specialize (H k (or_introl eq_refl)). unfold zlen in H. lia. }
    apply G. intros k K. unfold high_ids in K. apply filter_In in K as [_ K]. lia.
  Qed.
  Definition g (o : option (Z * inst)) : list (option Z * option Z * inst) := match o with None => map (hid None) (inacc_at b None) | Some p => em_of b p end.
  Lemma t_em : em b = flat_map g (None :: map Some (save_order b)).
  Proof using T. unfold em. rewrite t_high, app_nil_r. cbn [flat_map g]. f_equal. induction (save_order b) as [|p l IH]; [reflexivity|]. cbn [flat_map map]. rewrite IH. reflexivity. Qed.
  Lemma t_listed id i : In (id, i) (save_order b) -> 0 <= id /\ nth_error (bInsts b) (Z.to_nat id) = Some (Some i).
  Proof using T. intros H. apply (in_order b id i t_ok) in H. exact H. Qed.
  Lemma t_in id i : In (id, i) (save_order b) -> In (Some i) (bInsts b).
  Proof using T. intros H. apply t_listed in H as [_ H]. eapply nth_error_In, H. Qed.
  Lemma t_em_member e : In e (em b) -> member b (snd e).
  Proof using T.
    rewrite t_em. intros E. apply in_flat_map in E as ([p|] & P & E); cbn [g] in E.
    - destruct P as [P|P]; [discriminate|]. apply in_map_iff in P as (q & [= ->] & P). destruct E as [<-|E]; [left; destruct p as [id i]; exact (t_in id i P)|]. apply in_map_iff in E as (i & <- & I). exact (t_member _ i I).
    - apply in_map_iff in E as (i & <- & I). exact (t_member _ i I).
  Qed.
  Lemma t_fits : em_fits b.
  Proof using T. intros e E. apply (tAt _ _ _ _ T _ (t_em_member e E)). Qed.
  (** everything of an earlier group lies before *)
  Lemma t_key i : member b i -> snd (ikey i) = iKey i.
  Proof using T. intros M. cbn [ikey snd]. apply (tAt _ _ _ _ T i M). Qed.
  Lemma t_same_key i j : member b i -> member b j -> iKey i = iKey j -> ikey i = ikey j.
  Proof using T. intros M M' E. unfold ikey. rewrite (tSame _ _ _ _ T i j M M' E). f_equal. pose proof (tAt _ _ _ _ T i M). pose proof (tAt _ _ _ _ T j M'). lia. Qed.
  Lemma t_rank id i id' j : In (id, i) (save_order b) -> In (id', j) (save_order b) -> written_before (id, i) (id', j) -> iKey i <= iKey j /\ (iKey i = iKey j -> id < id').
  Proof using T.
    intros P Q W. pose proof (t_in _ _ P) as I. pose proof (t_in _ _ Q) as J. unfold written_before in W. cbn [fst snd] in W.
    assert (IJ : iKey j < iKey i -> kind (iBody j) <= kind (iBody i)) by exact (tOrder _ _ _ _ T j i J I).
    assert (SK : iKey i = iKey j -> kind (iBody i) = kind (iBody j)) by (intros E; apply key_kind; [apply t_ok; exact I|apply t_ok; exact J|apply t_same_key; [left; exact I|left; exact J|exact E]]).
    lia.
  Qed.
  Lemma t_first a y c : map ekey (em b) = a ++ y :: c -> ~ In y a -> forall x, In x a -> snd x < snd y.
  Proof using T.
    rewrite t_em. rewrite <- flat_map_concat_map || idtac.
    assert (MF : forall l, map ekey (flat_map g l) = flat_map (fun o => map ekey (g o)) l) by (induction l as [|o l IHl]; [reflexivity|]; cbn [flat_map]; rewrite map_app, IHl; reflexivity).
    rewrite MF. intros E N x X. apply flat_split in E as (L1 & o & L2 & a1 & c1 & EL & -> & EG).
    (* what belongs to a group *)
    assert (GRP : forall o x, In o (None :: map Some (save_order b)) -> In x (map ekey (g o)) ->
      (exists id i, o = Some (id, i) /\ In (id, i) (save_order b) /\ x = ikey i) \/ exists k i, In i (inacc_at b k) /\ x = ikey i /\ k = match o with None => None | Some p => Some (fst p) end).
    { clear. intros [[id i]|] x O X; cbn [g] in X.
      - destruct O as [O|O]; [discriminate|]. apply in_map_iff in O as (q & [= ->] & O). change (map ekey (em_of b (id, i))) with (ikey i :: map ekey (map (hid (Some id)) (inacc_at b (Some id)))) in X. rewrite map_hid in X. destruct X as [<-|X]; [left; exists id, i; split; [reflexivity|split; [exact O|reflexivity]]|].
        apply in_map_iff in X as (j & <- & J). right. exists (Some id), j. split; [exact J|split; reflexivity].
      - rewrite map_hid in X. apply in_map_iff in X as (j & <- & J). right. exists None, j. split; [exact J|split; reflexivity]. }
    assert (OI : In o (None :: map Some (save_order b))) by (rewrite EL; apply in_app_iff; right; left; reflexivity).
    assert (YG : In y (map ekey (g o))) by (rewrite EG; apply in_app_iff; right; left; reflexivity).
    assert (OWN : forall id i, In (Some (id, i)) L1 -> In (ikey i) (flat_map (fun o => map ekey (g o)) L1)) by (intros id i H; apply in_flat_map; exists (Some (id, i)); split; [exact H|left; reflexivity]).
    apply in_app_iff in X as [X|X].
    - (* an earlier group *)
      apply in_flat_map in X as (o' & O' & X). assert (OI' : In o' (None :: map Some (save_order b))) by (rewrite EL; apply in_app_iff; left; exact O').
      (* the group of y is that of a listed instrument, placed later *)
      destruct o as [[id2 i2]|]; [|exfalso; destruct L1 as [|z L1]; [destruct O'|]; injection EL as _ EL; assert (In None (map Some (save_order b))) by (rewrite EL; apply in_app_iff; right; left; reflexivity); apply in_map_iff in H as (q & H & _); discriminate].
      assert (P2 : In (id2, i2) (save_order b)) by (destruct OI as [OI|OI]; [discriminate|]; apply in_map_iff in OI as (q & [= ->] & OI); exact OI). pose proof (t_in _ _ P2) as J2. pose proof (t_listed _ _ P2) as J2'.
      assert (Y2 : iKey i2 <= snd y /\ (snd y = iKey i2 -> y = ikey i2)).
      { destruct (GRP _ _ OI YG) as [(id & i & [= <- <-] & _ & ->)|(k & h & H & -> & ->)]; [rewrite (t_key _ (or_introl J2)); split; [lia|reflexivity]|]. rewrite (t_key _ (t_member _ _ H)). destruct (t_filed _ _ H) as (_ & j & NJ & LT & _). cbn [fst] in NJ. destruct J2' as [_ J2']. rewrite J2' in NJ. injection NJ as <-. split; [lia|]. intros C. lia. }
      enough (LT : snd x < iKey i2) by lia.
      destruct (GRP _ _ OI' X) as [(id & i & -> & P & ->)|(k & h & H & -> & ->)].
      + (* a listed instrument *)
        rewrite (t_key _ (or_introl (t_in _ _ P))).
        assert (W : written_before (id, i) (id2, i2)).
        { pose proof (order_written b t_ok) as SW. destruct L1 as [|z L1]; [destruct O'|]. injection EL as <- EL. destruct O' as [O'|O']; [discriminate|]. assert (SS : StronglySorted (fun o o' : option (Z * inst) => match o, o' with Some p, Some q => written_before p q | _, _ => True end) (map Some (save_order b))) by (apply sorted_map; exact SW).
          rewrite EL in SS. clear - SS O'. induction L1 as [|p l IH]; [destruct O'|]. cbn [app] in SS. inversion SS as [|? ? S1 S2]. subst. destruct O' as [->|O']; [|apply IH; assumption]. rewrite Forall_forall in S2. apply (S2 (Some (id2, i2))). apply in_app_iff. right. left. reflexivity. }
        destruct (t_rank _ _ _ _ P P2 W) as [R1 R2]. destruct (Z.eq_dec (iKey i) (iKey i2)) as [EQ|NE]; [exfalso|lia]. specialize (R2 EQ).
        destruct (GRP _ _ OI YG) as [(id' & i' & [= <- <-] & _ & YE)|(k & h & H & YE & ->)].
        * apply N. apply in_app_iff. left. rewrite YE, <- (t_same_key i i2 (or_introl (t_in _ _ P)) (or_introl J2) EQ). exact (OWN id i O').
        * destruct (t_filed _ _ H) as (_ & j & NJ & LT & MX). cbn [fst] in NJ. destruct J2' as [_ J2']. rewrite J2' in NJ. injection NJ as <-. destruct (t_listed _ _ P) as [P0 PN]. destruct (MX id i P0 PN ltac:(lia)) as [_ MX']. specialize (MX' EQ). cbn [fst] in MX'. lia.
      + rewrite (t_key _ (t_member _ _ H)). pose proof (t_filed _ _ H) as F. pose proof (t_not _ _ i2 H J2) as NE. destruct o' as [[id i]|]; cbn [fst] in F; [|specialize (F i2 J2); lia].
        assert (P : In (id, i) (save_order b)) by (destruct OI' as [Q|Q]; [discriminate|]; apply in_map_iff in Q as (q & [= ->] & Q); exact Q).
        destruct F as (_ & j & NJ & LT & MX). destruct (t_listed _ _ P) as [P0 PN]. rewrite PN in NJ. injection NJ as <-.
        destruct (Z.lt_ge_cases (iKey i2) (iKey h)) as [C|C]; [exfalso|lia]. destruct J2' as [P02 PN2]. destruct (MX id2 i2 P02 PN2 C) as [M1 M2].
        assert (W : written_before (id, i) (id2, i2)).
        { pose proof (order_written b t_ok) as SW. destruct L1 as [|z L1]; [destruct O'|]. injection EL as <- EL. destruct O' as [O'|O']; [discriminate|]. assert (SS : StronglySorted (fun o o' : option (Z * inst) => match o, o' with Some p, Some q => written_before p q | _, _ => True end) (map Some (save_order b))) by (apply sorted_map; exact SW).
          rewrite EL in SS. clear - SS O'. induction L1 as [|p l IH]; [destruct O'|]. cbn [app] in SS. inversion SS as [|? ? S1 S2]. subst. destruct O' as [->|O']; [|apply IH; assumption]. rewrite Forall_forall in S2. apply (S2 (Some (id2, i2))). apply in_app_iff. right. left. reflexivity. }
        destruct (t_rank _ _ _ _ P P2 W) as [R1 R2]. assert (EQ : iKey i = iKey i2) by lia. specialize (R2 EQ).
        (* the same place: y was written with the first of them *)
        destruct (GRP _ _ OI YG) as [(id' & i' & [= <- <-] & _ & YE)|(k & h' & H' & YE & ->)].
        * apply N. apply in_app_iff. left. rewrite YE, <- (t_same_key i i2 (or_introl (t_in _ _ P)) (or_introl J2) EQ). exact (OWN id i O').
        * destruct (t_filed _ _ H') as (_ & j & NJ & LT' & MX'). cbn [fst] in NJ. rewrite PN2 in NJ. injection NJ as <-. destruct (MX' id i P0 PN ltac:(lia)) as [_ MX2]. specialize (MX2 EQ). cbn [fst] in MX2. lia.
    - (* the same group *)
      assert (SRT : StronglySorted (fun x y : key => snd x < snd y) (map ekey (g o))).
      { assert (HS : forall k, StronglySorted (fun x y : key => snd x < snd y) (map ikey (inacc_at b k))).
        { intros k. apply sorted_map. pose proof (t_sorted k) as S. assert (MM : forall i, In i (inacc_at b k) -> member b i) by (intros i; apply t_member). revert S MM. generalize (inacc_at b k) as l. induction l as [|i l IHl]; intros S MM; [constructor|]. inversion S as [|? ? S1 S2]. subst. constructor; [apply IHl; [exact S1|intros j J; apply MM; right; exact J]|].
          rewrite Forall_forall in *. intros j J. specialize (S2 j J). rewrite !t_key by (apply MM; [left; reflexivity] || (apply MM; right; exact J)). unfold before in S2. pose proof (size_pos (iBody i)). lia. }
        destruct o as [[id i]|]; cbn [g]; [|rewrite map_hid; apply HS]. change (map ekey (em_of b (id, i))) with (ikey i :: map ekey (map (hid (Some id)) (inacc_at b (Some id)))). rewrite map_hid. constructor; [apply HS|]. apply Forall_forall. intros z Z0. apply in_map_iff in Z0 as (h & <- & H).
        assert (P : In (id, i) (save_order b)) by (destruct OI as [Q|Q]; [discriminate|]; apply in_map_iff in Q as (q & [= ->] & Q); exact Q). rewrite (t_key _ (t_member _ _ H)), (t_key _ (or_introl (t_in _ _ P))). destruct (t_filed _ _ H) as (_ & j & NJ & LT & _). destruct (t_listed _ _ P) as [_ PN]. rewrite PN in NJ. injection NJ as <-. exact LT. }
      rewrite EG in SRT. clear - SRT X. induction a1 as [|z l IH]; [destruct X|]. cbn [app] in SRT. inversion SRT as [|? ? S1 S2]. subst. destruct X as [->|X]; [|apply IH; assumption]. rewrite Forall_forall in S2. apply S2. apply in_app_iff. right. left. reflexivity.
  Qed.
  Lemma t_in_em i : member b i -> In (ikey i) (map ekey (em b)).
  Proof using T.
    intros [I|(k & l & A & I)].
    - apply In_nth_error in I as [n N]. apply in_map_iff. exists (Some (Z.of_nat n), Some (Z.of_nat n), i). split; [reflexivity|]. apply (in_em b _ _ t_ok); [lia|rewrite Nat2Z.id; exact N].
    - assert (H : In i (inacc_at b k)) by (unfold inacc_at; rewrite (assoc_In _ _ _ (tKeys _ _ _ _ T) A); exact I).
      rewrite t_em. apply in_map_iff. destruct k as [id|].
      + destruct (t_filed _ _ H) as (P0 & j & NJ & _). exists (hid (Some id) i). split; [reflexivity|]. apply in_flat_map. exists (Some (id, j)). split; [right; apply in_map; apply (in_order b id j t_ok); split; assumption|]. cbn [g]. right. apply in_map. exact H.
      + exists (hid None i). split; [reflexivity|]. apply in_flat_map. exists None. split; [left; reflexivity|]. apply in_map. exact H.
  Qed.
  Lemma t_data : em_data b = slice f lo hi /\ forall i, member b i -> pos (em_es b) (ikey i) = iKey i - lo.
  Proof using All.
    assert (MK : forall k, In k (em_es b) -> exists i, member b i /\ k = ikey i). { intros k K. unfold em_es in K. apply (proj1 (dedup_In0 _ _)) in K. apply in_map_iff in K as (e & <- & K). exists (snd e). split; [apply t_em_member; exact K|reflexivity]. }
    assert (SZ : forall i, member b i -> zlen (fst (ikey i)) = body_size (iBody i)). { intros i M. cbn [ikey fst]. rewrite zlen_body by apply (tAt _ _ _ _ T i M). destruct (iBody i); cbn [body_size]; lia. }
    destruct (tile f (em_es b) lo hi) as [D P].
    - pose proof (first_sorted (map ekey (em b)) t_first) as S. fold (em_es b) in S. revert S MK. generalize (em_es b) as l. induction l as [|k l IH]; intros S MK; [constructor|]. inversion S as [|? ? S1 S2]. subst. constructor; [apply IH; [exact S1|intros k' K; apply MK; right; exact K]|].
      rewrite Forall_forall in *. intros k' K. specialize (S2 k' K). destruct (MK k (or_introl eq_refl)) as (i & M & ->). destruct (MK k' (or_intror K)) as (j & M' & ->). rewrite !t_key in * by assumption. rewrite SZ by exact M. exact (tApart _ _ _ _ T i j M M' S2).
    - intros k K. destruct (MK k K) as (i & M & ->). rewrite SZ, t_key by exact M. destruct (tAt _ _ _ _ T i M) as (F & _ & A1 & A2 & A3). split; [exact A1|]. split; [exact A2|]. split; [pose proof (size_pos (iBody i)); lia|exact A3].
    - intros x X. destruct (tCover _ _ _ _ T x X) as (i & M & R). exists (ikey i). split; [apply dedup_In0, t_in_em; exact M|]. rewrite SZ, t_key by exact M. exact R.
    - exact LH.
    - exact HF.
    - split; [exact D|]. intros i M. rewrite P by (apply dedup_In0, t_in_em; exact M). rewrite t_key by exact M. reflexivity.
  Qed.
  (** the table is kept as well, when the first byte follows it *)
  Lemma t_save : lo = 0x3C + 4 * zlen (bInsts b) ->
    sbnk_save b = finish (map (fun o => match o with Some i => (itype i, iKey i) | None => (0, 0) end) (bInsts b)) (slice f lo hi) (bUnk b) (bWars b).
  Proof using All.
    intros EL. rewrite (sbnk_save_em b t_fits t_ok). destruct t_data as [-> P]. f_equal. apply map_ext_in. intros [i|] I; [|reflexivity]. cbn [em_row]. rewrite P by (left; exact I). f_equal. lia.
  Qed.
End Tidy.

(** * Banks with unlisted instruments come back whole: the theorem *)
From Coq Require Import String Permutation Sorted.
From Verif Require Import PyBase PyLemmas PyTac WaveModel SbnkModel SbnkSpec SbnkLemmas SbnkBank SbnkInacc SbnkGuess SbnkLayout SbnkScan SbnkBack.

Lemma filter_splits {A} (R : A -> A -> Prop) (f : A -> bool) l : (forall a y c, l = a ++ y :: c -> f y = true -> forall x, In x a -> R x y) -> StronglySorted R (filter f l).
Proof.
  intros H. assert (G : forall l' pre, l = pre ++ l' -> StronglySorted R (filter f l')); [|exact (G l [] eq_refl)].
  induction l' as [|x l' IH]; intros pre E; [constructor|]. cbn [filter]. assert (E' : l = (pre ++ [x]) ++ l') by (rewrite <- app_assoc; exact E).
  destruct (f x); [|exact (IH _ E')]. constructor; [exact (IH _ E')|]. apply Forall_forall. intros y Y. apply filter_In in Y as [Y FY]. apply in_split in Y as (l1 & l2 & ->).
  apply (H (pre ++ x :: l1) y l2); [rewrite <- app_assoc; exact E|exact FY|apply in_app_iff; right; left; reflexivity].
Qed.
Lemma NoDup_app_i {A} (a c : list A) : NoDup a -> NoDup c -> (forall x, In x a -> In x c -> False) -> NoDup (a ++ c).
Proof.
  induction a as [|x a IH]; intros Ha Hc Hx; [exact Hc|]. inversion Ha; subst. cbn [app]. constructor.
  - rewrite in_app_iff. intros [C|C]; [contradiction|]. eapply Hx; [left; reflexivity|exact C].
  - apply IH; [assumption|assumption|]. intros y H3 H4. eapply Hx; [right; exact H3|exact H4].
Qed.

Lemma flat_split {A B} (g : A -> list B) : forall L a y c, flat_map g L = a ++ y :: c -> exists L1 p L2 a1 c1, L = L1 ++ p :: L2 /\ a = flat_map g L1 ++ a1 /\ g p = a1 ++ y :: c1.
Proof.
  induction L as [|p L IH]; intros a y c E; cbn [flat_map] in E; [destruct a; discriminate|].
  assert (G : forall (u v : list B) a, u ++ v = a ++ y :: c -> (exists c1, u = a ++ y :: c1) \/ exists a', a = u ++ a' /\ v = a' ++ y :: c).
  { induction u as [|x u IHu]; intros v a0 E0; [right; exists a0; split; [reflexivity|exact E0]|]. destruct a0 as [|z a0]; cbn [app] in E0.
    - injection E0 as -> _. left. exists u. reflexivity.
    - injection E0 as -> E0. destruct (IHu v a0 E0) as [(c1 & ->)|(a' & -> & ->)]; [left; exists c1; reflexivity|right; exists a'; split; reflexivity]. }
  destruct (G _ _ _ E) as [(c1 & E1)|(a' & -> & E1)].
  - exists [], p, L, a, c1. split; [reflexivity|]. split; [reflexivity|exact E1].
  - destruct (IH _ _ _ E1) as (L1 & q & L2 & a1 & c1 & -> & -> & E2). exists (p :: L1), q, L2, a1, c1. split; [reflexivity|]. split; [cbn [flat_map]; rewrite app_assoc; reflexivity|exact E2].
Qed.
Lemma and_both A A' B B' : (A <-> A') -> (B <-> B') -> (A /\ B <-> A' /\ B').
Proof. tauto. Qed.

(** ** looks depends on eight bytes only *)
Lemma nth_app8 k (x y : bytes) : (k < 8)%nat -> 8 <= zlen x -> nth k (x ++ y) 0 = nth k x 0.
Proof. intros K L. apply app_nth1. unfold zlen in L. lia. Qed.
Lemma first8 (x y : bytes) : 8 <= zlen x -> firstn 8 (x ++ y) = firstn 8 x.
Proof. intros L. rewrite firstn_app. replace (8 - length x)%nat with O by (unfold zlen in L; lia). rewrite firstn_O, app_nil_r. reflexivity. Qed.
Lemma looks_app t x y : 8 <= zlen x -> looks t (x ++ y) <-> looks t x.
Proof. intros L. unfold looks. rewrite !nth_app8, first8 by (try lia; exact L). reflexivity. Qed.
Lemma suits_app t x y a : 8 <= zlen x -> suits t (x ++ y) a <-> suits t x a.
Proof. intros L. unfold suits. rewrite looks_app, !nth_app8, first8 by (try lia; exact L). reflexivity. Qed.

Lemma suits_more t d a a' : a <= a' -> suits t d a -> suits t d a'.
Proof. intros L (A & B & C). split; [exact A|]. split; [intros E; specialize (B E); lia|]. intros E. destruct (C E) as [C1 C2]. split; [lia|]. intros n R. specialize (C2 n R). lia. Qed.

Lemma le_nonneg n v : Forall (fun e => 0 <= e) (le n v).
Proof. revert v. induction n as [|n IH]; intros v; cbn [le]; constructor; [apply Z.mod_pos_bound; lia|apply IH]. Qed.
Lemma noteT_nonneg n : Forall (fun e => 0 <= e) (noteT_bytes n).
Proof. unfold noteT_bytes, note_bytes. repeat (apply Forall_app; split); apply le_nonneg. Qed.
Lemma body_nonneg bd : body_fits bd -> Forall (fun e => 0 <= e) (body_bytes bd).
Proof.
  assert (C : forall ns, Forall (fun e => 0 <= e) (concat (map noteT_bytes ns))) by (induction ns as [|n ns IH]; cbn [map concat]; [constructor|apply Forall_app; split; [apply noteT_nonneg|exact IH]]).
  destruct bd as [n|f ns|rs]; cbn [body_fits body_bytes]; intros F.
  - unfold note_bytes. repeat (apply Forall_app; split); apply le_nonneg.
  - repeat (apply Forall_app; split); [apply le_nonneg|apply le_nonneg|apply C].
  - repeat (apply Forall_app; split).
    + destruct F as [_ F]. apply Forall_forall. intros x X. apply in_map_iff in X as (r & <- & X). rewrite Forall_forall in F. destruct (F r X) as [F1 _]. exact (proj1 F1).
    + unfold zeros. apply Forall_forall. intros x X. apply repeat_spec in X. lia.
    + rewrite <- (map_map snd noteT_bytes). apply C.
Qed.
Lemma count_le l k : count_nonzero (l ++ repeat 0 k) <= zlen l.
Proof. induction l as [|x l IH]; cbn [app count_nonzero]; [replace (count_nonzero (repeat 0 k)) with 0 by (destruct k; reflexivity); apply zlen_nonneg|]. unfold zlen in *. cbn [length]. destruct (x =? 0); lia. Qed.
Lemma own_suits bd avail : body_fits bd -> 10 <= body_size bd -> body_size bd <= avail -> looks (kind bd) (body_bytes bd) -> (forall rs, bd = Regional rs -> rs <> []) -> suits (kind bd) (body_bytes bd) avail.
Proof.
  intros F L A LK NE. split; [exact LK|]. destruct bd as [n|f ns|rs]; cbn [kind body_size] in *; (split; [intros E|intros E]); try discriminate.
  - cbn [body_bytes]. destruct F as (F1 & F2 & _). cbn [le app nth]. rewrite !Z.mod_small by lia. lia.
  - split; [destruct rs as [|r rs]; [specialize (NE [] eq_refl); congruence|]; unfold zlen in *; cbn [length] in *; lia|]. intros k R.
    assert (P : Forall (fun e => 0 <= e) (firstn 8 (body_bytes (Regional rs)))). { pose proof (body_nonneg _ F) as B. apply Forall_forall. intros x X. rewrite Forall_forall in B. apply B. rewrite <- (firstn_skipn 8). apply in_app_iff. left. exact X. }
    apply (count_regions _ _ P) in R. subst k. cbn [body_bytes]. destruct F as [F1 F2]. 
    assert (E8 : firstn 8 (map fst rs ++ zeros (8 - zlen rs) ++ concat (map (fun r => noteT_bytes (snd r)) rs)) = map fst rs ++ repeat 0 (Z.to_nat (8 - zlen rs))).
    { rewrite app_assoc. rewrite first8 by (rewrite zlen_app, zlen_map, zlen_zeros by lia; lia). rewrite firstn_all2; [reflexivity|]. rewrite app_length, map_length. pose proof (zlen_zeros (8 - zlen rs) ltac:(lia)) as LZ. unfold zlen in *. lia. }
    rewrite E8. pose proof (count_le (map fst rs) (Z.to_nat (8 - zlen rs))). rewrite zlen_map in H. lia.
Qed.

Section Back.
  Variable b : sbnk.
  Hypothesis SEP : separate b.
  Let base := 0x3C + 4 * zlen (bInsts b).
  Let es := em_es b.
  Definition is_hid (e : option Z * option Z * inst) : bool := match fst (fst e) with None => true | Some _ => false end.
  Definition hidden : list (option Z * option Z * inst) := filter is_hid (em b).
  Lemma hidden_eq : hidden = map (hid None) (inacc_at b None) ++ flat_map (fun p => map (hid (Some (fst p))) (inacc_at b (Some (fst p)))) (save_order b).
  Proof.
    unfold hidden. rewrite (em_eq b SEP), filter_app. assert (H : forall k l, filter is_hid (map (hid k) l) = map (hid k) l) by (intros k l; apply filter_ident; intros x X; apply in_map_iff in X as (i & <- & _); reflexivity).
    rewrite H. f_equal. induction (save_order b) as [|p l IH]; [reflexivity|]. cbn [flat_map]. rewrite filter_app, IH. f_equal. unfold em_of. cbn [filter is_hid fst]. apply H.
  Qed.
  Lemma in_hidden e : In e hidden <-> exists k i, e = hid k i /\ In i (inacc_at b k).
  Proof.
    unfold hidden. rewrite filter_In, (em_cases b SEP). split.
    - intros [[(id & i & -> & _)|H] E]; [discriminate|exact H].
    - intros (k & i & -> & H). split; [right; exists k, i; split; [reflexivity|exact H]|reflexivity].
  Qed.
  Lemma at_nodup k : NoDup (map ikey (inacc_at b k)).
  Proof.
    destruct (inacc_at b k) as [|i0 r] eqn:E; [constructor|]. destruct (at_in b k i0) as (l & A & E2); [rewrite E; left; reflexivity|]. rewrite <- E, E2. clear E E2 i0 r.
    apply NoDup_nth_error. intros n n' L EQ. rewrite map_length in L. rewrite !nth_error_map in EQ. destruct (nth_error l n) as [i|] eqn:N; [|apply nth_error_None in N; lia]. destruct (nth_error l n') as [j|] eqn:N'; [|discriminate]. injection EQ as EQ1 EQ2.
    assert (EQ : ikey i = ikey j) by (unfold ikey; congruence). exact (proj2 (sUniq b SEP _ _ _ _ _ _ _ _ A A N N' EQ)).
  Qed.
  Lemma at_disjoint k k' x : k <> k' -> In x (map ikey (inacc_at b k)) -> In x (map ikey (inacc_at b k')) -> False.
  Proof.
    intros NE X Y. apply in_map_iff in X as (i & <- & X). apply in_map_iff in Y as (j & EQ & Y). apply (in_at b SEP) in X as (l & A & X). apply (in_at b SEP) in Y as (l' & A' & Y). apply In_nth_error in X as [n X]. apply In_nth_error in Y as [n' Y].
    apply NE. exact (eq_sym (proj1 (sUniq b SEP _ _ _ _ _ _ _ _ A' A Y X EQ))).
  Qed.
  Lemma hidden_nodup : NoDup (map ekey hidden).
  Proof.
    rewrite hidden_eq, map_app, map_hid. pose proof (order_ids b (sep_ok b SEP)) as ND. apply NoDup_app_i; [apply at_nodup| |].
    - revert ND. generalize (save_order b) as l. induction l as [|p l IH]; intros ND; cbn [flat_map]; [constructor|]. cbn [map] in ND. inversion ND as [|? ? N1 N2]. subst. rewrite map_app, map_hid. apply NoDup_app_i; [apply at_nodup|apply IH; exact N2|].
      intros x X Y. apply in_map_iff in Y as (e & <- & Y). apply in_flat_map in Y as (q & Q & Y). apply in_map_iff in Y as (j & <- & Y). apply (at_disjoint (Some (fst p)) (Some (fst q)) (ekey (hid (Some (fst q)) j))); [|exact X|apply in_map_iff; exists j; split; [reflexivity|exact Y]].
      intros [= EQ]. apply N1. rewrite EQ. apply in_map. exact Q.
    - intros x X Y. apply in_map_iff in Y as (e & <- & Y). apply in_flat_map in Y as (q & Q & Y). apply in_map_iff in Y as (j & <- & Y). apply (at_disjoint None (Some (fst q)) (ekey (hid (Some (fst q)) j))); [discriminate|exact X|apply in_map_iff; exists j; split; [reflexivity|exact Y]].
  Qed.
  Lemma hidden_first a y c : em b = a ++ y :: c -> is_hid y = true -> ~ In (ekey y) (map ekey a).
  Proof.
    intros E H C. apply in_map_iff in C as (x & EQ & X).
    assert (Y : In y (em b)) by (rewrite E; apply in_app_iff; right; left; reflexivity). assert (X' : In x (em b)) by (rewrite E; apply in_app_iff; left; exact X).
    apply (em_cases b SEP) in Y as [(id & i & -> & _)|(k & i & -> & I)]; [discriminate|].
    pose proof hidden_nodup as ND. unfold hidden in ND. rewrite E, filter_app in ND. cbn [filter] in ND. rewrite H, map_app in ND. cbn [map] in ND. apply NoDup_remove_2 in ND. apply ND. apply in_app_iff. left.
    apply (em_cases b SEP) in X' as [(id & j & -> & J)|(k' & j & -> & J)]; [exfalso; exact (hid_apart b SEP k i id j I J (eq_sym EQ))|]. rewrite <- EQ. apply in_map. apply filter_In. split; [exact X|reflexivity].
  Qed.
  Definition spot (e : option Z * option Z * inst) : Z * ibody := (place b (snd e), iBody (snd e)).
  Definition free : list (Z * ibody) := map spot hidden.
  Lemma free_sorted : StronglySorted (fun p q => fst p + body_size (snd p) <= fst q) free.
  Proof.
    unfold free. apply sorted_map. apply filter_splits. intros a y c E H x X. pose proof (hidden_first a y c E H) as N. cbn [spot fst snd].
    apply (place_two b (map ekey a) (ekey y :: map ekey c)); [rewrite E, map_app; reflexivity|apply in_map with (f := ekey) in X; exact X|exact N|left; reflexivity|].
    apply (sep_fits b SEP). rewrite E. apply in_app_iff. left. exact X.
  Qed.
  Lemma filter_hidden k : filter (fun e => oeqb (snd (fst e)) k) hidden = map (hid k) (inacc_at b k).
  Proof.
    rewrite hidden_eq, filter_app.
    assert (SAME : forall k l, filter (fun e => oeqb (snd (fst e)) k) (map (hid k) l) = map (hid k) l) by (intros k0 l; apply filter_ident; intros x X; apply in_map_iff in X as (i & <- & _); apply oeqb_eq; reflexivity).
    assert (OTHER : forall k k' l, k' <> k -> filter (fun e => oeqb (snd (fst e)) k) (map (hid k') l) = []) by (intros k0 k' l NE; apply filter_nil; intros x X; apply in_map_iff in X as (i & <- & _); cbn [hid fst snd]; apply not_true_iff_false; intros C; apply oeqb_eq in C; contradiction).
    assert (NONE : forall k l, ~ (exists p, In p l /\ Some (fst p) = k) -> filter (fun e => oeqb (snd (fst e)) k) (flat_map (fun p : Z * inst => map (hid (Some (fst p))) (inacc_at b (Some (fst p)))) l) = []).
    { intros k0 l H. apply filter_nil. intros x X. apply in_flat_map in X as (p & P & X). apply in_map_iff in X as (i & <- & _). cbn [hid fst snd]. apply not_true_iff_false. intros C. apply oeqb_eq in C. apply H. exists p. split; assumption. }
    destruct k as [id|].
    - rewrite OTHER by discriminate. cbn [app]. destruct (inacc_at b (Some id)) as [|i0 r] eqn:E.
      + apply filter_nil. intros x X. apply in_flat_map in X as (p & P & X). apply in_map_iff in X as (i & <- & I). cbn [hid fst snd]. apply not_true_iff_false. intros C. apply oeqb_eq in C. rewrite C, E in I. destruct I.
      + destruct (hid_key b SEP (Some id)) as [j J]; [rewrite E; discriminate|]. rewrite <- E. apply (entry_order b SEP) in J. pose proof (order_ids b (sep_ok b SEP)) as ND. revert J ND. generalize (save_order b) as l. intros l J ND. apply in_split in J as (l1 & l2 & ->). rewrite map_app in ND. cbn [map fst] in ND. apply NoDup_remove_2 in ND.
        rewrite flat_map_app, filter_app. cbn [flat_map]. rewrite filter_app. cbn [fst]. rewrite SAME. rewrite !NONE; [rewrite app_nil_r; reflexivity| |]; intros (p & P & [= EQ]); apply ND; apply in_app_iff; [right|left]; rewrite <- EQ; apply in_map; exact P.
    - rewrite SAME, NONE; [apply app_nil_r|]. intros (p & _ & C). discriminate.
  Qed.

  (** *** the neighbours *)
  Section Load.
    Variable m : list (Z * Z).
    Let insts := map (relabel2 b) (bInsts b).
    Hypothesis M : forall id o, In (id, o) m <-> 0 <= id /\ exists i, nth_error insts (Z.to_nat id) = Some (Some i) /\ iKey i = o.
    Hypothesis SM : StronglySorted (fun p q => fst p < fst q) m.
    Lemma m_entry id o : In (id, o) m <-> exists i, entry b id i /\ o = place b i.
    Proof.
      rewrite M. unfold insts. split.
      - intros (P & i & N & K). rewrite nth_error_map in N. destruct (nth_error (bInsts b) (Z.to_nat id)) as [[i0|]|] eqn:E; [|discriminate|discriminate]. cbn [option_map relabel2] in N. injection N as <-. exists i0. split; [split; assumption|]. rewrite <- K. reflexivity.
      - intros (i & [P N] & ->). split; [exact P|]. exists {| iBody := iBody i; iKey := place b i; iMerge := place b i |}. rewrite nth_error_map, N. split; reflexivity.
    Qed.
    Lemma prev_is k i : In i (inacc_at b k) -> prev_key m (place b i) = k /\ type_of_id insts (prev_of (place b i) m) = match k with None => None | Some id => match nth_error (bInsts b) (Z.to_nat id) with Some (Some i0) => Some (itype i0) | _ => None end end.
    Proof.
      intros I. destruct (upto_ex b SEP k) as (q & r & U); [intros X; rewrite X in I; destruct I|]. pose proof (prev_spec (place b i) m SM) as PV.
      assert (G : match prev_of (place b i) m with Some p => Some (fst p) | None => None end = k).
      { destruct (prev_of (place b i) m) as [[id o]|].
        - destruct PV as (IN & LT & MX). cbn [snd fst] in *. apply m_entry in IN as (j & J & ->). destruct (in_dec (fun a c => Bool.reflect_dec _ _ (iff_reflect _ _ (iff_sym (key_eqb_eq a c)))) (ikey j) q) as [Q|Q].
          + destruct (listed_before b SEP k q r id j i U J I Q) as (kid & i0 & -> & J0 & L1 & L2 & L3). f_equal. pose proof (size_pos (iBody i0)).
            destruct (MX (kid, place b i0)) as [X1 X2]; [apply m_entry; exists i0; split; [exact J0|reflexivity]|cbn [snd]; lia|]. cbn [fst snd] in X1, X2. assert (PE : place b i0 = place b j) by lia. specialize (X2 PE).
            apply (in_at b SEP) in I as (l & A & I). destruct (sOwn b SEP kid l i0 id j A ltac:(intros ->; destruct I) J0 J (L3 (eq_sym PE))) as [X3 _]. lia.
          + pose proof (listed_after b SEP k q r id j i U J I Q). pose proof (size_pos (iBody i)). lia.
        - destruct k as [kid|]; [|reflexivity]. destruct (hid_key b SEP (Some kid)) as [i0 J0]; [intros X; rewrite X in I; destruct I|]. pose proof (owner_before b SEP kid i0 i J0 I). pose proof (size_pos (iBody i0)).
          specialize (PV (kid, place b i0) (proj2 (m_entry _ _) (ex_intro _ i0 (conj J0 eq_refl)))). cbn [snd] in PV. lia. }
      split; [exact G|]. rewrite <- G. destruct (prev_of (place b i) m) as [[id o]|]; cbn [type_of_id fst]; [|reflexivity]. unfold insts. rewrite nth_error_map. destruct (nth_error (bInsts b) (Z.to_nat id)) as [[i0|]|]; reflexivity.
    Qed.
    Lemma type_entry id o : In (id, o) m -> exists i, entry b id i /\ o = place b i /\ type_of_id insts (Some (id, o)) = Some (itype i).
    Proof. intros H. apply m_entry in H as (i & [P N] & E). exists i. split; [split; assumption|]. split; [exact E|]. cbn [type_of_id]. unfold insts. rewrite nth_error_map, N. reflexivity. Qed.
    Lemma possible_allowed k i t : In i (inacc_at b k) ->
      In t (possible_types (type_of_id insts (prev_of (place b i) m)) (type_of_id insts (next_of (place b i) m))) <-> allowed b k t.
    Proof.
      intros I. destruct (upto_ex b SEP k) as (q & r & U); [intros X; rewrite X in I; destruct I|]. destruct (prev_is k i I) as [_ ->]. pose proof (next_spec (place b i) m) as NX.
      assert (DEC : forall j, In (ikey j) q \/ ~ In (ikey j) q) by (intros j; destruct (in_dec (fun a c => Bool.reflect_dec _ _ (iff_reflect _ _ (iff_sym (key_eqb_eq a c)))) (ikey j) q); [left|right]; assumption).
      rewrite possible_in.
      - unfold allowed. apply and_iff_compat_l. apply and_both.
        + split.
          * intros H id j -> J. destruct J as [P N]. rewrite N in H. specialize (H _ eq_refl). destruct (entry_fits b SEP id j (conj P N)) as [F _]. destruct (kind_type _ F) as [-> _]. exact H.
          * intros H p E. destruct k as [id|]; [|discriminate]. destruct (nth_error (bInsts b) (Z.to_nat id)) as [[i0|]|] eqn:N; try discriminate. injection E as <-. destruct (hid_key b SEP (Some id)) as [i1 [P N1]]; [intros X; rewrite X in I; destruct I|]. rewrite N in N1. injection N1 as <-.
            assert (J : entry b id i0) by (split; assumption). destruct (entry_fits b SEP id i0 J) as [F _]. destruct (kind_type _ F) as [K _]. unfold itype. rewrite <- K. exact (H id i0 eq_refl J).
        + split.
          * intros H id j A. pose proof (after_out b SEP k q r id j U A) as Q. destruct A as [[J _] _]. pose proof (listed_after b SEP k q r id j i U J I Q) as L. pose proof (size_pos (iBody i)).
            destruct (next_of (place b i) m) as [[id' o]|].
            -- destruct NX as (IN & LT & MN). cbn [snd] in *. destruct (type_entry id' o IN) as (j' & J' & -> & TE). specialize (H _ TE).
               destruct (entry_fits b SEP _ _ J') as [F' _]. destruct (entry_fits b SEP _ _ J) as [F _]. destruct (kind_type _ F') as [K' _]. unfold itype in H. rewrite <- K' in H.
               specialize (MN (id, place b j) (proj2 (m_entry _ _) (ex_intro _ j (conj J eq_refl)))). cbn [snd] in MN. specialize (MN ltac:(lia)).
               enough (kind (iBody j') <= kind (iBody j)) by lia.
               (* listed instruments lie in the order of their kinds *)
               destruct (Z.le_gt_cases (kind (iBody j')) (kind (iBody j))) as [LE|GT]; [exact LE|exfalso].
               assert (JS := J). apply (entry_order b SEP) in JS. assert (JS' := J'). apply (entry_order b SEP) in JS'.
               destruct (first_in (save_order b) (ikey j')) as (a & [id2 j2] & c & S & K & N); [apply in_map_iff; exists (id', j'); split; [reflexivity|exact JS']|]. cbn [snd] in K.
               assert (J2 : entry b id2 j2) by (apply (entry_order b SEP); rewrite S; apply in_app_iff; right; left; reflexivity). destruct (entry_fits b SEP _ _ J2) as [F2 _].
               pose proof (key_kind _ _ F2 F' K) as KK.
               assert (INA : In (id, j) a).
               { rewrite S in JS. apply in_app_iff in JS as [JS|[JS|JS]]; [exact JS|injection JS as <- <-; lia|exfalso].
                 pose proof (order_written b (sep_ok b SEP)) as SW. rewrite S in SW. assert (X : written_before (id2, j2) (id, j)). { clear - SW JS. induction a as [|p a IH]; cbn [app] in SW; inversion SW as [|? ? S1 S2]; subst; [rewrite Forall_forall in S2; apply S2; exact JS|apply IH; exact S1]. }
                 unfold written_before in X. cbn [snd] in X. lia. }
               assert (PL : place b j + body_size (iBody j) <= place b j2).
               { apply (place_two b (map ikey (inacc_at b None) ++ map ekey (flat_map (em_of b) a)) (map ekey (flat_map (em_of b) ((id2, j2) :: c)))).
                 - rewrite (em_eq b SEP), map_app, map_hid, S, flat_map_app, map_app, <- app_assoc. reflexivity.
                 - apply in_app_iff. right. apply in_map_iff. exists (Some id, Some id, j). split; [reflexivity|]. apply in_flat_map. exists (id, j). split; [exact INA|left; reflexivity].
                 - intros C. apply in_app_iff in C as [C|C]; [apply in_map_iff in C as (h & HE & HH); exact (hid_apart b SEP None h id2 j2 HH J2 HE)|].
                   apply (em_of_cases b) in C as [(id3 & j3 & P3 & K3)|(id3 & h & HH & K3)]; [apply N; apply in_map_iff; exists (id3, j3); split; [cbn [snd]; congruence|exact P3]|exact (hid_apart b SEP _ h id2 j2 HH J2 (eq_sym K3))|intros p P; apply (order_entries b SEP); rewrite S; apply in_app_iff; left; exact P].
                 - apply in_map_iff. exists (Some id2, Some id2, j2). split; [reflexivity|]. left. reflexivity.
                 - exact F. }
               assert (place b j2 = place b j') by (unfold place; rewrite K; reflexivity). pose proof (size_pos (iBody j)). lia.
            -- specialize (NX (id, place b j) (proj2 (m_entry _ _) (ex_intro _ j (conj J eq_refl)))). cbn [snd] in NX. lia.
          * intros H p E. destruct (next_of (place b i) m) as [[id' o]|]; [|discriminate]. destruct NX as (IN & LT & _). cbn [snd] in LT. destruct (type_entry id' o IN) as (j' & J' & -> & TE). rewrite TE in E. injection E as <-.
            destruct (entry_fits b SEP _ _ J') as [F' _]. destruct (kind_type _ F') as [K' _]. unfold itype. rewrite <- K'.
            assert (Q : ~ In (ikey j') q). { intros Q. destruct (listed_before b SEP k q r id' j' i U J' I Q) as (kid & i0 & _ & _ & L1 & L2 & _). pose proof (size_pos (iBody i0)). lia. }
            destruct (out_after b SEP k q r id' j' U J' Q) as (id2 & j2 & A & K). specialize (H id2 j2 A). destruct A as [[J2 _] _]. destruct (entry_fits b SEP _ _ J2) as [F2 _]. rewrite <- (key_kind _ _ F2 F' K). exact H.
      - intros p E. destruct k as [id|]; [|discriminate]. destruct (nth_error (bInsts b) (Z.to_nat id)) as [[i0|]|] eqn:N; try discriminate. injection E as <-. apply kind_type. apply (sep_ok b SEP). eapply nth_error_In, N.
      - intros p E. destruct (next_of (place b i) m) as [[id' o]|]; [|discriminate]. destruct NX as (IN & _). destruct (type_entry id' o IN) as (j' & J' & _ & TE). rewrite TE in E. injection E as <-. apply kind_type. apply (entry_fits b SEP _ _ J').
    Qed.
  End Load.

  (** *** the bytes no listed instrument covers *)
  Lemma len_es : zlen (em_data b) = lens (em_es b).
  Proof. unfold em_data, lens. reflexivity. Qed.
  Lemma even_es : Z.even (lens (em_es b)) = true.
  Proof.
    assert (G : forall l, (forall k, In k l -> Z.even (zlen (fst k)) = true) -> Z.even (lens l) = true).
    { induction l as [|k l IH]; intros H; [reflexivity|]. rewrite lens_cons, Z.even_add, (H k (or_introl eq_refl)), IH; [reflexivity|]. intros k' K. apply H. right. exact K. }
    apply G. intros k K. unfold em_es in K. apply (proj1 (dedup_In0 _ _)) in K. apply in_map_iff in K as (e & <- & K). apply (sep_fits b SEP) in K. unfold ekey. cbn [ikey fst]. rewrite zlen_body by exact K. destruct (iBody (snd e)); rewrite ?Z.even_add, ?Z.even_mul; reflexivity.
  Qed.
  Lemma key_in k : In k (em_es b) -> 0 <= pos (em_es b) k /\ pos (em_es b) k + zlen (fst k) <= lens (em_es b).
  Proof. intros I. destruct (posn_split k (em_es b) I) as (x & y & E & N & Q). unfold pos. rewrite Q, E, lens_app, lens_cons. pose proof (lens_nonneg y). pose proof (lens_nonneg x). lia. Qed.
  Lemma size_key i : body_fits (iBody i) -> zlen (fst (ikey i)) = body_size (iBody i).
  Proof. intros F. cbn [ikey fst]. rewrite zlen_body by exact F. destruct (iBody i); cbn [body_size]; lia. Qed.
  Lemma in_free p : In p free <-> exists k i, In i (inacc_at b k) /\ p = (place b i, iBody i).
  Proof.
    unfold free. rewrite in_map_iff. split.
    - intros (e & <- & E). apply in_hidden in E as (k & i & -> & I). exists k, i. split; [exact I|reflexivity].
    - intros (k & i & I & ->). exists (hid k i). split; [reflexivity|]. apply in_hidden. exists k, i. split; [reflexivity|exact I].
  Qed.
  Lemma free_room p : In p free -> base <= fst p /\ fst p + body_size (snd p) <= base + lens (em_es b).
  Proof. intros H. apply in_free in H as (k & i & I & ->). cbn [fst snd]. pose proof (key_in _ (hid_es b SEP k i I)) as K. rewrite size_key in K by apply (hid_facts b SEP k i I). unfold place. fold base. lia. Qed.
  Lemma flat_sorted : forall l, StronglySorted (fun p q : Z * ibody => fst p + body_size (snd p) <= fst q) l -> StronglySorted Z.lt (flat_map bytes_of l).
  Proof.
    induction 1 as [|p l S IH F]; cbn [flat_map]; [constructor|]. apply sorted_app; [apply range_sorted|exact IH|]. intros x y X Y. apply in_bytes in X. apply in_flat in Y as (q & Q & Y). rewrite Forall_forall in F. specialize (F q Q). lia.
  Qed.
  Definition tail_of : list Z := range_z (base + lens (em_es b)) (Z.to_nat ((- lens (em_es b)) mod 4)).
  Lemma tail_cases : let len := base + lens (em_es b) + (- lens (em_es b)) mod 4 in tail_of = [] \/ tail_of = [len - 2; len - 1].
  Proof.
    cbv zeta. unfold tail_of. pose proof even_es as E. apply Z.even_spec in E as [h E]. rewrite E.
    assert (C : (- (2 * h)) mod 4 = 0 \/ (- (2 * h)) mod 4 = 2). { pose proof (Z.mod_pos_bound (- (2 * h)) 4 ltac:(lia)). pose proof (Z.div_mod (- (2 * h)) 4 ltac:(lia)). lia. }
    destruct C as [C|C]; rewrite C; [left; reflexivity|right]. change (Z.to_nat 2) with 2%nat. cbn [range_z]. f_equal; [lia|f_equal; lia].
  Qed.
  Lemma un_is un : let len := base + lens (em_es b) + (- lens (em_es b)) mod 4 in
    (forall x, In x un <-> base <= x < len /\ forall i, In (Some i) (map (relabel2 b) (bInsts b)) -> ~ iKey i <= x < iKey i + body_size (iBody i)) ->
    StronglySorted Z.lt un -> un = flat_map bytes_of free ++ tail_of.
  Proof.
    cbv zeta. intros U SU. pose proof (Z.mod_pos_bound (- lens (em_es b)) 4 ltac:(lia)) as PB. pose proof (lens_nonneg (em_es b)) as LN.
    assert (LISTED : forall i, In (Some i) (map (relabel2 b) (bInsts b)) <-> exists id j, entry b id j /\ i = {| iBody := iBody j; iKey := place b j; iMerge := place b j |}).
    { intros i. rewrite in_map_iff. split.
      - intros ([j|] & E & I); [|discriminate]. cbn [relabel2] in E. injection E as <-. apply In_nth_error in I as [n N]. exists (Z.of_nat n), j. split; [split; [lia|rewrite Nat2Z.id; exact N]|reflexivity].
      - intros (id & j & [P N] & ->). exists (Some j). split; [reflexivity|]. eapply nth_error_In, N. }
    assert (TI : forall x, In x tail_of <-> base + lens (em_es b) <= x < base + lens (em_es b) + (- lens (em_es b)) mod 4) by (intros x; unfold tail_of; rewrite in_range_z; lia).
    apply (strict_eq (fun x => x)); [exact SU| |].
    - apply sorted_app; [apply flat_sorted, free_sorted|apply range_sorted|]. intros x y X Y. apply in_flat in X as (p & P & X). apply free_room in P. apply TI in Y. lia.
    - intros x. rewrite U, in_app_iff, TI, in_flat. split.
      + intros [R N]. destruct (Z.lt_ge_cases x (base + lens (em_es b))) as [L|L]; [left|right; lia].
        destruct (covered_key (em_es b) (x - base)) as (k & K & KR); [lia|exact (dedup_NoDup _ [] (NoDup_nil _))|]. assert (KE := K). unfold em_es in KE. apply (proj1 (dedup_In0 _ _)) in KE. apply in_map_iff in KE as (e & <- & E).
        apply (em_cases b SEP) in E as [(id & i & -> & J)|(k' & i & -> & I)].
        * exfalso. apply (N {| iBody := iBody i; iKey := place b i; iMerge := place b i |}); [apply LISTED; exists id, i; split; [exact J|reflexivity]|]. cbn [iKey iBody]. change (ekey (Some id, Some id, i)) with (ikey i) in KR. rewrite size_key in KR by apply (entry_fits b SEP _ _ J). unfold place. fold base. lia.
        * exists (place b i, iBody i). split; [apply in_free; exists k', i; split; [exact I|reflexivity]|]. cbn [fst snd]. change (ekey (hid k' i)) with (ikey i) in KR. rewrite size_key in KR by apply (hid_facts b SEP _ _ I). unfold place. fold base. lia.
      + intros [(p & P & X)|X].
        * pose proof (free_room p P) as FR. split; [lia|]. intros i I. apply LISTED in I as (id & j & J & ->). cbn [iKey iBody]. apply in_free in P as (k & h & H & ->). cbn [fst snd] in *.
          destruct (pos_apart (em_es b) (ikey h) (ikey j)) as [C|C]; [exact (dedup_NoDup _ [] (NoDup_nil _))|exact (hid_es b SEP _ _ H)|exact (entry_es b SEP _ _ J)|exact (hid_apart b SEP _ _ _ _ H J)| |].
          -- rewrite size_key in C by apply (hid_facts b SEP _ _ H). unfold place in *. lia.
          -- rewrite size_key in C by apply (entry_fits b SEP _ _ J). unfold place in *. lia.
        * split; [lia|]. intros i I. apply LISTED in I as (id & j & J & ->). cbn [iKey iBody]. pose proof (key_in _ (entry_es b SEP _ _ J)) as K. rewrite size_key in K by apply (entry_fits b SEP _ _ J). unfold place. fold base. lia.
  Qed.

  (** *** how many free bytes there are *)
  Lemma group_at k : inacc_at b k <> [] -> exists A s1 s2, em b = A ++ map (hid k) (inacc_at b k) ++ flat_map (em_of b) s2 /\ save_order b = s1 ++ s2 /\
    forall e, In e A \/ In e (map (hid k) (inacc_at b k)) -> In e (map (hid None) (inacc_at b None) ++ flat_map (em_of b) s1).
  Proof using SEP.
    intros N. rewrite (em_eq b SEP). destruct k as [id|].
    - destruct (hid_key b SEP (Some id) N) as [i0 O]. apply (entry_order b SEP) in O. apply in_split in O as (s1 & s2 & E). exists (map (hid None) (inacc_at b None) ++ flat_map (em_of b) s1 ++ [(Some id, Some id, i0)]), (s1 ++ [(id, i0)]), s2.
      split; [rewrite E, flat_map_app; cbn [flat_map]; unfold em_of at 2; cbn [fst snd]; rewrite <- !app_assoc; cbn [app]; reflexivity|]. split; [rewrite E, <- app_assoc; reflexivity|].
      intros e H. rewrite flat_map_app. cbn [flat_map]. rewrite app_nil_r. rewrite !in_app_iff. destruct H as [H|H]; [rewrite !in_app_iff in H; destruct H as [H|[H|[H|[]]]]; [left; exact H|right; left; exact H|right; right; left; exact H]|right; right; right; exact H].
    - exists [], [], (save_order b). split; [reflexivity|]. split; [reflexivity|]. intros e [[]|H]. rewrite in_app_iff. left. exact H.
  Qed.
  Lemma group_len k A C : em b = A ++ C -> forall l C', C = map (hid k) l ++ C' -> lens (dedup [] (map ekey (A ++ map (hid k) l))) = lens (dedup [] (map ekey A)) + total l.
  Proof using SEP.
    intros E. induction l as [|i l IH] using rev_ind; intros C' EC; [cbn [map total fold_right]; rewrite app_nil_r; lia|].
    rewrite map_app, <- app_assoc in EC. specialize (IH _ EC). rewrite (map_app (hid k)), app_assoc, map_app. cbn [map]. rewrite dedup_app. cbn [app dedup].
    assert (K : kmem (ekey (hid k i)) (dedup [] (map ekey (A ++ map (hid k) l))) = false).
    { apply kmem_false. rewrite dedup_In0. apply (hidden_first _ (hid k i) C'); [rewrite E, EC, <- app_assoc; reflexivity|reflexivity]. }
    rewrite K, lens_app, IH, lens_cons. change (lens []) with 0. change (ekey (hid k i)) with (ikey i).
    assert (F : body_fits (iBody i)) by (apply (sep_fits b SEP (hid k i)); rewrite E, EC; apply in_app_iff; right; apply in_app_iff; right; left; reflexivity). rewrite (size_key i F).
    assert (T : total (l ++ [i]) = total l + body_size (iBody i)) by (clear; induction l as [|x l IHl]; cbn [app total fold_right] in *; [lia|]; unfold total in *; lia). lia.
  Qed.
  Lemma stop_ex un k l1 i l2 : let len := base + lens (em_es b) + (- lens (em_es b)) mod 4 in
    (forall x, In x un <-> base <= x < len /\ forall i, In (Some i) (map (relabel2 b) (bInsts b)) -> ~ iKey i <= x < iKey i + body_size (iBody i)) ->
    inacc_at b k = l1 ++ i :: l2 -> exists stop, ~ In stop un /\ place b i <= stop /\ stop - place b i <= body_size (iBody i) + total l2 + 2.
  Proof using SEP.
    cbv zeta. intros U EK. destruct (group_at k) as (A & s1 & s2 & EM & SO & SUB); [rewrite EK; destruct l1; discriminate|].
    set (C := flat_map (em_of b) s2) in *. set (Q := map ekey (A ++ map (hid k) (inacc_at b k))).
    assert (EE : lens (dedup [] Q) = pos (em_es b) (ikey i) + body_size (iBody i) + total l2).
    { unfold Q. rewrite (group_len k A _ EM _ _ eq_refl). 
      assert (T : total (l1 ++ i :: l2) = total l1 + (body_size (iBody i) + total l2)) by (clear; induction l1 as [|x l IHl]; cbn [app total fold_right] in *; [reflexivity|]; unfold total in *; lia). rewrite EK, T.
      assert (P : pos (em_es b) (ikey i) = lens (dedup [] (map ekey (A ++ map (hid k) l1)))).
      { assert (EM2 : em b = (A ++ map (hid k) l1) ++ hid k i :: (map (hid k) l2 ++ C)) by (rewrite EM, EK, map_app, <- !app_assoc; reflexivity).
        unfold em_es. rewrite EM2 at 1. rewrite map_app. cbn [map]. change (ikey i) with (ekey (hid k i)). apply pos_first. apply (hidden_first _ _ _ EM2). reflexivity. }
      rewrite P. rewrite (group_len k A _ EM l1 (hid k i :: map (hid k) l2 ++ C)); [lia|]. rewrite EK, map_app, <- app_assoc. reflexivity. }
    assert (ES : em_es b = dedup [] (Q ++ map ekey C)) by (unfold em_es, Q; rewrite <- map_app; do 2 apply f_equal; rewrite EM, <- app_assoc; reflexivity).
    assert (PI : 0 <= pos (em_es b) (ikey i)). { assert (H : In (ikey i) (em_es b)) by (apply (hid_es b SEP k); rewrite EK; apply in_app_iff; right; left; reflexivity). apply (key_in _ H). }
    assert (PL : place b i = base + pos (em_es b) (ikey i)) by (unfold place; fold base; lia).
    assert (T0 : 0 <= total l2) by (clear; induction l2 as [|x l IHl]; cbn [total fold_right] in *; [lia|]; pose proof (size_pos (iBody x)); unfold total in *; lia). pose proof (size_pos (iBody i)) as SP.
    (* the first key after the group *)
    assert (FST : (forall y, In y (map ekey C) -> In y Q) \/ exists C1 y C2, C = C1 ++ y :: C2 /\ (forall z, In z (map ekey C1) -> In z Q) /\ ~ In (ekey y) Q).
    { clearbody C Q. clear - C Q. induction C as [|y C IH]; [left; intros y []|]. destruct (kmem (ekey y) Q) eqn:K.
      - apply kmem_In in K. destruct IH as [IH|(C1 & z & C2 & -> & H1 & H2)]; [left; intros z [<-|Z0]; [exact K|apply IH; exact Z0]|]. right. exists (y :: C1), z, C2. split; [reflexivity|]. split; [|exact H2]. intros x [<-|X]; [exact K|apply H1; exact X].
      - apply kmem_false in K. right. exists [], y, C. split; [reflexivity|]. split; [intros z []|exact K]. }
    assert (ADD : forall l, (forall y, In y l -> In y Q) -> dedup [] (Q ++ l) = dedup [] Q).
    { intros l H. rewrite dedup_app. cbn [app]. assert (G : forall l s, (forall y, In y l -> In y s) -> dedup s l = []); [|rewrite (G l); [apply app_nil_r|intros y Y; apply dedup_In0, H; exact Y]]. clear. induction l as [|y l IH]; intros s H; cbn [dedup]; [reflexivity|]. assert (K : kmem y s = true) by (apply kmem_In, H; left; reflexivity). rewrite K. apply IH. intros z Z0. apply H. right. exact Z0. }
    destruct FST as [FST|(C1 & y & C2 & EC & H1 & H2)].
    - rewrite (ADD _ FST) in ES. exists (base + lens (em_es b) + (- lens (em_es b)) mod 4). rewrite <- ES in EE. pose proof (Z.mod_pos_bound (- lens (em_es b)) 4 ltac:(lia)). split; [rewrite U; lia|]. split; [lia|].
      assert ((- lens (em_es b)) mod 4 <= 2); [|lia]. pose proof even_es as EV. apply Z.even_spec in EV as [h EV]. pose proof (Z.div_mod (- lens (em_es b)) 4 ltac:(lia)). lia.
    - exists (base + lens (dedup [] Q)). split; [|split; lia].
      assert (PY : pos (em_es b) (ekey y) = lens (dedup [] Q)).
      { rewrite ES, EC, map_app. cbn [map]. rewrite app_assoc. rewrite pos_first; [rewrite ADD by exact H1; reflexivity|]. intros X. apply in_app_iff in X as [X|X]; [contradiction|]. apply H2, H1. exact X. }
      destruct (flat_split (em_of b) s2 C1 y C2) as (L1 & p & L2 & a1 & c1 & EL & EA & EP); [exact EC|].
      assert (PE : entry b (fst p) (snd p)) by (apply (order_entries b SEP); rewrite SO, EL; apply in_app_iff; right; apply in_app_iff; right; left; reflexivity).
      assert (YO : y = (Some (fst p), Some (fst p), snd p)).
      { destruct a1 as [|z a1]; unfold em_of in EP; injection EP as EZ EP; [symmetry; exact EZ|exfalso].
        assert (NE : inacc_at b (Some (fst p)) <> []) by (intros Z0; rewrite Z0 in EP; destruct a1; discriminate).
        assert (S' : save_order b = (s1 ++ L1) ++ (fst p, snd p) :: L2) by (rewrite SO, EL, <- app_assoc; destruct p; reflexivity).
        apply (owner_first b SEP (fst p) (snd p) _ _ S' NE). rewrite flat_map_app, map_app.
        assert (IQ : In (ikey (snd p)) Q) by (apply H1; rewrite EA, map_app; apply in_app_iff; right; left; rewrite <- EZ; reflexivity).
        unfold Q in IQ. apply in_map_iff in IQ as (e & KE & IE). apply in_app_iff in IE. apply SUB in IE. apply in_app_iff in IE as [IE|IE]; apply in_app_iff; [left; rewrite <- KE; apply in_map_iff in IE as (h & <- & IH); change (ekey (hid None h)) with (ikey h); apply in_map; exact IH|right; apply in_app_iff; left; rewrite <- KE; apply in_map; exact IE]. }
      rewrite U. intros [_ NC]. apply (NC {| iBody := iBody (snd p); iKey := place b (snd p); iMerge := place b (snd p) |}).
      + apply in_map_iff. exists (Some (snd p)). split; [reflexivity|]. destruct PE as [_ PE]. eapply nth_error_In, PE.
      + cbn [iKey iBody]. rewrite YO in PY. change (ekey (Some (fst p), Some (fst p), snd p)) with (ikey (snd p)) in PY. unfold place. fold base. pose proof (size_pos (iBody (snd p))). lia.
  Qed.

  (** *** each of them is recognised *)
  Lemma one_type order data start avail p t : (forall t, t = 1 \/ t = 16 \/ t = 17 -> In t order) -> types_ok p -> In t p -> (forall t', In t' p -> t' = t) -> guessInstrumentType order data start p avail = Ok (Some t).
  Proof.
    intros ORD T I A. assert (E : p = [t]). { destruct T as [ND _]. destruct p as [|x [|y p] ]; [destruct I|f_equal; apply A; left; reflexivity|]. assert (x = t) by (apply A; left; reflexivity). assert (y = t) by (apply A; right; left; reflexivity). subst. inversion ND as [|? ? X _]. exfalso. apply X. left. reflexivity. }
    unfold guessInstrumentType. destruct (proj2 T t I) as [Q|[Q|Q]]; subst t; subst p; cbn [inb existsb Z.eqb Pos.eqb orb few length Nat.leb]; (destruct (early_some order _ ORD T) as (t & X & Y); [discriminate|]; destruct Y as [<-|[]]; try (rewrite X; reflexivity)).
  Qed.
  Lemma spot_recognised order data m un stop room pre post k i : (forall t, t = 1 \/ t = 16 \/ t = 17 -> In t order) ->
    (forall id o, In (id, o) m <-> 0 <= id /\ exists i, nth_error (map (relabel2 b) (bInsts b)) (Z.to_nat id) = Some (Some i) /\ iKey i = o) ->
    StronglySorted (fun p q => fst p < fst q) m ->
    In i (inacc_at b k) -> recognisable b k room i -> data = pre ++ body_bytes (iBody i) ++ post -> zlen pre = place b i ->
    ~ In stop un -> place b i <= stop -> stop - place b i <= room ->
    recognised order data (map (relabel2 b) (bInsts b)) m un (place b i, iBody i).
  Proof.
    intros ORD M SM I (t & d & SV & SH & AL & RC) DE LP NS SP SR. destruct (hid_facts b SEP k i I) as (F & G & L10). pose proof (size_key i F) as SZ. cbn [ikey fst] in SZ. rewrite (body_save_ok _ F) in SV. injection SV as <- <-.
    unfold recognised. cbn [fst snd]. split; [lia|]. split.
    - rewrite DE, <- LP. assert (KT : kind (iBody i) = body_type (iBody i)) by (destruct (iBody i); cbn [kind body_type]; [symmetry; exact SH|reflexivity|reflexivity]). rewrite KT, make_hit by assumption. rewrite SZ. unfold found_inst. cbn [fst snd]. reflexivity.
    - exists stop. split; [exact NS|]. split; [exact SP|]. intros avail AV. pose proof (fun t => possible_allowed m M SM k i t I) as PA. set (p := possible_types _ _) in *. assert (T : types_ok p) by apply possible_nodup.
      destruct RC as [RC|[LK RC]].
      + apply one_type; [exact ORD|exact T|apply PA; exact AL|]. intros t' X. apply RC, PA. exact X.
      + assert (SK : skipn (Z.to_nat (place b i)) data = body_bytes (iBody i) ++ post). { rewrite DE, <- LP. unfold zlen. rewrite Nat2Z.id, skipn_app, skipn_all, Nat.sub_diag. reflexivity. }
        assert (L8 : 8 <= zlen (body_bytes (iBody i))) by lia. pose proof (zlen_nonneg pre). pose proof (zlen_nonneg post).
        destruct (guess_right order data (place b i) avail ORD) with (p := p) as (t' & -> & X & SU).
        * rewrite SK, first8 by exact L8. apply Forall_forall. intros x Hx. pose proof (body_nonneg _ F) as B. rewrite Forall_forall in B. apply B. rewrite <- (firstn_skipn 8). apply in_app_iff. left. exact Hx.
        * lia.
        * rewrite DE, !zlen_app. lia.
        * exact T.
        * exists (kind (iBody i)). split; [apply PA; exact AL|]. rewrite SK. apply suits_app; [exact L8|]. apply own_suits; try assumption; try lia. intros rs E. rewrite E in SH. destruct SH as (r & rest & -> & _). discriminate.
        * rewrite SK in SU. apply (proj1 (suits_app _ _ _ _ L8)) in SU. apply (suits_more _ _ _ room) in SU; [|lia]. rewrite (RC t' (proj1 (PA t') X) SU). reflexivity.
  Qed.

  Lemma prev_hidden m k i : (forall id o, In (id, o) m <-> 0 <= id /\ exists i, nth_error (map (relabel2 b) (bInsts b)) (Z.to_nat id) = Some (Some i) /\ iKey i = o) ->
    StronglySorted (fun p q => fst p < fst q) m -> In i (inacc_at b k) -> prev_key m (place b i) = k.
  Proof. intros M SM I. exact (proj1 (prev_is m M SM k i I)). Qed.

  Theorem bank_back order f u w w' tl : (forall t, t = 1 \/ t = 16 \/ t = 17 -> In t order) ->
    (forall k l1 i l2, In (k, l1 ++ i :: l2) (bInacc b) -> recognisable b k (body_size (iBody i) + total l2 + 2) i) -> sbnk_save b = Ok (f, u, w) ->
    exists b', sbnk_load order (f ++ tl) u w' = Ok b' /\ bInsts b' = map (relabel2 b) (bInsts b) /\ NoDup (map fst (bInacc b')) /\
      bUnk b' = u /\ bWars b' = match w' with Some l => strip_none l | None => [] end /\
      forall k, get_list k (bInacc b') = map (fun i => {| iBody := iBody i; iKey := place b i; iMerge := place b i |}) (inacc_at b k).
  Proof.
    intros ORD RC SV. destruct (load_em order b f u w w' tl (sep_fits b SEP) (sGood b SEP) SV) as (hd & m & un & FE & LH & M & UN & SU & SM & LE).
    rewrite len_es in FE, UN, LE. fold base in UN, LE, LH. assert (UE := un_is un UN SU).
    rewrite UE in LE at 2. rewrite (scan_free _ _ _ _ _ un) in LE.
    - cbn [bind] in LE. eexists. split; [exact LE|]. cbn [bInsts bInacc bUnk bWars]. split; [reflexivity|]. split; [apply fold_nodup; constructor|]. split; [reflexivity|]. split; [reflexivity|].
      intros k. rewrite (get_fold (fun p => prev_key m (fst p)) found_inst). unfold get_list, assoc. cbn [find app].
      assert (FE2 : filter (fun p => oeqb (prev_key m (fst p)) k) free = map spot (filter (fun e => oeqb (snd (fst e)) k) hidden)).
      { unfold free. assert (G : forall l, (forall e, In e l -> In e hidden) -> filter (fun p : Z * ibody => oeqb (prev_key m (fst p)) k) (map spot l) = map spot (filter (fun e => oeqb (snd (fst e)) k) l)); [|apply G; auto].
        induction l as [|e l IH]; intros H; [reflexivity|]. cbn [map filter]. assert (E := H e (or_introl eq_refl)). apply in_hidden in E as (k' & i & -> & I). cbn [spot hid fst snd]. rewrite (prev_hidden m k' i M SM I). rewrite IH by (intros e E; apply H; right; exact E). destruct (oeqb k' k); reflexivity. }
      rewrite FE2, filter_hidden, !map_map. reflexivity.
    - exact free_sorted.
    - intros p P. split.
      + apply in_free in P as (k & i & I & ->). destruct (key_at b (ikey i) (hid_es b SEP k i I)) as (pre & post & ED & LP). cbn [ikey fst] in ED.
        destruct (at_in b k i I) as (l & A & EA). pose proof I as I'. apply in_split in I' as (l1 & l2 & EK). destruct (stop_ex un k l1 i l2 UN EK) as (stop & S1 & S2 & S3).
        apply (spot_recognised order _ m un stop (body_size (iBody i) + total l2 + 2) (hd ++ pre) (post ++ zeros ((- lens (em_es b)) mod 4) ++ tl) k i ORD M SM I).
        * rewrite EA in EK. rewrite EK in A. exact (RC k l1 i l2 A).
        * rewrite FE, ED, <- !app_assoc. reflexivity.
        * rewrite zlen_app, LP, LH. unfold place. fold base. lia.
        * exact S1.
        * exact S2.
        * exact S3.
      + pose proof (free_room p P). destruct tail_cases as [-> | TC]; [|rewrite TC].
        * change (zlen []) with 0. pose proof (Z.mod_pos_bound (- lens (em_es b)) 4 ltac:(lia)). lia.
        * assert (ZT : zlen tail_of = (- lens (em_es b)) mod 4) by (unfold tail_of; rewrite zlen_range_z; pose proof (Z.mod_pos_bound (- lens (em_es b)) 4 ltac:(lia)); lia). rewrite <- TC, ZT. lia.
    - exact tail_cases.
    - rewrite UE, app_length. assert (G : forall l, (length l <= length (flat_map bytes_of l))%nat); [|specialize (G free); lia].
      induction l as [|p l IH]; cbn [flat_map length]; [lia|]. rewrite app_length. pose proof (zlen_range_z (fst p) (Z.to_nat (body_size (snd p)))) as LR. fold (bytes_of p) in LR. unfold zlen in LR. pose proof (size_pos (snd p)). lia.
    - intros x X. rewrite UE. exact X.
  Qed.
End Back.

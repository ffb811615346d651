(** * C83, continued: which unlisted instruments of a bank are written *)
From Coq Require Import String Sorted Lia.
From Verif Require Import PyBase PyLemmas WaveModel SeqTotal SbnkModel SbnkSpec SbnkLemmas SbnkBank SbnkInacc SbnkLayout SbnkProps SbnkInaccProps.

(** filed under no ID, under the ID of an instrument, or under an ID there is no place for in the table *)
Definition filed (b : sbnk) (k : option Z) : Prop :=
  match k with None => True | Some j => zlen (bInsts b) <= j \/ 0 <= j /\ exists i, nth_error (bInsts b) (Z.to_nat j) = Some (Some i) end.
Definition filedb (b : sbnk) (k : option Z) : bool :=
  match k with None => true | Some j => (zlen (bInsts b) <=? j) || (0 <=? j) && match nth_error (bInsts b) (Z.to_nat j) with Some (Some _) => true | _ => false end end.
(** the list filed under an ID: dictionaries have each key once *)
Lemma at_entry b k l : NoDup (map fst (bInacc b)) -> In (k, l) (bInacc b) -> inacc_at b k = l.
Proof.
  unfold inacc_at, assoc. induction (bInacc b) as [|[k' l'] r IH]; intros N I; [destruct I|]. cbn [map fst] in N. apply NoDup_cons_iff in N as [N1 N2]. cbn [find fst].
  assert (Q : forall a c, oeqb a c = true <-> a = c) by (intros [a|] [c|]; cbn [oeqb]; rewrite ?Z.eqb_eq; split; intro H; try discriminate H; try reflexivity; congruence).
  destruct I as [E|I].
  - injection E as -> ->. rewrite (proj2 (Q k k) eq_refl). reflexivity.
  - destruct (oeqb k' k) eqn:E; [|exact (IH N2 I)]. apply Q in E. subst k'. exfalso. apply N1. apply in_map_iff. exists (k, l). auto.
Qed.
Theorem C83_written : forall b f u w k l i, NoDup (map fst (bInacc b)) ->
  (forall i, member b i -> expressible (iBody i) /\ exists r, body_save (iBody i) = Ok r) -> sbnk_save b = Ok (f, u, w) ->
  In (k, l) (bInacc b) -> In i l -> filed b k ->
  exists t d pre post, body_save (iBody i) = Ok (t, d) /\ f = pre ++ d ++ post /\ 0x3C + 4 * zlen (bInsts b) <= zlen pre.
Proof.
  intros b f u w k l i ND G SV IK II FK.
  assert (FG : forall i, member b i -> body_fits (iBody i)).
  { intros j Hj. destruct (G j Hj) as [E [[t d] S]]. apply body_save_inv in S as (FT & _); [exact FT|]. destruct (iBody j); try exact I. cbn [expressible] in E. lia. }
  assert (EF : em_fits b). { intros e E. apply FG. exact (em_member b e (fun i I => FG i (or_introl I)) E). }
  assert (O : insts_ok (bInsts b)) by (intros j Hj; apply FG; left; exact Hj).
  pose proof (at_entry b k l ND IK) as AT.
  assert (IE : In (hid k i) (em b)).
  { unfold em. rewrite !in_app_iff. destruct k as [j|].
    - destruct FK as [H|[H (a & E)]].
      + right. right. apply in_flat_map. exists j. split; [|rewrite AT; apply in_map; exact II]. unfold high_ids. apply filter_In. split; [|lia].
        apply (Permutation.Permutation_in _ (Permutation.Permutation_sym (sort_perm _ _))). apply in_flat_map. exists (Some j, l). split; [exact IK|left; reflexivity].
      + right. left. apply in_flat_map. exists (j, a). split; [apply (in_order b j a O); auto|]. right. cbn [fst]. rewrite AT. apply in_map. exact II.
    - left. rewrite AT. apply in_map. exact II. }
  assert (FI : body_fits (iBody i)) by (apply FG; right; exists k, l; auto).
  destruct (key_at b (ekey (hid k i)) (em_in_es b _ IE)) as (pre & post & E & _). cbn [ekey hid snd ikey fst] in E.
  rewrite (sbnk_save_em b EF O) in SV. apply finish_inv in SV as (_ & _ & -> & _).
  exists (body_type (iBody i)), (body_bytes (iBody i)). unfold bank_file. rewrite E. set (hd := bank_head _ _). exists (hd ++ pre). eexists.
  split; [apply body_save_ok, FI|]. split; [rewrite <- !app_assoc; reflexivity|]. rewrite zlen_app. unfold hd. rewrite zlen_head, zlen_map. pose proof (zlen_nonneg pre). lia.
Qed.
Print Assumptions C83_written.

(** the others, and only they, make no difference *)
Lemma insert_filter (p : Z -> bool) x l : StronglySorted Z.le l -> filter p (insert_by (fun i => i) x l) = if p x then insert_by (fun i => i) x (filter p l) else filter p l.
Proof.
  induction 1 as [|y l S IH F]; cbn [insert_by filter]; [destruct (p x); reflexivity|]. destruct (Z.leb_spec x y) as [L|L].
  - cbn [filter]. destruct (p x); [|reflexivity]. destruct (p y); cbn [insert_by]; [replace (x <=? y) with true by lia; reflexivity|].
    destruct (filter p l) as [|z r] eqn:E; [reflexivity|]. cbn [insert_by]. assert (I : In z l) by (assert (In z (filter p l)) as Q by (rewrite E; left; reflexivity); apply filter_In in Q; tauto).
    rewrite Forall_forall in F. specialize (F z I). replace (x <=? z) with true by lia. reflexivity.
  - cbn [filter]. rewrite IH. destruct (p x), (p y); cbn [insert_by]; try reflexivity. replace (x <=? y) with false by lia. reflexivity.
Qed.
Lemma sort_filter (p : Z -> bool) l : filter p (sort_by (fun i => i) l) = sort_by (fun i => i) (filter p l).
Proof.
  induction l as [|x l IH]; [reflexivity|]. unfold sort_by in *. cbn [fold_right filter]. rewrite insert_filter by exact (sort_sorted (fun i => i) l). rewrite IH. destruct (p x); reflexivity.
Qed.
Lemma at_filter b k : filedb b k = true ->
  match assoc k (filter (fun p => filedb b (fst p)) (bInacc b)) with Some l => l | None => [] end = inacc_at b k.
Proof.
  intro H. unfold inacc_at, assoc. assert (Q : forall a c, oeqb a c = true -> a = c) by (intros [a|] [c|]; cbn [oeqb]; rewrite ?Z.eqb_eq; intro E; try discriminate E; try reflexivity; congruence).
  induction (bInacc b) as [|[k' l'] r IH]; [reflexivity|]. cbn [filter fst]. destruct (oeqb k' k) eqn:E.
  - pose proof (Q _ _ E) as E'. subst k'. rewrite H. cbn [find fst]. rewrite E. reflexivity.
  - cbn [find fst]. rewrite E. destruct (filedb b k'); [cbn [find fst]; rewrite E|]; exact IH.
Qed.
Lemma foldM_ext_in {A B} (f g : A -> B -> res A) l : (forall a x, In x l -> f a x = g a x) -> forall a, foldM f a l = foldM g a l.
Proof.
  induction l as [|x l IH]; intros H a; [reflexivity|]. cbn [foldM]. rewrite (H a x) by (left; reflexivity). destruct (g a x); [|reflexivity]. cbn [bind]. apply IH. intros b y Y. apply H. right. exact Y.
Qed.
Theorem C83_left_out : forall b keep, (forall k, keep k = true <-> filed b k) ->
  sbnk_save b = sbnk_save {| bInsts := bInsts b; bInacc := filter (fun p => keep (fst p)) (bInacc b); bUnk := bUnk b; bWars := bWars b |}.
Proof.
  intros b keep K. replace (filter (fun p => keep (fst p)) (bInacc b)) with (filter (fun p => filedb b (fst p)) (bInacc b)).
  2: { apply filter_ext. intros [k l]. cbn [fst]. assert (Q : filedb b k = true <-> filed b k).
       { destruct k as [j|]; cbn [filedb filed]; [|tauto]. rewrite orb_true_iff, andb_true_iff, !Z.leb_le. destruct (nth_error (bInsts b) (Z.to_nat j)) as [[i|]|]; split; intros [H|[H1 H2]]; auto; try discriminate H2; try (destruct H2 as (? & H2); discriminate H2).
         right. split; [exact H1|]. exists i. reflexivity. }
       rewrite <- K in Q. destruct (filedb b k), (keep k); try reflexivity; [symmetry|]; tauto. }
  set (b' := {| bInsts := bInsts b; bInacc := filter (fun p => filedb b (fst p)) (bInacc b); bUnk := bUnk b; bWars := bWars b |}).
  assert (A : forall k, filedb b k = true -> inacc_at b' k = inacc_at b k) by (intros k H; exact (at_filter b k H)).
  assert (H : high_ids b' = high_ids b).
  { unfold high_ids. change (bInsts b') with (bInsts b). change (bInacc b') with (filter (fun p => filedb b (fst p)) (bInacc b)). rewrite !sort_filter. f_equal. clear A b'.
    induction (bInacc b) as [|[[j|] l] r IH]; [reflexivity| |].
    - cbn [filter fst flat_map app]. destruct (filedb b (Some j)) eqn:F; cbn [flat_map fst app filter].
      + rewrite IH. reflexivity.
      + cbn [filedb] in F. apply orb_false_iff in F as [F _]. rewrite F. exact IH.
    - cbn [filter fst filedb flat_map app]. exact IH. }
  assert (D : save_data b = save_data b').
  { unfold save_data. rewrite (A None eq_refl). destruct (add_all ([], []) (inacc_at b None)) as [st|]; [|reflexivity]. cbn [bind]. change (save_order b') with (save_order b).
    rewrite (foldM_ext_in (save_one b) (save_one b')).
    - destruct (foldM (save_one b') (st, []) (save_order b)) as [[st1 offs]|]; [|reflexivity]. cbn [bind]. rewrite H.
      rewrite (foldM_ext_in (fun st k => add_all st (inacc_at b (Some k))) (fun st k => add_all st (inacc_at b' (Some k)))); [reflexivity|].
      intros s k I. rewrite A; [reflexivity|]. unfold high_ids in I. apply filter_In in I as [_ I]. cbn [filedb]. rewrite I. reflexivity.
    - intros s [id i] I. unfold save_one. cbn [fst snd]. rewrite A; [reflexivity|]. assert (N : 0 <= id /\ nth_error (bInsts b) (Z.to_nat id) = Some (Some i)).
      { unfold save_order in I. rewrite !in_app_iff, !in_group in I. tauto. }
      destruct N as [N1 N2]. cbn [filedb]. rewrite N2. replace (0 <=? id) with true by lia. apply orb_true_r. }
  unfold sbnk_save. rewrite D. reflexivity.
Qed.
Print Assumptions C83_left_out.
Example C83_written_ex : let b := {| bInsts := [Some i_single; None]; bInacc := [(Some 1, [h_range]); (Some 2, [h_single])]; bUnk := 0; bWars := [] |} in
  NoDup (map fst (bInacc b)) /\ filed b (Some 2) /\ ~ filed b (Some 1) /\ filter (fun p => filedb b (fst p)) (bInacc b) = [(Some 2, [h_single])] /\
  exists f, sbnk_save b = Ok (f, 0, []).
Proof.
  split; [repeat constructor; cbn; intuition discriminate|]. split; [left; reflexivity|]. split; [intros [H|[_ (i & H)]]; [exact (H eq_refl)|discriminate]|]. split; [reflexivity|]. eexists. vm_compute. reflexivity.
Qed.

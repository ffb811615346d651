(** * Saving again: what was saved, and what was loaded *)
From Coq Require Import String Permutation Sorted.
From Verif Require Import PyBase PyLemmas PyTac WaveModel WaveLemmas SeqTotal SbnkModel SbnkSpec SbnkLemmas SbnkBank SbnkInacc SbnkGuess SbnkLayout SbnkScan SbnkBack SbnkBack2 SbnkResave.

Lemma noteT_isb n : is_bytes (noteT_bytes n).
Proof. unfold noteT_bytes, note_bytes. rewrite !is_bytes_app. repeat split; apply is_bytes_le. Qed.
Lemma body_isb bd : body_fits bd -> is_bytes (body_bytes bd).
Proof.
  assert (C : forall ns, is_bytes (concat (map noteT_bytes ns))) by (induction ns as [|n ns IH]; cbn [map concat]; [constructor|apply is_bytes_app; split; [apply noteT_isb|exact IH]]).
  destruct bd as [n|f ns|rs]; cbn [body_fits body_bytes]; intros F.
  - unfold note_bytes. rewrite !is_bytes_app. repeat split; apply is_bytes_le.
  - rewrite !is_bytes_app. split; [apply is_bytes_le|split; [apply is_bytes_le|apply C]].
  - rewrite !is_bytes_app. split; [|split; [apply is_bytes_zeros|rewrite <- (map_map snd noteT_bytes); apply C]].
    destruct F as [_ F]. apply Forall_forall. intros x X. apply in_map_iff in X as (r & <- & X). rewrite Forall_forall in F. exact (proj1 (F r X)).
Qed.
Lemma file_isb tos d : is_bytes d -> is_bytes (bank_file tos d).
Proof.
  intros D. unfold bank_file, bank_head, std_bytes. rewrite !is_bytes_app. repeat split; try apply is_bytes_le; try apply is_bytes_zeros; try exact D; try (apply Forall_forall; intros x X; cbn in X; unfold is_byte; repeat (destruct X as [<-|X]; [lia|]); destruct X).
  induction tos as [|p tos IH]; cbn [map concat]; [constructor|]. apply is_bytes_app. split; [|exact IH]. unfold rowb. rewrite !is_bytes_app. split; [apply is_bytes_le|split; [apply is_bytes_le|]]. constructor; [unfold is_byte; lia|constructor].
Qed.
Lemma em_isb b : em_fits b -> is_bytes (em_data b).
Proof.
  intros F. unfold em_data. assert (G : forall k, In k (em_es b) -> is_bytes (fst k)). { intros k K. unfold em_es in K. apply (proj1 (dedup_In0 _ _)) in K. apply in_map_iff in K as (e & <- & K). apply body_isb, F. exact K. }
  induction (em_es b) as [|k l IH]; cbn [map concat]; [constructor|]. apply is_bytes_app. split; [apply G; left; reflexivity|apply IH; intros k' K; apply G; right; exact K].
Qed.

(** listed instruments lie in the order of their kinds *)
Lemma kinds_ordered b (SEP : separate b) id j id' j' : entry b id j -> entry b id' j' -> place b j < place b j' -> kind (iBody j) <= kind (iBody j').
Proof.
  intros J' J LT. destruct (Z.le_gt_cases (kind (iBody j)) (kind (iBody j'))) as [LE|GT]; [exact LE|exfalso]. rename id' into idx, j' into jx, id into id', j into j'. rename idx into id, jx into j.
  assert (JS := J). apply (entry_order b SEP) in JS. assert (JS' := J'). apply (entry_order b SEP) in JS'.
  destruct (entry_fits b SEP _ _ J) as [F _]. destruct (entry_fits b SEP _ _ J') as [F' _].
  destruct (first_in (save_order b) (ikey j')) as (a & [id2 j2] & c & S & K & N); [apply in_map_iff; exists (id', j'); split; [reflexivity|exact JS']|]. cbn [snd] in K.
  assert (J2 : entry b id2 j2) by (apply (entry_order b SEP); rewrite S; apply in_app_iff; right; left; reflexivity). destruct (entry_fits b SEP _ _ J2) as [F2 _].
  pose proof (key_kind _ _ F2 F' K) as KK.
  assert (INA : In (id, j) a).
  { rewrite S in JS. apply in_app_iff in JS as [JS|[JS|JS]]; [exact JS|injection JS as <- <-; lia|exfalso].
    pose proof (order_written b (sep_ok b SEP)) as SW. rewrite S in SW. assert (X : written_before (id2, j2) (id, j)). { clear - SW JS. induction a as [|p a IH]; cbn [app] in SW; inversion SW as [|? ? S1 S2]; subst; [rewrite Forall_forall in S2; apply S2; exact JS|apply IH; exact S1]. }
    unfold written_before in X. cbn [snd] in X. lia. }
  assert (PL : place b j + body_size (iBody j) <= place b j2).
  { apply (place_two b (map ikey (inacc_at b None) ++ map ekey (flat_map (em_of b) a)) (map ekey (flat_map (em_of b) ((id2, j2) :: c)))).
    - rewrite (em_eq b SEP), map_app, map_hid, S, flat_map_app, map_app, <- app_assoc. reflexivity.
    - apply in_app_iff. right. apply in_map_iff. exists (Some id, Some id, j). split; [reflexivity|]. apply in_flat_map. exists (id, j). split; [exact INA|left; reflexivity].
    - intros C. apply in_app_iff in C as [C|C]; [apply in_map_iff in C as (h & HE & HH); exact (hid_apart b SEP None h id2 j2 HH J2 HE)|].
      apply (em_of_cases b) in C as [(id3 & j3 & P3 & K3)|(id3 & h & HH & K3)]; [apply N; apply in_map_iff; exists (id3, j3); split; [cbn [snd]; congruence|exact P3]|exact (hid_apart b SEP _ h id2 j2 HH J2 (eq_sym K3))|intros p P; apply (order_entries b SEP); rewrite S; apply in_app_iff; left; exact P].
    - apply in_map_iff. exists (Some id2, Some id2, j2). split; [reflexivity|]. left. reflexivity.
    - exact F. }
  assert (place b j2 = place b j') by (unfold place; rewrite K; reflexivity). pose proof (size_pos (iBody j)). lia.
Qed.

Definition moved (b : sbnk) (i : inst) : inst := {| iBody := iBody i; iKey := place b i; iMerge := place b i |}.
Lemma in_get {A} k (l : list A) d x : NoDup (map fst d) -> In (k, l) d -> In x l -> In x (get_list k d).
Proof. intros N I X. unfold get_list. rewrite (assoc_In _ _ _ N I). exact X. Qed.
Section Saved.
  Variables (order : list Z) (b : sbnk) (f : bytes) (u : Z) (w : list (option Z)) (w' : option (list (option Z))) (tl : bytes) (b' : sbnk).
  Hypothesis SEP : separate b.
  Hypothesis SV : sbnk_save b = Ok (f, u, w).
  Hypothesis TL : is_bytes tl.
  Hypothesis LD : sbnk_load order (f ++ tl) u w' = Ok b'.
  Hypothesis BI : bInsts b' = map (relabel2 b) (bInsts b).
  Hypothesis NK : NoDup (map fst (bInacc b')).
  Hypothesis GL : forall k, get_list k (bInacc b') = map (moved b) (inacc_at b k).
  Let base := 0x3C + 4 * zlen (bInsts b).
  Lemma member_back i : member b' i -> exists i0, i = moved b i0 /\ In (ikey i0) (em_es b) /\ body_fits (iBody i0).
  Proof using SEP BI NK GL.
    intros [I|(k & l & A & I)].
    - rewrite BI in I. apply in_map_iff in I as ([i0|] & E & I); [|discriminate]. cbn [relabel2] in E. injection E as <-. apply In_nth_error in I as [n N]. assert (J : entry b (Z.of_nat n) i0) by (split; [lia|rewrite Nat2Z.id; exact N]). exists i0. split; [reflexivity|]. split; [exact (entry_es b SEP _ _ J)|apply (entry_fits b SEP _ _ J)].
    - pose proof (in_get k l _ i NK A I) as H. rewrite GL in H. apply in_map_iff in H as (i0 & <- & H). exists i0. split; [reflexivity|]. split; [exact (hid_es b SEP _ _ H)|apply (hid_facts b SEP _ _ H)].
  Qed.
  Lemma member_fwd e : In e (em b) -> member b' (moved b (snd e)).
  Proof using SEP BI NK GL.
    intros E. apply (em_cases b SEP) in E as [(id & i & -> & [P N])|(k & i & -> & I)]; cbn [snd hid].
    - left. rewrite BI. apply in_map_iff. exists (Some i). split; [reflexivity|]. eapply nth_error_In, N.
    - right. assert (H : In (moved b i) (get_list k (bInacc b'))) by (rewrite GL; apply in_map; exact I). unfold get_list in H. destruct (assoc k (bInacc b')) as [l|] eqn:Q; [|destruct H]. exists k, l. split; [apply assoc_some; exact Q|exact H].
  Qed.
  Lemma saved_tidy : tidy (f ++ tl) base (base + lens (em_es b)) b' /\ slice (f ++ tl) base (base + lens (em_es b)) = em_data b /\ base + lens (em_es b) <= zlen (f ++ tl).
  Proof using All.
    destruct (load_em order b f u w w' tl (sep_fits b SEP) (sGood b SEP) SV) as (hd & m & un & FE & LH & _). fold base in LH. pose proof (lens_nonneg (em_es b)) as LN. pose proof (zlen_nonneg (bInsts b)) as ZN.
    assert (ISB : is_bytes (f ++ tl)). { apply is_bytes_app. split; [|exact TL]. pose proof SV as S. rewrite (sbnk_save_em b (sep_fits b SEP) (sep_ok b SEP)) in S. apply finish_inv in S as (_ & _ & -> & _). apply file_isb, em_isb, (sep_fits b SEP). }
    destruct (load_found order (f ++ tl) u w' b' ISB LD) as (h & HH & (D1 & D2 & D3) & D4).
    assert (AT : forall k, In k (em_es b) -> slice (f ++ tl) (base + pos (em_es b) k) (base + pos (em_es b) k + zlen (fst k)) = fst k).
    { intros k K. destruct (key_at b k K) as (pre & post & ED & LP). rewrite FE, ED. replace ((hd ++ (pre ++ fst k ++ post) ++ zeros (- zlen (pre ++ fst k ++ post) mod 4)) ++ tl) with ((hd ++ pre) ++ fst k ++ (post ++ zeros (- zlen (pre ++ fst k ++ post) mod 4) ++ tl)) by (rewrite <- !app_assoc; reflexivity). apply slice_mid; [rewrite zlen_app; lia|lia]. }
    assert (ND : NoDup (em_es b)) by exact (dedup_NoDup _ [] (NoDup_nil _)).
    assert (SZ : forall i, body_fits (iBody i) -> zlen (fst (ikey i)) = body_size (iBody i)) by (intros i F; cbn [ikey fst]; rewrite zlen_body by exact F; destruct (iBody i); cbn [body_size]; lia).
    assert (FND : forall k l i, In (k, l) (bInacc b') -> In i l -> found (f ++ tl) (bInsts b') (0x3C + 4 * zlen (bInsts b')) (hSize h) k i) by (intros k l i A I; apply (D2 k l A); exact I).
    split; [|split].
    - constructor.
      + intros i M. destruct (member_back i M) as (i0 & -> & K & F). cbn [moved iBody iKey iMerge]. destruct (key_in b _ K) as [K1 K2]. rewrite SZ in K2 by exact F. pose proof (AT _ K) as X. rewrite SZ in X by exact F. cbn [ikey fst] in X. split; [exact F|]. split; [reflexivity|]. unfold place. fold base. split; [lia|]. split; [lia|]. rewrite (Z.add_comm _ base). exact X.
      + intros i j M M' E. destruct (member_back i M) as (i0 & -> & K & F). destruct (member_back j M') as (j0 & -> & K' & F'). cbn [moved iBody iKey] in *. pose proof (place_le b SEP i0 j0 K K' E) as Q. unfold ikey in Q. congruence.
      + intros i j M M' E. destruct (member_back i M) as (i0 & -> & K & F). destruct (member_back j M') as (j0 & -> & K' & F'). unfold before. cbn [moved iBody iKey] in *. destruct (pos_apart (em_es b) (ikey i0) (ikey j0) ND K K') as [C|C]; [intros Q; unfold place in E; rewrite Q in E; lia| |]; rewrite SZ in C by assumption; unfold place in *; [lia|]. pose proof (size_pos (iBody j0)). lia.
      + intros x X. destruct (covered_key (em_es b) (x - base)) as (k & K & R); [lia|exact ND|]. assert (KE := K). unfold em_es in KE. apply (proj1 (dedup_In0 _ _)) in KE. apply in_map_iff in KE as (e & <- & E). exists (moved b (snd e)). split; [exact (member_fwd e E)|]. cbn [moved iKey iBody]. change (ekey e) with (ikey (snd e)) in R. rewrite SZ in R by apply (sep_fits b SEP e E). unfold place. fold base. lia.
      + intros i j I J E. rewrite BI in I, J. apply in_map_iff in I as ([i0|] & EI & I); [|discriminate]. apply in_map_iff in J as ([j0|] & EJ & J); [|discriminate]. cbn [relabel2] in EI, EJ. injection EI as <-. injection EJ as <-. cbn [iBody iKey] in *. apply In_nth_error in I as [n N]. apply In_nth_error in J as [n' N'].
        apply (kinds_ordered b SEP (Z.of_nat n) i0 (Z.of_nat n') j0); [split; [lia|rewrite Nat2Z.id; exact N]|split; [lia|rewrite Nat2Z.id; exact N']|exact E].
      + exact NK.
      + intros k l i A I. destruct (FND k l i A I) as (_ & _ & _ & _ & X). exact X.
      + intros k l A. apply (D2 k l A).
      + intros k l i j A I J E. destruct (FND k l i A I) as (_ & _ & _ & X & _). apply (X j J). pose proof (size_pos (iBody j)). lia.
    - rewrite FE. replace ((hd ++ em_data b ++ zeros (- zlen (em_data b) mod 4)) ++ tl) with (hd ++ em_data b ++ (zeros (- zlen (em_data b) mod 4) ++ tl)) by (rewrite <- !app_assoc; reflexivity). apply slice_mid; [lia|]. rewrite len_es. lia.
    - rewrite FE, !zlen_app, LH, len_es. pose proof (zlen_nonneg (zeros (- lens (em_es b) mod 4))). pose proof (zlen_nonneg tl). rewrite len_es in *. lia.
  Qed.
  Lemma saved_again : sbnk_save b' = Ok (f, bUnk b', bWars b').
  Proof using All.
    destruct saved_tidy as (T & SL & ZL). pose proof (lens_nonneg (em_es b)) as LN. pose proof (zlen_nonneg (bInsts b)) as ZN. rewrite (t_save _ _ _ _ T); [|unfold base; lia|exact ZL|rewrite BI, zlen_map; reflexivity].
    rewrite SL. pose proof SV as S. rewrite (sbnk_save_em b (sep_fits b SEP) (sep_ok b SEP)) in S. apply finish_inv in S as (FR & L & -> & _ & _).
    replace (map _ (bInsts b')) with (map (em_row b) (bInsts b)); [apply finish_ok; assumption|]. rewrite BI, map_map. apply map_ext. intros [i|]; reflexivity.
  Qed.
End Saved.

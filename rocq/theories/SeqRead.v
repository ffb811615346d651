(** Proofs about the sequence model, part 4: reading saved event lists *)
From Verif Require Import PyBase PyLemmas PyTac Gfx2DLemmas WaveLemmas SeqModel SeqSpec SeqLemmas SeqSave SeqParse.
From Coq Require Import ZifyBool.
Ltac Zify.zify_post_hook ::= idtac.

Lemma ok_inj {A} (a b : A) : Ok a = Ok b -> a = b.
Proof. congruence. Qed.

Lemma next_event_eq evs fuel : forall j j',
  j <= j' -> (forall k, j <= k < j' -> lookup k evs = None) ->
  (lookup j' evs <> None /\ j' < j + Z.of_nat fuel) \/ j' = j + Z.of_nat fuel ->
  next_event evs fuel j = j'.
Proof.
  induction fuel as [|n IH]; intros j j' L N H; cbn [next_event]; [lia|].
  destruct (Z.eq_dec j j') as [->|NE].
  - destruct H as [[H _]|H]; [|lia]. destruct (lookup j' evs); [reflexivity|congruence].
  - rewrite N by lia. apply IH; [lia|intros k K; apply N; lia|].
    destruct H as [[H1 H2]|H]; [left; split; [exact H1|lia]|right; lia].
Qed.

Lemma split_run (vis : Z -> Prop) (dec : forall o, vis o \/ ~ vis o) (Q : list pev) :
  exists run rest, Q = run ++ rest /\ (forall x, In x run -> ~ vis (fst (fst x)))
    /\ match rest with [] => True | x :: _ => vis (fst (fst x)) end.
Proof.
  induction Q as [|x Q IH].
  - exists [], []. split; [reflexivity|]. split; [intros x []|exact I].
  - destruct (dec (fst (fst x))) as [V|V].
    + exists [], (x :: Q). split; [reflexivity|]. split; [intros y []|exact V].
    + destruct IH as (run & rest & -> & R1 & R2). exists (x :: run), rest. split; [reflexivity|].
      split; [|exact R2]. intros y [<-|H]; auto.
Qed.

Section Read.
Variable data : bytes.
Variable P : list pev.
Variable starts : list Z.
Hypothesis G : GP data P.
Variable st : pstate.
Hypothesis IV : INV P starts [] [] (fun _ => False) st.

Lemma dom_dec o : dom st o \/ ~ dom st o.
Proof. unfold dom. destruct (lookup o (psEvents st)); [left; discriminate|right; congruence]. Qed.
Lemma dom_in o : dom st o -> In o (offs P).
Proof.
  unfold dom. intros H. destruct (lookup o (psEvents st)) as [e|] eqn:L; [|congruence].
  destruct (i_ev _ _ _ _ _ _ IV _ _ L) as (e' & b & I & _). eapply in_offs. exact I.
Qed.
Lemma dom_lookup o e b : In (o, e, b) P -> dom st o -> lookup o (psEvents st) = Some e.
Proof.
  unfold dom. intros I H. destruct (lookup o (psEvents st)) as [e0|] eqn:L; [|congruence].
  destruct (i_ev _ _ _ _ _ _ IV _ _ L) as (e' & b' & I' & K).
  destruct (at_fun _ _ G _ _ _ _ _ I I') as [<- _]. destruct K as [[-> _]|[[] _]]. reflexivity.
Qed.

Lemma walk_ok : forall n P2 P1 fuel, (length P2 <= n)%nat -> P = P1 ++ P2 -> (length P2 < fuel)%nat ->
  exists L', walk (psEvents st) data fuel (zlen (body P1)) = Ok L' /\ collapsed (dom st) P2 L'.
Proof.
  induction n as [|n IH]; intros P2 P1 fuel LN EP FU; (destruct fuel as [|k]; [lia|]); cbn [walk].
  - destruct P2; [|cbn in LN; lia]. exists []. rewrite app_nil_r in EP. subst P1.
    rewrite (g_data _ _ G). rewrite Z.ltb_irrefl. split; [reflexivity|constructor].
  - destruct P2 as [|[[o e] b] P2].
    { exists []. rewrite app_nil_r in EP. subst P1. rewrite (g_data _ _ G). rewrite Z.ltb_irrefl. split; [reflexivity|constructor]. }
    assert (I : In (o, e, b) P) by (rewrite EP; apply in_or_app; right; left; reflexivity).
    assert (LO : zlen (body P1) = o).
    { pose proof (g_chain _ _ G) as C. rewrite EP in C. apply chain_app in C as [_ C]. destruct C as [C _]. lia. }
    destruct (at_len _ _ G _ _ _ I) as [DL LB]. pose proof (at_range _ _ G _ _ _ I) as RG.
    rewrite LO. replace (o <? zlen data) with true by lia. cbn [negb].
    destruct (dom_dec o) as [V|V].
    + rewrite (dom_lookup _ _ _ I V). rewrite DL. cbn [bind].
      destruct (IH P2 (P1 ++ [(o, e, b)]) k) as (L' & W & C); [cbn in LN; lia|rewrite <- app_assoc; exact EP|cbn in FU; lia|].
      rewrite body_app, zlen_app, LO in W. change (body [(o, e, b)]) with (b ++ []) in W. rewrite app_nil_r in W.
      rewrite W. cbn [bind]. exists ((o, e) :: L'). split; [reflexivity|]. constructor; assumption.
    + assert (lookup o (psEvents st) = None) as LK.
      { unfold dom in V. destruct (lookup o (psEvents st)); [exfalso; apply V; discriminate|reflexivity]. }
      rewrite LK.
      destruct (split_run (dom st) dom_dec P2) as (run & rest & -> & R1 & R2).
      set (R0 := (o, e, b) :: run) in *.
      assert (EP' : P = (P1 ++ R0) ++ rest) by (rewrite EP; unfold R0; rewrite <- app_assoc; reflexivity).
      assert (LB' : zlen (body (P1 ++ R0)) = o + zlen (body R0)) by (rewrite body_app, zlen_app, LO; reflexivity).
      assert (LT : zlen data = o + zlen (body R0) + zlen (body rest)).
      { rewrite (g_data _ _ G), EP', body_app, zlen_app, LB'. reflexivity. }
      pose proof (zlen_nonneg (body rest)).
      assert (LR : zlen b <= zlen (body R0)).
      { unfold R0. rewrite body_cons, zlen_app. pose proof (zlen_nonneg (body run)). lia. }
      assert (NV : forall x, In x R0 -> ~ dom st (fst (fst x))) by (intros x [<-|Hx]; [exact V|apply R1, Hx]).
      assert (NE : next_event (psEvents st) (Z.to_nat (zlen data - o)) o = o + zlen (body R0)).
      { apply next_event_eq.
        - lia.
        - intros q Q. destruct (lookup q (psEvents st)) eqn:L; [|reflexivity]. exfalso.
          assert (D : dom st q) by (unfold dom; congruence).
          pose proof (dom_in _ D) as Iq. apply offs_in in Iq as (eq & bq & Iq). rewrite EP' in Iq.
          apply in_app_or in Iq as [Iq|Iq]; [apply in_app_or in Iq as [Iq|Iq]|].
          + pose proof (g_chain _ _ G) as C. rewrite EP in C. apply chain_app in C as [C _].
            apply in_split in Iq as (A & B & ->). apply chain_app in C as [_ C]. destruct C as [C _].
            rewrite body_app, zlen_app, body_cons, zlen_app in LO.
            assert (Iq : In (q, eq, bq) P) by (rewrite EP; apply in_or_app; left; apply in_or_app; right; left; reflexivity).
            pose proof (at_len _ _ G _ _ _ Iq). pose proof (zlen_nonneg (body B)). lia.
          + apply (NV _ Iq). exact D.
          + pose proof (g_chain _ _ G) as C. rewrite EP' in C. apply chain_app in C as [_ C].
            rewrite LB' in C. apply in_map with (f := fun x => fst (fst x)) in Iq.
            apply (chain_ge _ _ C) in Iq. cbn [fst] in Iq. lia.
        - destruct rest as [|[[o' e'] b'] rest].
          + right. change (zlen (body [])) with 0 in LT. rewrite Z2Nat.id by lia. lia.
          + left. assert (I' : In (o', e', b') P) by (rewrite EP'; apply in_or_app; right; left; reflexivity).
            pose proof (at_len _ _ G _ _ _ I') as [_ LB2].
            pose proof (g_chain _ _ G) as C. rewrite EP' in C. apply chain_app in C as [_ C]. destruct C as [C _].
            rewrite LB' in C. cbn [fst] in R2. unfold dom in R2. rewrite <- (Z.add_0_l (o + _)), <- C. split; [exact R2|].
            rewrite body_cons, zlen_app in LT. pose proof (zlen_nonneg (body rest)). lia. }
      rewrite NE.
      destruct (IH rest (P1 ++ R0) k) as (L' & W & C).
      { cbn [length] in LN. rewrite app_length in LN. lia. }
      { exact EP'. }
      { cbn [length] in FU. rewrite app_length in FU. lia. }
      rewrite LB' in W. rewrite W. cbn [bind].
      assert (SL : slice data o (o + zlen (body R0)) = body R0).
      { rewrite (g_data _ _ G), EP', !body_app, <- app_assoc. rewrite slice_skip by lia. apply slice_hit; lia. }
      rewrite SL. eexists. split; [reflexivity|].
      change ((o, e, b) :: run ++ rest) with (((o, e, b) :: run) ++ rest).
      unfold R0, body. apply (col_raw (dom st) o e b run rest L' NV R2 C).
Qed.

(** what is kept, and that saving it again gives the same bytes *)
Lemma collapsed_save P2 L' : collapsed (dom st) P2 L' ->
  forall P1, P = P1 ++ P2 ->
  exists bs, Forall2 (fun p b => dataLength (snd p) = Ok (zlen b)) L' bs
    /\ concat bs = body P2
    /\ (forall tab, (forall d, dom st d -> pos_of tab (Some d) = Some d) ->
          Forall2 (fun p b => ev_save (snd p) tab = Ok b) L' bs)
    /\ table (items_from (zlen (body P1)) L' (map zlen bs)) = map (fun p => (fst p, fst p)) L'
    /\ (forall o, In o (map fst L') -> In o (offs P2))
    /\ (forall o, In o (offs P2) -> dom st o -> In o (map fst L')).
Proof.
  induction 1 as [|o e b r r' V C IH|o e b run r r' NV HV C IH]; intros P1 EP.
  - exists []. repeat split; try constructor; intros o [].
  - assert (I : In (o, e, b) P) by (rewrite EP; apply in_or_app; right; left; reflexivity).
    assert (LO : zlen (body P1) = o).
    { pose proof (g_chain _ _ G) as C0. rewrite EP in C0. apply chain_app in C0 as [_ C0]. destruct C0 as [C0 _]. lia. }
    destruct (IH (P1 ++ [(o, e, b)])) as (bs & B1 & B2 & B3 & B4 & B5 & B6); [rewrite <- app_assoc; exact EP|].
    destruct (g_ev _ _ G _ _ _ I) as (_ & _ & _ & _ & DL & SV & RF).
    exists (b :: bs). split; [constructor; assumption|]. split; [cbn [concat]; rewrite B2; reflexivity|].
    split; [|split; [|split]].
    + intros tab T. constructor; [|apply B3, T]. cbn [snd].
      destruct (has_ref e) eqn:HR.
      * destruct (RF eq_refl) as (d & RD & ID).
        assert (DD : dom st d).
        { pose proof (dom_lookup _ _ _ I V) as L. destruct (i_ev _ _ _ _ _ _ IV _ _ L) as (e' & b' & I' & K).
          destruct (at_fun _ _ G _ _ _ _ _ I I') as [<- _]. destruct K as [[_ K]|[[] _]]. apply K. exact RD. }
        destruct e; try discriminate HR; cbn [ev_save ev_ref] in *; subst; rewrite pos_of_get in *;
          rewrite (T d DD); rewrite (ident_get _ _ ID) in SV; exact SV.
      * destruct e; try discriminate HR; exact SV.
    + cbn [map items_from table fst snd]. unfold table in B4 |- *. cbn [map fst snd]. rewrite LO. f_equal.
      rewrite body_app, zlen_app, LO in B4. change (body [(o, e, b)]) with (b ++ []) in B4. rewrite app_nil_r in B4. exact B4.
    + intros x. cbn [map fst In]. unfold offs. cbn [map fst In]. intros [->|H]; [left; reflexivity|right; apply B5; exact H].
    + intros x. cbn [map fst In]. unfold offs. cbn [map fst In]. intros [->|H] D; [left; reflexivity|right; apply B6; assumption].
  - set (R0 := (o, e, b) :: run) in *.
    assert (EP' : P = (P1 ++ R0) ++ r) by (rewrite EP; unfold R0; rewrite <- app_assoc; reflexivity).
    assert (LO : zlen (body P1) = o).
    { pose proof (g_chain _ _ G) as C0. rewrite EP in C0. apply chain_app in C0 as [_ C0]. destruct C0 as [C0 _]. lia. }
    destruct (IH (P1 ++ R0) EP') as (bs & B1 & B2 & B3 & B4 & B5 & B6).
    exists (body R0 :: bs). fold (body R0). split; [constructor; [reflexivity|exact B1]|].
    split; [|split; [|split; [|split]]].
    + cbn [concat]. rewrite B2, <- body_app. reflexivity.
    + intros tab T. constructor; [reflexivity|apply B3, T].
    + unfold table in B4 |- *. cbn [map items_from fst snd]. rewrite LO. f_equal.
      rewrite body_app, zlen_app, LO in B4. exact B4.
    + intros x. cbn [map fst In]. unfold R0, offs. cbn [app map fst In]. rewrite map_app, in_app_iff.
      intros [->|H]; [left; reflexivity|right; right; apply B5; exact H].
    + intros x. change ((o, e, b) :: run ++ r) with (R0 ++ r). unfold offs. rewrite map_app, in_app_iff. intros [H|H] D.
      * exfalso. apply in_map_iff in H as (y & Ey & Hy). apply (NV y Hy). rewrite Ey. exact D.
      * right. apply B6; assumption.
Qed.

Lemma collapsed_nodup P2 L' off : collapsed (dom st) P2 L' -> (forall x, In x P2 -> In x P) -> chain off P2 -> NoDup (map fst L').
Proof.
  intros C. revert off. induction C as [|o e b r r' V C IH|o e b run r r' NV HV C IH]; intros off HI CH.
  - constructor.
  - destruct CH as [-> CH]. cbn [map fst]. constructor; [|apply IH with (off + zlen b); [intros x Hx; apply HI; right; exact Hx|exact CH]].
    intros H.
    assert (K : In off (offs r)).
    { clear - C H. induction C as [|o' e' b' r r' V C IH|o' e' b' run r r' NV HV C IH]; [exact H| |].
      - destruct H as [H|H]; [left; exact H|right; apply IH; exact H].
      - cbn [map fst In] in H. unfold offs. cbn [map fst In]. destruct H as [H|H]; [left; exact H|right].
        rewrite map_app, in_app_iff. right. apply IH. exact H. }
    apply (chain_ge _ _ CH) in K. pose proof (at_len _ _ G off e b (HI _ (or_introl eq_refl))). lia.
  - destruct CH as [-> CH]. cbn [map fst].
    assert (CR : chain (off + zlen b + zlen (body run)) r) by (apply chain_app in CH; tauto).
    constructor; [|apply IH with (off + zlen b + zlen (body run)); [intros x Hx; apply HI; right; apply in_or_app; right; exact Hx|exact CR]].
    intros H.
    assert (K : In off (offs r)).
    { clear - C H. induction C as [|o' e' b' r r' V C IH|o' e' b' run' r r' NV HV C IH]; [exact H| |].
      - destruct H as [H|H]; [left; exact H|right; apply IH; exact H].
      - cbn [map fst In] in H. unfold offs. cbn [map fst In]. destruct H as [H|H]; [left; exact H|right].
        rewrite map_app, in_app_iff. right. apply IH. exact H. }
    apply (chain_ge _ _ CR) in K. pose proof (at_len _ _ G off e b (HI _ (or_introl eq_refl))).
    pose proof (zlen_nonneg (body run)). lia.
Qed.
End Read.

(** ** Saved lists are placed *)

Lemma table_fst its : map fst (table its) = map fst its.
Proof. unfold table. rewrite map_map. reflexivity. Qed.
Lemma table_cons i e o r : table ((i, (e, o)) :: r) = (i, o) :: table r.
Proof. reflexivity. Qed.

Lemma placed_of pos l bs : Forall2 (fun p b => ev_save (snd p) pos = Ok b) l bs ->
  forall off, (forall i o, In (i, o) (table (items_from off l (map zlen bs))) -> pos_of pos (Some i) = Some o) ->
  exists P, placed pos off l P /\ body P = concat bs /\ chain off P
    /\ map (fun p => pos_of pos (Some (fst p))) l = map Some (offs P).
Proof.
  induction 1 as [|[i e] b l bs SV F IH]; intros off HT.
  - exists []. repeat split. constructor.
  - cbn [map items_from] in HT. rewrite table_cons in HT.
    destruct (IH (off + zlen b)) as (P & P1 & P2 & P3 & P4).
    { intros j o Hj. apply HT. right. exact Hj. }
    assert (PO : pos_of pos (Some i) = Some off) by (apply HT; left; reflexivity).
    exists ((off, map_ref (pos_of pos) e, b) :: P). split; [|split; [|split]].
    + constructor; assumption.
    + rewrite body_cons, P2. reflexivity.
    + split; [reflexivity|exact P3].
    + unfold offs in *. cbn [map fst]. rewrite PO, P4. reflexivity.
Qed.

Lemma placed_in pos off l P o e b : placed pos off l P -> In (o, e, b) P ->
  exists i e0, In (i, e0) l /\ pos_of pos (Some i) = Some o /\ e = map_ref (pos_of pos) e0 /\ ev_save e0 pos = Ok b.
Proof.
  induction 1 as [|off i e0 b0 r r' PO SV PL IH]; intros H; [destruct H|].
  destruct H as [H|H].
  - injection H as <- <- <-. exists i, e0. repeat split; [left; reflexivity|exact PO|exact SV].
  - destruct (IH H) as (j & e1 & I & R). exists j, e1. split; [right; exact I|exact R].
Qed.
Lemma placed_offs pos off l P : placed pos off l P -> map (fun p => pos_of pos (Some (fst p))) l = map Some (offs P).
Proof.
  induction 1 as [|off i e0 b0 r r' PO SV PL IH]; [reflexivity|].
  cbn [map fst]. rewrite PO, IH. reflexivity.
Qed.
Lemma placed_length pos off l P : placed pos off l P -> length P = length l.
Proof. induction 1; cbn; congruence. Qed.

Lemma map_ref_fits f e : ev_fits (map_ref f e) <-> ev_fits e.
Proof. destruct e; reflexivity. Qed.
Lemma map_ref_small f e : ev_small (map_ref f e) <-> ev_small e.
Proof. destruct e; reflexivity. Qed.
Lemma map_ref_fromvar f e : is_fromvar (map_ref f e) = is_fromvar e.
Proof. destruct e; reflexivity. Qed.
Lemma map_ref_raw f e : is_raw (map_ref f e) = is_raw e.
Proof. destruct e; reflexivity. Qed.
Lemma map_ref_len f e : dataLength (map_ref f e) = dataLength e.
Proof. destruct e; reflexivity. Qed.
Lemma map_ref_has f e : has_ref (map_ref f e) = has_ref e.
Proof. destruct e; reflexivity. Qed.
Lemma map_ref_end f e : is_end (map_ref f e) = is_end e.
Proof. destruct e; reflexivity. Qed.
Lemma map_ref_ref f e d : ev_ref e = Some d -> ev_ref (map_ref f e) = f (Some d).
Proof. destruct e; cbn; intros H; try discriminate H; rewrite H; reflexivity. Qed.

Lemma save_ref e tab tab' : (has_ref e = true -> pos_of tab (ev_ref e) = pos_of tab' (ev_ref e)) ->
  ev_save e tab = ev_save e tab'.
Proof.
  destruct e; cbn [has_ref ev_ref ev_save]; intros H; try reflexivity; rewrite !pos_of_get, (H eq_refl); reflexivity.
Qed.
Lemma save_map_ref e pos tab : (forall d o, ev_ref e = Some d -> pos_of pos (Some d) = Some o -> pos_of tab (Some o) = Some o) ->
  forall b, ev_save e pos = Ok b -> ev_save (map_ref (pos_of pos) e) tab = Ok b.
Proof.
  intros H b. destruct e as [| | |n q|q|q| | | | | | | | ]; cbn [map_ref ev_save ev_ref] in *; auto;
    rewrite !pos_of_get; try (destruct (int_bytes 1 n) as [nb|]; [cbn [bind]|discriminate]);
    (destruct (pos_of pos q) as [o|] eqn:E; [|cbn [bind]; discriminate]);
    (destruct q as [d|]; [|discriminate E]); rewrite (H d o eq_refl E); auto.
Qed.

Lemma seq_placed evs notable data os : seq_ok evs -> saveSequenceEvents evs notable = Ok (data, os) ->
  exists pos P, placed pos 0 evs P /\ GP data P
    /\ Forall2 (fun i o => pos_of pos (Some i) = Some o) notable os
    /\ (forall o, In o os -> In o (offs P)).
Proof.
  intros [N F] S. pose proof (save_inv evs notable data os N) as V.
  destruct V as (bs & -> & FB & FN).
  { eapply Forall_impl; [|exact F]. intros p (A & _ & B & _). split; assumption. }
  { exact S. }
  set (pos := table (items_from 0 evs (map zlen bs))) in *.
  assert (FS : map fst pos = map fst evs).
  { unfold pos. rewrite table_fst. apply items_fst. rewrite map_length. clear - FB. clearbody pos. induction FB; cbn; congruence. }
  assert (FV : Forall2 (fun p b => ev_save (snd p) pos = Ok b) evs bs).
  { clear - FB. clearbody pos. induction FB as [|p b l' bs' [_ H] F IH]; constructor; assumption. }
  destruct (placed_of pos evs bs FV 0) as (P & P1 & P2 & P3 & P4).
  { intros i o H. apply pos_of_in; [rewrite FS; exact N|exact H]. }
  assert (IO : forall i o, pos_of pos (Some i) = Some o -> In o (offs P)).
  { intros i o H. pose proof (pos_of_some _ _ _ H) as HI.
    assert (In i (map fst evs)) as HI' by (rewrite <- FS; change i with (fst (i, o)); apply in_map; exact HI).
    apply in_map_iff in HI' as ([j e] & Ej & HI'). cbn in Ej. subst j.
    assert (HM : In (Some o) (map Some (offs P))).
    { rewrite <- P4. rewrite <- H. change (Some i) with (Some (fst (i, e))). apply (in_map (fun p => pos_of pos (Some (fst p)))). exact HI'. }
    apply in_map_iff in HM as (o' & Eo & HM). injection Eo as ->. exact HM. }
  exists pos, P. split; [exact P1|]. split; [|split; [exact FN|]].
  - constructor; [symmetry; exact P2|exact P3|].
    intros o e b H. destruct (placed_in _ _ _ _ _ _ _ P1 H) as (i & e0 & I & PO & -> & SV).
    assert (FI := proj1 (Forall_forall _ _) F _ I). cbn [snd] in FI. destruct FI as (A1 & A2 & A3 & A4 & A5).
    rewrite map_ref_fits, map_ref_small, map_ref_fromvar, map_ref_raw, map_ref_len, map_ref_has.
    split; [exact A1|]. split; [exact A2|]. split; [exact A3|]. split; [exact A4|].
    split; [apply (ev_save_length _ _ _ A1 A3 SV)|]. split.
    + apply save_map_ref; [|exact SV]. intros d o' _ HD. apply ident_get. eapply IO. exact HD.
    + intros HR. destruct (A5 HR) as (d & RD & HD). rewrite <- FS in HD. apply pos_of_ex in HD as (o' & HD).
      exists o'. split; [rewrite (map_ref_ref _ _ _ RD); exact HD|eapply IO; exact HD].
  - intros o H. clear - IO FN H. induction FN as [|i o' ns os' HP FN IH]; [destruct H|].
    destruct H as [<-|H]; [eapply IO; exact HP|apply IH; exact H].
Qed.

Lemma length_body data P : GP data P -> (length P <= length data)%nat.
Proof.
  intros G. rewrite (g_data _ _ G).
  assert (H : forall x, In x P -> 1 <= zlen (snd x)).
  { intros [[o e] b] H. apply (at_len _ _ G _ _ _ H). }
  clear G. induction P as [|[[o e] b] P IH]; [cbn; lia|]. rewrite body_cons, app_length. cbn [length].
  specialize (IH (fun x Hx => H x (or_intror Hx))). pose proof (H _ (or_introl eq_refl)) as L. cbn [snd] in L.
  unfold zlen in L. lia.
Qed.

Lemma count_init P : (count P {| psEvents := []; psFates := [] |} <= length P)%nat.
Proof. unfold count. rewrite <- (map_length (fun x : pev => fst (fst x)) P). fold (offs P).
  induction (offs P) as [|o l IH]; cbn [filter length]; [lia|]. destruct (fresh_b _ o); cbn [length]; lia. Qed.

Lemma read_ok depth data P os : GP data P -> P <> [] -> (forall o, In o os -> In o (offs P)) ->
  match readSequenceEvents depth data os with
  | Ok (L, ns) => exists vis, collapsed vis P L
      /\ (forall o, reachable (match os with [] => [0] | _ => os end) P o -> vis o)
      /\ ns = os /\ saveSequenceEvents L ns = Ok (data, os)
  | Err e => (e = RecursionError /\ (depth <= length P)%nat) \/ (e = EOFError /\ open_end data P)
             \/ (e = AssertionError /\ has_ret P)
  end.
Proof.
  intros G NE HO. unfold readSequenceEvents. set (starts := match os with [] => [0] | _ => os end).
  assert (SB : forall o, In o starts -> In o (offs P)).
  { intros o H. unfold starts in H. destruct os; [|apply HO, H]. destruct H as [<-|[]].
    destruct P as [|[[o e] b] P]; [congruence|]. pose proof (g_chain _ _ G) as C. destruct C as [-> _]. left. reflexivity. }
  assert (I0 : INV P starts [] [] (fun s => In s starts) {| psEvents := []; psFates := [] |}).
  { constructor; unfold dom; cbn [psEvents psFates].
    - intros o e H. discriminate H.
    - tauto.
    - intros o f H. discriminate H.
    - intros o s H. exfalso. apply H. reflexivity.
    - intros o f _ H. discriminate H. }
  pose proof (parse_starts_ok data P starts G SB depth starts _ (fun o H => H) I0) as S.
  unfold parse_starts. destruct (foldM _ _ starts) as [st|e]; cbn [bind].
  - destruct S as (IV & _ & D).
    destruct (walk_ok data P starts G st IV (length P) P [] (S (length data))) as (L & W & C);
      [lia|reflexivity|pose proof (length_body _ _ G); lia|].
    change (zlen (body [])) with 0 in W. rewrite W. cbn [bind].
    assert (DN : forall o, In o os -> dom st o).
    { intros o H. apply D. unfold starts. destruct os; [destruct H|exact H]. }
    assert (M : mapM (fun off => _ <- ev_at st off ;; Ok off) os = Ok os).
    { clear - DN. induction os as [|o os IH]; [reflexivity|]. cbn [mapM].
      unfold ev_at at 1. pose proof (DN o (or_introl eq_refl)) as H. unfold dom in H.
      destruct (lookup o (psEvents st)); [|congruence]. cbn [bind].
      rewrite IH by (intros x Hx; apply DN; right; exact Hx). reflexivity. }
    rewrite M. cbn [bind]. exists (dom st). split; [exact C|].
    split; [|split; [reflexivity|]].
    + induction 1 as [o H|o o' R IH F]; [apply D, H|]. destruct (i_succ _ _ _ _ _ _ IV _ _ IH F) as [H|[]]. exact H.
    + destruct (collapsed_save data P starts G st IV P L C []) as (bs & B1 & B2 & B3 & B4 & B5 & B6); [reflexivity|].
      change (zlen (body [])) with 0 in B4.
      assert (ND : NoDup (map fst L)).
      { apply (collapsed_nodup data P G st P L 0 C); [auto|exact (g_chain _ _ G)]. }
      assert (TI : forall d, In d (map fst L) -> pos_of (table (items_from 0 L (map zlen bs))) (Some d) = Some d).
      { intros d Hd. rewrite B4. apply pos_of_in.
        - rewrite map_map. exact ND.
        - apply in_map_iff in Hd as (p & <- & Hp). apply in_map_iff. exists p. split; [reflexivity|exact Hp]. }
      assert (DI : forall d, dom st d -> In d (map fst L)).
      { intros d Hd. apply B6; [|exact Hd]. apply (dom_in P starts st IV). exact Hd. }
      destruct (save_ok L bs os ND) as (os' & SV & FN).
      * specialize (B3 (table (items_from 0 L (map zlen bs))) (fun d Hd => TI d (DI d Hd))).
        clear - B1 B3. revert B1 B3. generalize (table (items_from 0 L (map zlen bs))). intros t B1 B3.
        induction B1 as [|p b l bs H B1 IH]; [constructor|]. inversion_clear B3. constructor; [split; assumption|apply IH; assumption].
      * apply Forall_forall. intros o H. apply DI, DN, H.
      * rewrite SV, B2, (g_data _ _ G). f_equal. f_equal.
        assert (E : Forall2 eq os os').
        { clear SV M B1 B2 B3 B4 B5 B6 W. revert DN. clear D HO SB I0. clear starts IV.
          induction FN as [|i o ns os' H FN IH]; intros DN; constructor.
          - rewrite (TI i (DI i (DN i (or_introl eq_refl)))) in H. congruence.
          - apply IH. intros x Hx. apply DN. right. exact Hx. }
        clear - E. induction E; [reflexivity|congruence].
  - destruct S as [[-> K]|[[-> K]|[-> K]]]; [left|right; left|right; right]; (split; [reflexivity|]); try exact K.
    pose proof (count_init P). lia.
Qed.

Lemma collapsed_all vis P L : collapsed vis P L -> (forall o, In o (offs P) -> vis o) -> L = map fst P.
Proof.
  induction 1 as [|o e b r r' V C IH|o e b run r r' NV HV C IH]; intros H; [reflexivity| |].
  - cbn [map fst]. f_equal. apply IH. intros x Hx. apply H. right. exact Hx.
  - exfalso. apply (NV _ (or_introl eq_refl)). apply H. left. reflexivity.
Qed.

Lemma open_last pos data evs P : placed pos 0 evs P -> GP data P -> open_end data P ->
  exists p, last (map Some evs) None = Some p /\ is_end (snd p) = false.
Proof.
  intros PL G (o & e & b & I & E & L).
  destruct (chain_split P o e b (g_chain _ _ G) I) as (P1 & P2 & EP & LO & C).
  assert (P2 = []) as ->.
  { destruct P2 as [|[[o' e'] b'] P2]; [reflexivity|exfalso].
    assert (I' : In (o', e', b') P) by (rewrite EP; apply in_or_app; right; right; left; reflexivity).
    destruct C as [-> _]. pose proof (at_range _ _ G _ _ _ I'). pose proof (at_len _ _ G _ _ _ I'). lia. }
  clear - PL EP E. revert P1 EP. generalize 0 PL. intros off PL'. clear PL.
  induction PL' as [|off i e0 b0 r r' PO SV PL IH]; intros P1 EP; [destruct P1; discriminate|].
  destruct P1 as [|x P1].
  - injection EP as E1 E2 E3 E4. subst r'. inversion PL; subst. exists (i, e0). split; [reflexivity|].
    cbn [snd]. rewrite map_ref_end in E. exact E.
  - injection EP as E1 E2. destruct (IH P1 E2) as (p & L & Q). exists p. split; [|exact Q].
    cbn [map]. destruct r as [|y r]; [discriminate L|]. exact L.
Qed.

Lemma seq_read depth evs notable data os : seq_ok evs -> evs <> [] ->
  saveSequenceEvents evs notable = Ok (data, os) ->
  exists pos P, placed pos 0 evs P /\ data = concat (map snd P)
    /\ Forall2 (fun i o => pos_of pos (Some i) = Some o) notable os
    /\ match readSequenceEvents depth data os with
       | Ok (evs', notable') => exists vis, collapsed vis P evs'
           /\ (forall o, reachable (match os with [] => [0] | _ => os end) P o -> vis o)
           /\ notable' = os /\ saveSequenceEvents evs' notable' = Ok (data, os)
       | Err e => (e = RecursionError /\ (depth <= length evs)%nat)
           \/ (e = EOFError /\ exists p, last (map Some evs) None = Some p /\ is_end (snd p) = false)
           \/ (e = AssertionError /\ exists i, In (i, Bare 0xFD) evs)
       end.
Proof.
  intros Q NE S. destruct (seq_placed evs notable data os Q S) as (pos & P & PL & G & FN & HO).
  exists pos, P. split; [exact PL|]. split; [exact (g_data _ _ G)|]. split; [exact FN|].
  assert (NP : P <> []) by (intros ->; inversion PL; congruence).
  pose proof (read_ok depth data P os G NP HO) as R.
  destruct (readSequenceEvents depth data os) as [[L ns]|e]; [exact R|].
  destruct R as [[-> K]|[[-> K]|[-> K]]]; [left|right; left|right; right]; (split; [reflexivity|]).
  - rewrite <- (placed_length _ _ _ _ PL). exact K.
  - exact (open_last pos data evs P PL G K).
  - destruct K as (o & b & I). destruct (placed_in _ _ _ _ _ _ _ PL I) as (i & e0 & I0 & _ & E & _).
    exists i. destruct e0; try discriminate E. injection E as <-. exact I0.
Qed.

Lemma seq_read_all depth evs notable data os : seq_ok evs -> evs <> [] ->
  saveSequenceEvents evs notable = Ok (data, os) ->
  exists pos P, placed pos 0 evs P /\ data = concat (map snd P)
    /\ Forall2 (fun i o => pos_of pos (Some i) = Some o) notable os
    /\ ((forall o, In o (map (fun x => fst (fst x)) P) ->
           reachable (match os with [] => [0] | _ => os end) P o) ->
        forall evs' notable', readSequenceEvents depth data os = Ok (evs', notable') ->
          evs' = map fst P /\ notable' = os).
Proof.
  intros Q NE S. destruct (seq_read depth evs notable data os Q NE S) as (pos & P & PL & D & FN & R).
  exists pos, P. split; [exact PL|]. split; [exact D|]. split; [exact FN|]. intros A L ns E. rewrite E in R.
  destruct R as (vis & C & V & -> & _). split; [|reflexivity]. apply (collapsed_all vis P L C).
  intros o H. apply V, A, H.
Qed.

Lemma vl_write_min x b n : vl_write x = Ok b -> 1 <= n -> (zlen b <= n <-> x < 2 ^ (7 * n)).
Proof.
  intros W N. assert (X : 0 <= x).
  { unfold vl_write in W. destruct (Z.ltb_spec x 0); [discriminate|lia]. }
  pose proof (vl_write_length x b W) as L. rewrite vl_length_eq in L by exact X.
  assert (E : zlen b = Z.max 1 ((bit_length x + 6) / 7)) by congruence. rewrite E. clear L W E.
  rewrite <- bit_length_spec by lia. pose proof (bit_length_nonneg x).
  split; intros K.
  - pose proof (Z.mul_succ_div_gt (bit_length x + 6) 7 ltac:(lia)). lia.
  - assert ((bit_length x + 6) / 7 <= (7 * n + 6) / 7) by (apply Z.div_le_mono; lia).
    replace ((7 * n + 6) / 7) with n in *; [lia|]. rewrite Z.mul_comm, Z.div_add_l by lia. change (6 / 7) with 0. lia.
Qed.

Lemma fromvar_length s v u e2o b : ev_fits (FromVar s v u) -> ev_save (FromVar s v u) e2o = Ok b ->
  dataLength (FromVar s v u) = Ok (zlen b - if (0xB0 <=? s) && (s <=? 0xBD) then 2 else 1).
Proof.
  intros F. apply fits_b in F. revert F. change ((0xB0 <=? s) && (s <=? 0xBD)) with (is_arith s). cbn [ev_fitsb ev_save dataLength]. intros [S F] H. destruct (is_arith s) eqn:A; cbn [negb] in H.
  - destruct u as [u|]; [|destruct F as [F _]; congruence].
    destruct (pack_u 1 s) as [x|] eqn:E1; cbn [bind] in H; [|discriminate].
    destruct (pack_s 1 u) as [y|] eqn:E2; cbn [bind] in H; [|discriminate].
    destruct (pack_s 1 v) as [z|] eqn:E3; cbn [bind] in H; [|discriminate].
    apply pack_u_inv in E1 as [_ ->]. apply pack_s_inv in E2 as [_ ->]. apply pack_s_inv in E3 as [_ ->].
    apply ok_inj in H. subst b. reflexivity.
  - destruct u as [u|]; [destruct F as [F _]; congruence|].
    destruct (pack_u 1 s) as [x|] eqn:E1; cbn [bind] in H; [|discriminate].
    destruct (pack_s 2 v) as [y|] eqn:E2; cbn [bind] in H; [|discriminate].
    apply pack_u_inv in E1 as [_ ->]. apply pack_s_inv in E2 as [_ ->].
    apply ok_inj in H. subst b. reflexivity.
Qed.

Lemma save_concat evs notable data os :
  NoDup (map fst evs) -> Forall (fun p => ev_fits (snd p) /\ is_fromvar (snd p) = false) evs ->
  saveSequenceEvents evs notable = Ok (data, os) ->
  exists e2o bs, data = concat bs /\ Forall2 (fun p b => ev_save (snd p) e2o = Ok b) evs bs.
Proof.
  intros N F S. destruct (save_inv evs notable data os N F S) as (bs & D & B & _).
  exists (table (items_from 0 evs (map zlen bs))), bs. split; [exact D|]. revert B. generalize (table (items_from 0 evs (map zlen bs))). intros t B.
  clear - B. induction B as [|p b l bs [_ H] B IH]; constructor; assumption.
Qed.
Lemma vl_written x : 0 <= x -> exists b, vl_write x = Ok b /\ vl_length x = Ok (zlen b).
Proof. intros H. destruct (vl_write_ok x H) as (b & E). exists b. split; [exact E|exact (vl_write_length x b E)]. Qed.
Lemma ev_savable e e2o : ev_fits e ->
  (has_ref e = true -> exists o, pos_of e2o (ev_ref e) = Some o /\ 0 <= o < 2 ^ 24) ->
  exists b, ev_save e e2o = Ok b.
Proof.
  intros F H. apply ev_save_ok; [exact F|]. intros R. destruct (H R) as (o & E & L). exists o.
  rewrite pos_of_get, E. split; [reflexivity|exact L].
Qed.

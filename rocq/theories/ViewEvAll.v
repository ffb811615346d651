(** What arbitrary sequence data are read as, the control flow, proofs for C115. *)
From Verif Require Import PyBase PyLemmas PyTac SeqModel SeqSpec SeqLemmas SeqParse SeqTotal SeqGood RomSpec ViewSpec ViewSdatSpec ViewEvSpec ViewLemmas ViewFiles ViewSdat ViewEv.

Lemma digits_ok v : 0 <= v < 2 ^ 35 -> vl_length v = Ok (digits v).
Proof.
  intros V. destruct (SeqRead.vl_written v ltac:(lia)) as (b & W & L). rewrite L. f_equal. assert (M : forall n, 1 <= n -> (zlen b <= n <-> v < 2 ^ (7 * n))) by (intros n N; apply SeqRead.vl_write_min; assumption).
  pose proof (M 1 ltac:(lia)) as M1. pose proof (M 2 ltac:(lia)) as M2. pose proof (M 3 ltac:(lia)) as M3. pose proof (M 4 ltac:(lia)) as M4. pose proof (M 5 ltac:(lia)) as M5.
  assert (1 <= zlen b) by (unfold vl_length in L; destruct (v <? 0); [discriminate|]; injection L as <-; lia).
  cbn in M1, M2, M3, M4, M5. unfold digits. change (128 ^ 2) with 16384. change (128 ^ 3) with 2097152. change (128 ^ 4) with 268435456.
  destruct (Z.ltb_spec v 128); [lia|]. destruct (Z.ltb_spec v 16384); [lia|]. destruct (Z.ltb_spec v 2097152); [lia|]. destruct (Z.ltb_spec v 268435456); lia.
Qed.
Lemma takes_ok d p e : is_bytes d -> says d p e -> dataLength e = Ok (takes e) /\ 1 <= takes e.
Proof.
  intros B (P & S). assert (NR : forall q v, 0 <= q -> number d q v -> 0 <= v < 2 ^ 35 /\ vl_length v = Ok (digits v)) by (intros q v Q N; apply number_iff in N; [|exact B|exact Q]; apply vl_read_range in N; split; [exact N|apply digits_ok; exact N]).
  assert (DG : forall v, 1 <= digits v) by (intros v; unfold digits; repeat (destruct (_ <? _)); lia).
  destruct e as [t v f l|l|b i|n r|r|r|s args lo hi|s v u|t v w|t v|t v|t|ts|b]; cbn [dataLength takes]; try (split; [reflexivity|lia]).
  - destruct S as (_ & _ & _ & _ & _ & N). apply NR in N as (_ & N); [|lia]. rewrite N. cbn [bind]. specialize (DG l). split; [reflexivity|lia].
  - destruct S as (_ & N). apply NR in N as (_ & N); [|lia]. rewrite N. cbn [bind]. specialize (DG l). split; [reflexivity|lia].
  - destruct S as (_ & I & N). apply NR in N as (_ & N); [|lia]. rewrite Z.lor_comm, lor_add by (change (2 ^ 7) with 128; lia). change (2 ^ 7) with 128. rewrite Z.add_comm. rewrite N. cbn [bind]. specialize (DG (128 * b + i)). split; [reflexivity|lia].
  - destruct S as (_ & S2 & S3 & _ & S5 & _). pose proof (zlen_nonneg args). rewrite (proj2 (sub_args_iff s (6 + zlen args) ltac:(rewrite S2; apply byte_range; [exact B|lia]))) by (rewrite S3; f_equal; lia). split; [reflexivity|lia].
  - destruct u as [u|].
    + destruct S as (_ & S2 & S3 & _). rewrite (proj2 (is_arith_iff s)) by exact S3. split; [reflexivity|lia].
    + destruct S as (_ & S2 & S3 & _). replace (is_arith s) with false by (symmetry; apply not_true_iff_false; rewrite is_arith_iff; exact S3). split; [reflexivity|lia].
Qed.
Lemma says_fun d p e e' : is_bytes d -> says d p e -> says d p e' -> e = e'.
Proof.
  intros B S S'. assert (P : 0 <= p < zlen d) by apply S. destruct (has_ref e) eqn:R, (has_ref e') eqn:R'.
  - destruct S as (_ & S), S' as (_ & S'). destruct e; try discriminate R; destruct e'; try discriminate R'; destruct S as (S1 & S), S' as (S1' & S'); try lia; intuition congruence.
  - apply (fun x => proj2 (event_iff d p e' B P) (conj S' x)) in R' as F. destruct S as (_ & S). destruct e; try discriminate R; destruct S as (S1 & S); rewrite S1 in F; discriminate F.
  - apply (fun x => proj2 (event_iff d p e B P) (conj S x)) in R as F. destruct S' as (_ & S'). destruct e'; try discriminate R'; destruct S' as (S1 & S'); rewrite S1 in F; discriminate F.
  - pose proof (proj2 (event_iff d p e B P) (conj S R)) as F. pose proof (proj2 (event_iff d p e' B P) (conj S' R')) as F'. congruence.
Qed.
Lemma reaches_trans d a b c : reaches d a b -> reaches d b c -> reaches d a c.
Proof.
  intros H1 H2. revert H1. induction H2 as [b|b p e H IH S F|b p e q H IH S F|b p r x H IH S F G|b p q x H IH S H2 _ G]; intros H1.
  - exact H1.
  - exact (next _ _ _ _ (IH H1) S F).
  - exact (there _ _ _ _ _ (IH H1) S F).
  - exact (skipped _ _ _ _ _ (IH H1) S F G).
  - exact (returned _ _ _ _ _ (IH H1) S H2 G).
Qed.

Definition flows_on (e : ev) : Prop := is_control e = false \/ exists n r, e = BeginTrack n r.
Section All.
  Variables (d : bytes) (starts : list Z).
  Hypothesis B : is_bytes d.
  Definition ev_in (st : pstate) (o : Z) (e : ev) : Prop := lookup o (psEvents st) = Some e.
  Definition is_in (st : pstate) (o : Z) : Prop := exists e, ev_in st o e.
  Definition returning (o : Z) : Prop := exists x, reaches d o x /\ says d x (Bare 0xFD).
  Definition started (o : Z) : Prop := exists s, In s starts /\ reaches d s o.
  Record inv (pend nx : Z -> Prop) (st : pstate) : Prop := {
    i_says : forall o e, ev_in st o e -> says d o e \/ (pend o /\ has_ref e = true /\ exists q, says d o (map_ref (fun _ => Some q) e));
    i_next : forall o e, ev_in st o e -> flows_on e -> ~ nx o -> is_in st (o + takes e);
    i_ref : forall o e q, ev_in st o e -> ev_ref e = Some q -> is_in st q;
    i_reach : forall o, is_in st o -> started o;
    i_fate : forall o f, lookup o (psFates st) = Some f -> 0 <= f <= 3 /\ (f = RETURN -> returning o) /\ is_in st o }.
  Definition mono (st st' : pstate) : Prop := forall o, is_in st o -> is_in st' o.
  Definition goes (o off : Z) : Prop := exists e, says d o e /\ flows_on e /\ o + takes e = off.
  Lemma inv_weak (p p' n n' : Z -> Prop) st : (forall o, p o -> p' o) -> (forall o, n o -> n' o) -> inv p n st -> inv p' n' st.
  Proof. intros P N [A1 A2 A3 A4 A5]. constructor; try assumption; [intros o e H; destruct (A1 o e H) as [|(X & Y)]; auto|]. intros o e H F NN. apply (A2 o e H F). auto. Qed.
  Lemma ev_in_set st o e x y : ev_in (set_event o e st) x y <-> (x = o /\ y = e) \/ (x <> o /\ ev_in st x y).
  Proof. unfold ev_in, set_event. cbn [psEvents]. rewrite lookup_cons. destruct (Z.eqb_spec o x) as [<-|NE]; split; intros H; [left; split; congruence|destruct H as [(_ & ->)|(N & _)]; [reflexivity|congruence]|right; split; [congruence|exact H]|destruct H as [(N & _)|(_ & H)]; [congruence|exact H]]. Qed.
  Lemma is_in_set st o e x : is_in (set_event o e st) x <-> x = o \/ is_in st x.
  Proof. split; [intros (y & H); apply ev_in_set in H as [(-> & _)|(_ & H)]; [left; reflexivity|right; exists y; exact H]|]. intros [->|(y & H)]; [exists e; apply ev_in_set; left; split; reflexivity|]. destruct (Z.eq_dec x o) as [E|E]; [exists e; apply ev_in_set; left; split; [exact E|reflexivity]|exists y; apply ev_in_set; right; split; assumption]. Qed.
  (** an event is put at [o] *)
  Lemma inv_event (p n n' : Z -> Prop) st o e : inv (fun x => p x \/ x = o) n st -> (forall x, n x -> n' x \/ goes x o \/ x = o) -> (flows_on e -> ~ n' o -> is_in st (o + takes e)) ->
    (says d o e \/ (p o /\ has_ref e = true /\ exists q, says d o (map_ref (fun _ => Some q) e))) -> (forall q, ev_ref e = Some q -> is_in st q) -> started o -> inv p n' (set_event o e st).
  Proof.
    intros [A1 A2 A3 A4 A5] N F S R ST. constructor.
    - intros x y H. apply ev_in_set in H as [(-> & ->)|(NE & H)]; [exact S|]. destruct (A1 x y H) as [|([X|X] & Y)]; [auto|auto|congruence].
    - intros x y H FL NN. apply is_in_set. apply ev_in_set in H as [(-> & ->)|(NE & H)]; [right; apply F; assumption|]. destruct (Z.eq_dec (x + takes y) o) as [E|E]; [left; exact E|right]. apply (A2 x y H FL). intros NX. destruct (N x NX) as [G|[(z & Z1 & Z2 & Z3)|G]]; [exact (NN G)| |congruence].
      assert (TK : takes z = takes y); [|congruence]. destruct (A1 x y H) as [SY|(_ & HR & q & SY)].
      + f_equal. eapply says_fun; eassumption.
      + pose proof (says_fun d x _ _ B Z1 SY) as ->. destruct y; reflexivity.
    - intros x y q H E. apply is_in_set. apply ev_in_set in H as [(-> & ->)|(NE & H)]; right; [apply R; exact E|exact (A3 x y q H E)].
    - intros x H. apply is_in_set in H as [->|H]; [exact ST|exact (A4 x H)].
    - intros x f H. destruct (A5 x f H) as (F1 & F2 & F3). repeat split; try lia; [exact F2|apply is_in_set; right; exact F3].
  Qed.
  Lemma inv_fate p n st o f : inv p n st -> 0 <= f <= 3 -> (f = RETURN -> returning o) -> is_in st o -> inv p n (set_fate o f st).
  Proof.
    intros [A1 A2 A3 A4 A5] F R I. constructor; [exact A1|exact A2|exact A3|exact A4|]. intros x g H. cbn [psFates set_fate] in H. rewrite lookup_cons in H. destruct (Z.eqb_spec o x) as [<-|NE]; [injection H as <-; repeat split; try lia; assumption|exact (A5 x g H)].
  Qed.
  Lemma inv_fates p n f mine : forall st, inv p n st -> 0 <= f <= 3 -> (forall o, In o mine -> (f = RETURN -> returning o) /\ is_in st o) -> inv p n (set_fates mine f st).
  Proof.
    unfold set_fates. induction mine as [|o l IH]; intros st I F M; cbn [fold_left]; [exact I|]. apply IH; [|exact F|intros x X; apply M; right; exact X]. apply inv_fate; [exact I|exact F| |]; apply M; left; reflexivity.
  Qed.
  Definition rec_ok (rec : pstate -> Z -> res (pstate * Z)) : Prop := forall p n st o st' f, inv p n st -> 0 <= o -> started o -> rec st o = Ok (st', f) ->
    inv p n st' /\ mono st st' /\ is_in st' o /\ 1 <= f <= 3 /\ (f = RETURN -> returning o).
  Lemma dest_ok a : 0 <= a -> slice d a (a + 3) = part d a 3 /\ 0 <= unle (part d a 3).
  Proof. intros A. split; [rewrite slice_part by lia; f_equal; lia|]. apply unle_range. apply is_bytes_part. exact B. Qed.
  Lemma if_before st p n off : inv p n st -> 0 <= off -> part_of_if st off = true -> exists x, x < off /\ says d x (Bare 0xA2).
  Proof.
    intros I O. unfold part_of_if. assert (G : forall k, Z.of_nat k <= off -> match prev_event (psEvents st) k with Some e => exists x, x < off /\ ev_in st x e | None => True end).
    { induction k as [|k IH]; intros K; cbn [prev_event]; [exact Logic.I|]. destruct (lookup (Z.of_nat k) (psEvents st)) as [e|] eqn:L; [exists (Z.of_nat k); split; [lia|exact L]|apply IH; lia]. }
    specialize (G (Z.to_nat off) ltac:(lia)). destruct (prev_event _ _) as [e|]; [|discriminate]. destruct G as (x & X & E). intros T. exists x. split; [exact X|]. destruct (i_says _ _ _ I x e E) as [S|(_ & R & _)].
    - destruct e; cbn [ev_type] in T; try discriminate T; apply Z.eqb_eq in T; subst; destruct S as (P & S); cbn beta iota in S; try (exfalso; destruct S; lia). split; [exact P|exact S].
    - destruct e; try discriminate R; cbn [ev_type] in T; discriminate T.
  Qed.
  Lemma mono_refl st : mono st st.
  Proof. intros o H. exact H. Qed.
  Lemma mono_trans a b c : mono a b -> mono b c -> mono a c.
  Proof. intros H1 H2 o H. apply H2, H1, H. Qed.
  Lemma mono_event st o e : mono st (set_event o e st).
  Proof. intros x H. apply is_in_set. right. exact H. Qed.
  Lemma is_in_fates st mine f o : is_in (set_fates mine f st) o <-> is_in st o.
  Proof. unfold is_in, ev_in. rewrite set_fates_events. reflexivity. Qed.
  Lemma mono_fates st mine f : mono st (set_fates mine f st).
  Proof. intros x H. apply is_in_fates. exact H. Qed.
  Lemma ev_at_in st o e : ev_at st o = Ok e -> is_in st o.
  Proof. unfold ev_at, is_in, ev_in. destruct (lookup o (psEvents st)) as [x|]; [intros _; exists x; reflexivity|discriminate]. Qed.
  Definition step_post (p n : Z -> Prop) (st : pstate) (off : Z) (st' : pstate) (nxt : Z + Z) : Prop :=
    mono st st' /\ is_in st' off /\
    match nxt with
    | inl f => inv p n st' /\ 1 <= f <= 3 /\ (f = RETURN -> returning off)
    | inr off' => inv p (fun x => n x \/ goes x off') st' /\ reaches d off off' /\ off < off'
    end.
  Lemma started_on a b : started a -> reaches d a b -> started b.
  Proof. intros (s & S & R) H. exists s. split; [exact S|]. eapply reaches_trans; eassumption. Qed.
  Lemma returning_on a b : reaches d a b -> returning b -> returning a.
  Proof. intros H (x & R & S). exists x. split; [|exact S]. eapply reaches_trans; eassumption. Qed.
  Lemma step_ok rec st off mine p n st' nxt : rec_ok rec -> inv p (fun x => n x \/ goes x off) st -> 0 <= off -> started off -> off < zlen d ->
    (forall o, In o mine -> reaches d o off /\ is_in st o) -> parse_step rec d st off mine = Ok (st', nxt) -> step_post p n st off st' nxt.
  Proof.
    intros REC I O ST L M H. unfold parse_step in H. rewrite get_byte in H by lia. cbn [bind] in H. pose proof (byte_range d off B ltac:(lia)) as T.
    assert (IW : inv (fun x => (p x \/ x = off) \/ x = off) (fun x => n x \/ goes x off) st) by (eapply inv_weak; [| |exact I]; auto).
    (* an event with a destination *)
    assert (REFS : forall (mk : ref -> ev) q (fl : bool) st1 f, has_ref (mk None) = true -> map_ref (fun _ => Some q) (mk None) = mk (Some q) -> ev_ref (mk None) = None -> ev_ref (mk (Some q)) = Some q ->
      (forall r, flows_on (mk r) -> fl = true) -> says d off (mk (Some q)) -> 0 <= q -> rec (set_fate off INPROGRESS (set_event off (mk None) st)) q = Ok (st1, f) ->
      inv p (fun x => n x \/ (fl = true /\ x = off)) (set_event off (mk (Some q)) st1) /\ mono st (set_event off (mk (Some q)) st1) /\ 1 <= f <= 3 /\ (f = RETURN -> returning off) /\ (f = RETURN -> returning q)).
    { intros mk q fl st1 f HR MR ER ES FL S Q R. assert (RQ : reaches d off q) by exact (there _ _ _ _ _ (here _ _) S ES).
      assert (I1 : inv (fun x => p x \/ x = off) (fun x => n x \/ (fl = true /\ x = off)) (set_fate off INPROGRESS (set_event off (mk None) st))).
      { apply inv_fate; [|unfold INPROGRESS; lia|discriminate|apply is_in_set; left; reflexivity].
        apply (inv_event _ (fun x => n x \/ goes x off)); [exact IW|intros x [X|X]; auto|intros X Y; exfalso; apply Y; right; split; [exact (FL _ X)|reflexivity]|right; split; [right; reflexivity|]; split; [exact HR|exists q; rewrite MR; exact S]|intros z Z; rewrite ER in Z; discriminate|exact ST]. }
      destruct (REC _ _ _ _ _ _ I1 Q (started_on _ _ ST RQ) R) as (I2 & MO & IQ & F1 & F2). split; [|split; [|split; [exact F1|split; [intros E; exact (returning_on _ _ RQ (F2 E))|exact F2]]]].
      - apply (inv_event _ (fun x => n x \/ (fl = true /\ x = off))); [exact I2|auto|intros X Y; exfalso; apply Y; right; split; [exact (FL _ X)|reflexivity]|left; exact S|intros z Z; rewrite ES in Z; injection Z as <-; exact IQ|exact ST].
      - eapply mono_trans; [|apply mono_event]. eapply mono_trans; [|exact MO]. intros x X. apply is_in_set. right. exact X. }
    (* the end of a track or of a call *)
    assert (ENDS : forall t f, says d off (Bare t) -> is_control (Bare t) = true -> 1 <= f <= 3 -> (f = RETURN -> t = 0xFD) ->
      step_post p n st off (set_fates mine f (set_fate off f (set_event off (Bare t) st))) (inl f)).
    { intros t f S C F FR. assert (RT : f = RETURN -> returning off) by (intros E; exists off; split; [constructor|rewrite <- (FR E); exact S]). split; [|split; [|split; [|split; [exact F|exact RT]]]].
      - eapply mono_trans; [|apply mono_fates]. intros x X. apply is_in_set. right. exact X.
      - apply is_in_fates. apply is_in_set. left. reflexivity.
      - apply inv_fates; [|lia|].
        + apply inv_fate; [|lia|exact RT|apply is_in_set; left; reflexivity]. apply (inv_event _ (fun x => n x \/ goes x off)); [eapply inv_weak; [| |exact I]; auto|intros x [X|X]; auto|intros [X|(? & ? & X)]; [congruence|discriminate X]|left; exact S|discriminate|exact ST].
        + intros o X. destruct (M o X) as (R & IN). split; [intros E; exact (returning_on _ _ R (RT E))|apply is_in_set; right; exact IN]. }
    destruct (Z.eqb_spec (byte d off) 0x93) as [T1|T1].
    { destruct (get d (off + 1)) as [tn|] eqn:G; [|discriminate]. cbn [bind] in H. apply get_inv in G as (L1 & E1); [|lia]. cbv zeta in H. replace (off + 5) with (off + 2 + 3) in H by lia. destruct (dest_ok (off + 2) ltac:(lia)) as (D1 & D2). rewrite D1 in H. set (q := unle (part d (off + 2) 3)) in *.
      destruct (rec _ _) as [[st1 f]|] eqn:R; [|discriminate]. cbn [bind] in H. destruct (ev_at st1 q) eqn:EA; [|discriminate]. cbn [bind] in H. injection H as <- <-.
      assert (S : says d off (BeginTrack tn (Some q))) by (split; [lia|repeat split; assumption]).
      destruct (REFS (BeginTrack tn) q true st1 f eq_refl eq_refl eq_refl eq_refl ltac:(reflexivity) S D2 R) as (I2 & MO & F1 & F2 & F3).
      assert (GO : reaches d off (off + 5)) by (apply (next d off off (BeginTrack tn (Some q)) (here _ _) S); right; eauto).
      split; [exact MO|]. split; [apply is_in_set; left; reflexivity|]. replace (off + 2 + 3) with (off + 5) by lia. split; [|split; [exact GO|lia]]. eapply inv_weak; [| |exact I2]; [auto|]. intros x [X|(_ & ->)]; [left; exact X|right]. exists (BeginTrack tn (Some q)). split; [exact S|]. split; [right; eauto|reflexivity]. }
    destruct (Z.eqb_spec (byte d off) 0x94) as [T2|T2].
    { cbv zeta in H. replace (slice d (off + 1) (off + 4)) with (part d (off + 1) 3) in H by (symmetry; replace (off + 4) with (off + 1 + 3) by lia; apply dest_ok; lia). destruct (dest_ok (off + 1) ltac:(lia)) as (_ & D2). set (q := unle (part d (off + 1) 3)) in *.
      destruct (rec _ _) as [[st1 f]|] eqn:R; [|discriminate]. cbn [bind] in H. destruct (ev_at st1 q) eqn:EA; [|discriminate]. cbn [bind] in H.
      assert (S : says d off (Jump (Some q))) by (split; [lia|repeat split; assumption]).
      assert (NOFL : forall r, flows_on (Jump r) -> false = true) by (intros r [X|(? & ? & X)]; discriminate X).
      destruct (REFS Jump q false st1 f eq_refl eq_refl eq_refl eq_refl NOFL S D2 R) as (I2 & MO & F1 & F2 & F3).
      assert (I3 : inv p n (set_fates mine f (set_event off (Jump (Some q)) st1))).
      { apply inv_fates; [eapply inv_weak; [| |exact I2]; [auto|intros x [X|(X & _)]; [exact X|discriminate X]]|lia|]. intros o X. destruct (M o X) as (RR & IN). split; [intros E; exact (returning_on _ _ RR (F2 E))|apply MO; exact IN]. }
      assert (MO' : mono st (set_fates mine f (set_event off (Jump (Some q)) st1))) by (eapply mono_trans; [exact MO|apply mono_fates]).
      assert (IO : is_in (set_fates mine f (set_event off (Jump (Some q)) st1)) off) by (apply is_in_fates; apply is_in_set; left; reflexivity).
      destruct (part_of_if _ off) eqn:IF; injection H as <- <-; (split; [exact MO'|]; split; [exact IO|]); [|split; [exact I3|split; [exact F1|exact F2]]].
      destruct (if_before _ _ _ _ I3 O IF) as (x & X & SX). split; [eapply inv_weak; [| |exact I3]; auto|]. split; [exact (skipped _ _ _ _ _ (here _ _) S X SX)|lia]. }
    destruct (Z.eqb_spec (byte d off) 0x95) as [T3|T3].
    { cbv zeta in H. replace (slice d (off + 1) (off + 4)) with (part d (off + 1) 3) in H by (symmetry; replace (off + 4) with (off + 1 + 3) by lia; apply dest_ok; lia). destruct (dest_ok (off + 1) ltac:(lia)) as (_ & D2). set (q := unle (part d (off + 1) 3)) in *.
      destruct (rec _ _) as [[st1 f]|] eqn:R; [|discriminate]. cbn [bind] in H. destruct (ev_at st1 q) eqn:EA; [|discriminate]. cbn [bind] in H.
      assert (S : says d off (Call (Some q))) by (split; [lia|repeat split; assumption]).
      assert (NOFL : forall r, flows_on (Call r) -> false = true) by (intros r [X|(? & ? & X)]; discriminate X).
      destruct (REFS Call q false st1 f eq_refl eq_refl eq_refl eq_refl NOFL S D2 R) as (I2 & MO & F1 & F2 & F3).
      assert (I3 : inv p n (set_event off (Call (Some q)) st1)) by (eapply inv_weak; [| |exact I2]; [auto|intros x [X|(X & _)]; [exact X|discriminate X]]).
      assert (IO : is_in (set_event off (Call (Some q)) st1) off) by (apply is_in_set; left; reflexivity).
      assert (STOP : step_post p n st off (set_fates mine f (set_fate off f (set_event off (Call (Some q)) st1))) (inl f)).
      { split; [eapply mono_trans; [exact MO|]; eapply mono_trans; [|apply mono_fates]; intros x X; exact X|]. split; [apply is_in_fates; exact IO|]. split; [|split; [exact F1|exact F2]]. apply inv_fates; [apply inv_fate; [exact I3|lia|exact F2|exact IO]|lia|]. intros o X. destruct (M o X) as (RR & IN). split; [intros E; exact (returning_on _ _ RR (F2 E))|apply MO; exact IN]. }
      destruct (Z.eqb_spec f EOT) as [FE|FE]; [injection H as <- <-; exact STOP|].
      destruct (Z.eqb_spec f RETURN) as [FR|FR]; [|destruct (Z.eqb_spec f LOOP) as [FL|FL]; [injection H as <- <-; exact STOP|unfold EOT, RETURN, LOOP in *; lia]].
      injection H as <- <-. split; [exact MO|]. split; [exact IO|]. split; [eapply inv_weak; [| |exact I3]; auto|]. destruct (F3 FR) as (x & RX & SX). split; [exact (returned _ _ _ _ _ (here _ _) S RX SX)|lia]. }
    destruct (Z.eqb_spec (byte d off) 0xFD) as [T4|T4].
    { injection H as <- <-. apply ENDS; [split; [lia|split; [exact T4|cbn [In]; lia]]|reflexivity|unfold RETURN; lia|reflexivity]. }
    destruct (Z.eqb_spec (byte d off) 0xFF) as [T5|T5].
    { injection H as <- <-. apply ENDS; [split; [lia|split; [exact T5|cbn [In]; lia]]|reflexivity|unfold EOT; lia|discriminate]. }
    destruct (fromData (byte d off) d off) as [e|] eqn:FD; [|discriminate]. cbn [bind] in H. apply event_iff in FD as (S & HR); [|exact B|lia]. destruct (takes_ok d off e B S) as (TK & T1'). rewrite TK in H. cbn [bind] in H. injection H as <- <-.
    assert (FL : is_control e = false). { unfold is_control. rewrite HR. cbn [orb]. destruct e; try reflexivity. cbn [is_end]. destruct S as (_ & S & _). rewrite <- S. rewrite (proj2 (Z.eqb_neq _ _) T4), (proj2 (Z.eqb_neq _ _) T5). reflexivity. }
    assert (GO : reaches d off (off + takes e)) by (apply (next d off off e (here _ _) S); left; exact FL).
    split; [intros x X; apply is_in_set; right; exact X|]. split; [apply is_in_set; left; reflexivity|]. split; [|split; [exact GO|lia]].
    apply inv_fate; [|unfold INPROGRESS; lia|discriminate|apply is_in_set; left; reflexivity].
    apply (inv_event _ (fun x => n x \/ goes x off)); [eapply inv_weak; [| |exact I]; auto|intros x [X|X]; auto| |left; exact S|intros q Q; destruct e; discriminate|exact ST].
    intros _ NN. exfalso. apply NN. right. exists e. split; [exact S|]. split; [left; exact FL|reflexivity].
  Qed.
  Lemma loop_ok rec : rec_ok rec -> forall fuel st off mine p n st' f, inv p (fun x => n x \/ goes x off) st -> 0 <= off -> started off -> (forall o, In o mine -> reaches d o off /\ is_in st o) ->
    parse_loop rec d fuel st off mine = Ok (st', f) -> inv p n st' /\ mono st st' /\ is_in st' off /\ 1 <= f <= 3 /\ (f = RETURN -> returning off).
  Proof.
    intros REC. induction fuel as [|k IH]; intros st off mine p n st' f I O ST M H; [discriminate|]. cbn [parse_loop] in H. destruct (Z.ltb_spec off (zlen d)) as [L|L]; [|discriminate]. cbn [negb] in H. destruct (lookup off (psFates st)) as [f0|] eqn:LF.
    - cbv zeta in H. injection H as <- <-. destruct (i_fate _ _ _ I off f0 LF) as (F1 & F2 & F3). set (f := if f0 =? INPROGRESS then LOOP else f0).
      assert (F : 1 <= f <= 3 /\ (f = RETURN -> returning off)). { unfold f. destruct (Z.eqb_spec f0 INPROGRESS) as [E|E]; [split; [unfold LOOP; lia|discriminate]|split; [unfold INPROGRESS in E; lia|exact F2]]. }
      destruct F as (FA & FB). split; [|split; [apply mono_fates|split; [apply is_in_fates; exact F3|split; [exact FA|exact FB]]]].
      apply inv_fates; [|lia|intros o X; destruct (M o X) as (R & IN); split; [intros E; exact (returning_on _ _ R (FB E))|exact IN]].
      destruct I as [A1 A2 A3 A4 A5]. constructor; try assumption. intros o e E FL NN. destruct (Z.eq_dec (o + takes e) off) as [EQ|NE]; [rewrite EQ; exact F3|]. apply (A2 o e E FL). intros [X|(z & Z1 & Z2 & Z3)]; [exact (NN X)|]. apply NE. rewrite <- Z3. f_equal. destruct (A1 o e E) as [SY|(_ & HR & q & SY)]; pose proof (says_fun d o _ _ B Z1 SY) as ->; [reflexivity|destruct e; reflexivity].
    - destruct (eof _) as [[st1 [f1|o1]]|] eqn:E; [| |discriminate]; cbn [bind] in H; apply eof_ok in E; destruct (step_ok _ _ _ _ _ _ _ _ REC I O ST L M E) as (MO & IO & P).
      + injection H as <- <-. destruct P as (P1 & P2 & P3). split; [exact P1|]. split; [exact MO|]. split; [exact IO|]. split; [exact P2|exact P3].
      + destruct P as (P1 & P2 & P3). destruct (IH st1 o1 (mine ++ [off]) p n st' f P1 ltac:(lia) (started_on _ _ ST P2)) as (Q1 & Q2 & Q3 & Q4 & Q5); [|exact H|].
        * intros o X. apply in_app_iff in X as [X|[<-|[]]]; [|split; [exact P2|exact IO]]. destruct (M o X) as (R & IN). split; [eapply reaches_trans; eassumption|apply MO; exact IN].
        * split; [exact Q1|]. split; [eapply mono_trans; eassumption|]. split; [apply Q2; exact IO|]. split; [exact Q4|]. intros E'. exact (returning_on _ _ P2 (Q5 E')).
  Qed.
  Lemma at_ok depth : rec_ok (parse_at depth d).
  Proof.
    induction depth as [|k IH]; intros p n st o st' f I O ST H; [discriminate|]. cbn [parse_at] in H. eapply (loop_ok _ IH) in H; [exact H| |exact O|exact ST|intros x []]. eapply inv_weak; [| |exact I]; auto.
  Qed.
  Lemma starts_ok depth : forall l st st', inv (fun _ => False) (fun _ => False) st -> (forall o, In o l -> 0 <= o /\ In o starts) ->
    foldM (fun st start => ' (st, fate) <- parse_at depth d st start ;; _ <- guard ((fate =? EOT) || (fate =? LOOP)) AssertionError ;; Ok st) st l = Ok st' ->
    inv (fun _ => False) (fun _ => False) st' /\ mono st st' /\ (forall o, In o l -> is_in st' o).
  Proof.
    induction l as [|o l IH]; intros st st' I L H; cbn [foldM] in H.
    - injection H as <-. split; [exact I|]. split; [apply mono_refl|intros o []].
    - destruct (parse_at depth d st o) as [[st1 f]|] eqn:E; [|discriminate]. cbn [bind] in H. destruct (guard _ _); [|discriminate]. cbn [bind] in H. destruct (L o (or_introl eq_refl)) as (L1 & L2). destruct (at_ok depth _ _ _ _ _ _ I L1 (ex_intro _ o (conj L2 (here _ _))) E) as (I1 & M1 & IO & _).
      destruct (IH st1 st' I1 ltac:(intros x X; apply L; right; exact X) H) as (I2 & M2 & A2). split; [exact I2|]. split; [eapply mono_trans; eassumption|]. intros x [<-|X]; [apply M2; exact IO|apply A2; exact X].
  Qed.
  Lemma next_event_spec evs fuel : forall j, 0 <= j -> j <= zlen d -> (zlen d - j <= Z.of_nat fuel) -> let r := next_event evs fuel j in
    fuel = Z.to_nat (zlen d - j) -> j <= r <= zlen d /\ (forall k, j <= k < r -> lookup k evs = None) /\ (r < zlen d -> lookup r evs <> None).
  Proof.
    induction fuel as [|k IH]; intros j J1 J2 F r E; subst r; cbn [next_event]; [split; [lia|]; split; [lia|lia]|]. destruct (lookup j evs) as [e|] eqn:LK; [split; [lia|]; split; [lia|congruence]|].
    destruct (IH (j + 1) ltac:(lia) ltac:(lia) ltac:(lia) ltac:(lia)) as (R1 & R2 & R3). split; [lia|]. split; [|exact R3]. intros x X. destruct (Z.eq_dec x j) as [->|N]; [exact LK|apply R2; lia].
  Qed.
  Lemma walk_listed evs : (forall o e, lookup o evs = Some e -> says d o e) -> forall fuel i l, 0 <= i -> walk evs d fuel i = Ok l -> listed d (fun o e => lookup o evs = Some e) i l.
  Proof.
    intros SA. induction fuel as [|k IH]; intros i l I H; [discriminate|]. cbn [walk] in H. destruct (Z.ltb_spec i (zlen d)) as [L|L]; cbn [negb] in H; [|injection H as <-; constructor; exact L]. destruct (lookup i evs) as [e|] eqn:LK.
    - destruct (takes_ok d i e B (SA _ _ LK)) as (TK & T1). rewrite TK in H. cbn [bind] in H. apply bind_ok in H as (r & W & H). injection H as <-. apply l_event; [exact L|exact LK|]. apply IH; [lia|exact W].
    - apply bind_ok in H as (r & W & H). injection H as <-. set (j := next_event evs (Z.to_nat (zlen d - i)) i) in *. destruct (next_event_spec evs (Z.to_nat (zlen d - i)) i I ltac:(lia) ltac:(lia) eq_refl) as (R1 & R2 & R3). fold j in R1, R2, R3.
      assert (IJ : i < j). { destruct (Z.eq_dec i j) as [E|N]; [|lia]. rewrite <- E in R3. exfalso. apply R3; [lia|exact LK]. }
      rewrite slice_part by lia. apply l_raw; [lia|intros x e X; rewrite R2 by lia; discriminate|intros X; destruct (lookup j evs) as [e|] eqn:LJ; [exists e; reflexivity|exfalso; exact (R3 X eq_refl)]|]. apply IH; [lia|exact W].
  Qed.
End All.
Lemma read_view depth d os l ns : is_bytes d -> Forall (fun o => 0 <= o) os -> readSequenceEvents depth d os = Ok (l, ns) ->
  ns = os /\ exists found : Z -> ev -> Prop,
  (forall p e, found p e -> says d p e) /\
  (forall o, In o (match os with [] => [0] | _ => os end) -> exists e, found o e) /\
  (forall p e, found p e -> flows_on e -> exists e', found (p + takes e) e') /\
  (forall p e q, found p e -> ev_ref e = Some q -> exists e', found q e') /\
  (forall p e, found p e -> exists s, In s (match os with [] => [0] | _ => os end) /\ reaches d s p) /\
  listed d found 0 l.
Proof.
  intros B OS H. unfold readSequenceEvents in H. set (starts := match os with [] => [0] | _ => os end) in *. apply bind_ok in H as (st & E1 & H). apply bind_ok in H as (l' & E2 & H). apply bind_ok in H as (ns' & E3 & H). injection H as <- <-.
  unfold parse_starts in E1. apply (starts_ok d starts B depth starts) in E1 as (I & _ & S); [| |].
  - split; [exact (mapM_ev_at _ _ _ E3)|]. exists (ev_in st). assert (SA : forall p e, ev_in st p e -> says d p e) by (intros p e X; destruct (i_says _ _ _ _ _ I p e X) as [|([] & _)]; assumption).
    split; [exact SA|]. split; [exact S|]. split; [intros p e X F; exact (i_next _ _ _ _ _ I p e X F (fun x => x))|]. split; [intros p e q X F; exact (i_ref _ _ _ _ _ I p e q X F)|]. split; [intros p e X; exact (i_reach _ _ _ _ _ I p (ex_intro _ e X))|].
    exact (walk_listed d B (psEvents st) SA _ 0 _ ltac:(lia) E2).
  - constructor; try (intros; discriminate). intros o (e & X). discriminate X.
  - intros o X. split; [|exact X]. unfold starts in X. destruct os as [|a os]; [destruct X as [<-|[]]; lia|]. rewrite Forall_forall in OS. apply OS. exact X.
Qed.

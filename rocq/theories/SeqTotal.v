(** Proofs about the sequence model, part 5: readSequenceEvents on arbitrary bytes *)
From Verif Require Import PyBase PyLemmas PyTac Gfx2DLemmas WaveLemmas SeqModel SeqSpec SeqLemmas SeqSave SeqParse.
From Coq Require Import ZifyBool.
Ltac Zify.zify_post_hook ::= idtac.

Definition err0 (e : exc) : Prop := e = IndexError \/ e = StructError \/ e = ValueError \/ e = KeyError.
Definition err1 (e : exc) : Prop := e = EOFError \/ e = ValueError \/ e = KeyError.

Lemma unpack_e_err m n data off e : unpack_e m n data off = Err e -> e = StructError.
Proof.
  unfold unpack_e, rd, struct_off. intros H.
  destruct (off <? 0); [destruct ((0 <? off + Z.of_nat n) || (off + zlen data <? 0))|destruct (zlen data <? off + Z.of_nat n)];
    cbn [bind] in H; congruence.
Qed.
Lemma unpack_u_err n data off e : unpack_u n data off = Err e -> e = StructError.
Proof. apply unpack_e_err. Qed.
Lemma unpack_s_err n data off e : unpack_s n data off = Err e -> e = StructError.
Proof.
  unfold unpack_s. destruct (unpack_u n data off) eqn:E; cbn [bind]; [discriminate|].
  intros H. assert (e0 = e) as -> by congruence. eapply unpack_u_err. exact E.
Qed.
Lemma vl_loop_err fuel : forall data off v len e, 0 <= len <= 4 -> 5 - len <= Z.of_nat fuel ->
  vl_loop fuel data off v len = Err e -> err0 e.
Proof.
  induction fuel as [|k IH]; intros data off v len e V K H; cbn [vl_loop] in H; [lia|].
  destruct (get data (off - 1)) as [c|] eqn:E1; cbn [bind] in H; [|left; assert (e0 = e) as -> by congruence; eapply get_err, E1].
  destruct (_ =? 0); [discriminate|].
  destruct (get data off) as [b|] eqn:E2; cbn [bind] in H; [|left; assert (e0 = e) as -> by congruence; eapply get_err, E2].
  destruct (4 <? len + 1) eqn:L; [right; right; left; congruence|]. eapply IH; [| |exact H]; lia.
Qed.
Lemma vl_read_err data off e : vl_read data off = Err e -> err0 e.
Proof.
  unfold vl_read. destruct (get data off) eqn:E; cbn [bind]; [|intros H; left; assert (e0 = e) as -> by congruence; eapply get_err, E].
  apply vl_loop_err; lia.
Qed.
Lemma random_length_err s e : random_length s = Err e -> e = ValueError \/ e = KeyError.
Proof.
  unfold random_length. intros H.
  repeat match type of H with context [if ?c then _ else _] => destruct c; try discriminate H end.
  1: left; congruence. right; congruence.
Qed.

(** a failing bind of a computation with known errors *)
Ltac eb H L :=
  match type of H with
  | (bind ?a _ = Err _) => let E := fresh "E" in destruct a eqn:E; cbn [bind] in H;
      [|let Q := fresh in match type of H with Err ?x = Err ?y => assert (Q : x = y) by congruence; subst x end; L E]
  end.

Ltac ge E := first [left; eapply get_err, E | right; left; eapply unpack_u_err, E
  | right; left; eapply unpack_s_err, E | eapply vl_read_err, E | right; right; eapply random_length_err, E].

Lemma fromData_err t data off e : fromData t data off = Err e -> err0 e.
Proof.
  unfold fromData. intros H.
  repeat match type of H with
  | (if ?c then _ else _) = _ => destruct c
  | (bind (mapM _ _) _ = _) => eb H ltac:(fun E => left; eapply mapM_err; [|exact E]; intros ? ? _ Q; eapply get_err, Q)
  | (bind (guard ?b _) _ = _) => unfold guard in H at 1; destruct b; cbn [bind] in H; [|right; right; left; congruence]
  | (bind _ _ = _) => eb H ltac:(fun E => ge E)
  | (let _ := _ in _) = _ => cbv zeta in H
  end; try discriminate H.
  right; right; left. congruence.
Qed.
Lemma vl_length_err x e : vl_length x = Err e -> e = ValueError.
Proof. unfold vl_length. destruct (_ <? 0); congruence. Qed.
Lemma dataLength_err v e : dataLength v = Err e -> e = ValueError \/ e = KeyError.
Proof.
  destruct v; cbn [dataLength]; intros H; try discriminate H.
  1,2,3: destruct (vl_length _) eqn:E; cbn [bind] in H; [discriminate|];
    assert (e0 = e) as -> by congruence; left; eapply vl_length_err, E.
  eapply random_length_err, H.
Qed.
Lemma ok_inj {A} (a b : A) : Ok a = Ok b -> a = b.
Proof. congruence. Qed.
Lemma fromData_raw t data off e : fromData t data off = Ok e -> is_raw e = false.
Proof.
  unfold fromData. intros H.
  repeat lazymatch type of H with
  | (if ?c then _ else _) = _ => let Q := fresh in destruct c eqn:Q; clear Q
  | (bind ?a _ = Ok _) => let Q := fresh in destruct a eqn:Q; clear Q; cbn [bind] in H; [|discriminate H]
  | Err _ = _ => discriminate H
  | Ok _ = _ => apply ok_inj in H; rewrite <- H; reflexivity
  end.
Qed.

Definition okev (e : ev) : Prop := is_raw e = false /\ exists n, dataLength e = Ok n.

Section Total.
Variable data : bytes.

Definition known (st : pstate) (o : Z) : Prop := lookup o (psFates st) <> None.
Record K (st : pstate) : Prop := {
  k_dom : forall o, known st o -> lookup o (psEvents st) <> None;
  k_raw : forall o e, lookup o (psEvents st) = Some e -> okev e
}.
Definition left_ (st : pstate) : nat := length (filter (fresh_b st) (range_z 0 (length data))).
Definition grows (st st' : pstate) : Prop := forall o, known st o -> known st' o.

Lemma grows_trans a b c : grows a b -> grows b c -> grows a c.
Proof. unfold grows. auto. Qed.
Lemma fresh_known st o : fresh_b st o = true <-> ~ known st o.
Proof. unfold fresh_b, known. destruct (lookup o (psFates st)); split; intros H; try congruence. exfalso. apply H. discriminate. Qed.
Lemma filter_grows st st' l : grows st st' -> (length (filter (fresh_b st') l) <= length (filter (fresh_b st) l))%nat.
Proof.
  intros H. induction l as [|o l IH]; cbn [filter]; [lia|].
  destruct (fresh_b st' o) eqn:A; [|destruct (fresh_b st o); cbn [length]; lia].
  destruct (fresh_b st o) eqn:B; [cbn [length]; lia|].
  exfalso. apply fresh_known in A. apply A, H. destruct (lookup o (psFates st)) eqn:L; unfold known; rewrite L; [discriminate|].
  unfold fresh_b in B. rewrite L in B. discriminate.
Qed.
Lemma left_grows st st' : grows st st' -> (left_ st' <= left_ st)%nat.
Proof. apply filter_grows. Qed.
Lemma left_lt st st' o : grows st st' -> 0 <= o < zlen data -> ~ known st o -> known st' o -> (left_ st' < left_ st)%nat.
Proof.
  intros H R N Y. unfold left_.
  assert (I : In o (range_z 0 (length data))) by (apply in_range_z; unfold zlen in R; lia).
  apply in_split in I as (A & B & ->). rewrite !filter_app, !app_length. cbn [filter].
  rewrite (proj2 (fresh_known st o) N).
  destruct (fresh_b st' o) eqn:F; [apply fresh_known in F; contradiction|].
  pose proof (filter_grows st st' A H). pose proof (filter_grows st st' B H). cbn [length]. lia.
Qed.

Lemma K_event st o e : K st -> okev e -> K (set_event o e st).
Proof.
  intros [A B] R. split; unfold set_event, known; cbn [psEvents psFates].
  - intros x Hx. rewrite lookup_cons. destruct (o =? x); [discriminate|apply A, Hx].
  - intros x e'. rewrite lookup_cons. destruct (o =? x); [congruence|apply B].
Qed.
Lemma K_fate st o f : K st -> lookup o (psEvents st) <> None -> K (set_fate o f st).
Proof.
  intros [A B] R. split; unfold set_fate, known; cbn [psEvents psFates].
  - intros x. rewrite lookup_cons. destruct (Z.eqb_spec o x) as [->|]; [intros _; exact R|apply A].
  - exact B.
Qed.
Lemma grows_event st o e : grows st (set_event o e st).
Proof. intros x H. exact H. Qed.
Lemma grows_fate st o f : grows st (set_fate o f st).
Proof. intros x H. unfold known, set_fate in *. cbn [psFates]. rewrite lookup_cons. destruct (o =? x); [discriminate|exact H]. Qed.
Lemma known_fate st o f : known (set_fate o f st) o.
Proof. unfold known, set_fate. cbn [psFates]. rewrite lookup_cons, Z.eqb_refl. discriminate. Qed.
Lemma grows_fates mine f st : grows st (set_fates mine f st).
Proof.
  intros o H. unfold known in *. rewrite set_fates_lookup. destruct (existsb _ _); [discriminate|exact H].
Qed.
Lemma K_fates mine f st : K st -> (forall o, In o mine -> known st o) -> K (set_fates mine f st).
Proof.
  intros [A B] M. split.
  - intros o H. rewrite set_fates_events. apply A. unfold known in H. rewrite set_fates_lookup in H.
    destruct (existsb (Z.eqb o) mine) eqn:E; [apply M, existsb_In, E|exact H].
  - intros o e. rewrite set_fates_events. apply B.
Qed.

Definition outcome (d : nat) (st : pstate) (off : Z) (r : res (pstate * Z)) : Prop :=
  match r with
  | Ok (st', _) => K st' /\ grows st st' /\ known st' off
  | Err e => err1 e \/ (e = RecursionError /\ (d <= left_ st)%nat)
  end.

Lemma K_visit st off e f : K st -> okev e -> K (set_fate off f (set_event off e st)).
Proof.
  intros H R. apply K_fate; [apply K_event; assumption|].
  unfold set_event. cbn [psEvents]. rewrite lookup_cons, Z.eqb_refl. discriminate.
Qed.
Lemma grows_visit st off e f : grows st (set_fate off f (set_event off e st)).
Proof. eapply grows_trans; [apply grows_event|apply grows_fate]. Qed.

Lemma ev_at_known st o : K st -> known st o -> exists e, ev_at st o = Ok e.
Proof.
  intros [A _] H. unfold ev_at. specialize (A o H). destruct (lookup o (psEvents st)); [eexists; reflexivity|congruence].
Qed.

Lemma unle_pos b : is_bytes b -> 0 <= unle b.
Proof. intros H. apply unle_range. exact H. Qed.

Definition step_outcome (d : nat) (st : pstate) (off : Z) (mine : list Z) (r : res (pstate * (Z + Z))) : Prop :=
  match r with
  | Ok (st', n) => K st' /\ grows st st' /\ known st' off /\ match n with inl _ => True | inr o => off < o end
  | Err e => err1 e \/ (e = RecursionError /\ (d <= left_ st)%nat)
  end.

Lemma eof_err {A} (r : res A) e : eof r = Err e -> r = Err e \/ (e = EOFError /\ (r = Err StructError \/ r = Err IndexError)).
Proof. destruct r as [a|x]; cbn [eof]; [discriminate|]. destruct x; intros H; auto; right; split; auto; congruence. Qed.

Lemma parse_step_total d rec st off mine :
  is_bytes data -> (forall st o, K st -> 0 <= o -> outcome d st o (rec st o)) ->
  K st -> 0 <= off < zlen data -> ~ known st off -> (forall o, In o mine -> known st o) ->
  step_outcome (S d) st off mine (eof (parse_step rec data st off mine)).
Proof.
  intros BD REC KS RG NK MK. unfold parse_step.
  destruct (get data off) as [t|x] eqn:GT; cbn [bind].
  2:{ apply get_err in GT as ->. left. left. reflexivity. }
  assert (UB : forall a b, 0 <= unle (slice data a b)) by (intros; apply unle_pos, is_bytes_slice; exact BD).
  (* the recursive call on a visited state *)
  assert (RV : forall e0 o, okev e0 -> 0 <= o ->
    let st1 := set_fate off INPROGRESS (set_event off e0 st) in
    match rec st1 o with
    | Ok (st', _) => K st' /\ grows st st' /\ known st' off /\ known st' o
    | Err e => err1 e \/ (e = RecursionError /\ (S d <= left_ st)%nat)
    end).
  { intros e0 o R0 O0 st1. pose proof (REC st1 o (K_visit _ _ _ _ KS R0) O0) as Q. unfold outcome in Q.
    assert (G1 : grows st st1) by apply grows_visit.
    assert (K1 : known st1 off) by apply known_fate.
    destruct (rec st1 o) as [[st' f]|e].
    - destruct Q as (Q1 & Q2 & Q3). split; [exact Q1|]. split; [eapply grows_trans; eassumption|]. split; [apply Q2, K1|exact Q3].
    - destruct Q as [Q|[Q1 Q2]]; [left; exact Q|right]. split; [exact Q1|].
      pose proof (left_lt st st1 off G1 RG NK K1). lia. }
  assert (EE : forall e, err1 e \/ (e = RecursionError /\ (S d <= left_ st)%nat) -> step_outcome (S d) st off mine (eof (Err e))).
  { intros e [[->|[->| ->]]|[-> H]]; cbn [eof step_outcome]; [left; left; reflexivity|left; right; left; reflexivity|left; right; right; reflexivity|right; auto]. }
  destruct (t =? 0x93).
  { destruct (get data (off + 1)) as [tn|x] eqn:GN; cbn [bind]; [|apply get_err in GN as ->; left; left; reflexivity].
    specialize (RV (BeginTrack tn None) (unle (slice data (off + 2) (off + 5))) ltac:(split; [reflexivity|eexists; reflexivity]) (UB _ _)). cbv zeta in RV.
    destruct (rec _ _) as [[st' f]|e]; cbn [bind]; [|apply EE, RV].
    destruct RV as (R1 & R2 & R3 & R4). destruct (ev_at_known _ _ R1 R4) as (ev0 & ->). cbn [bind eof step_outcome].
    split; [apply K_event; [exact R1|split; [reflexivity|eexists; reflexivity]]|]. split; [exact R2|]. split; [exact R3|lia]. }
  destruct (t =? 0x94).
  { specialize (RV (Jump None) (unle (slice data (off + 1) (off + 4))) ltac:(split; [reflexivity|eexists; reflexivity]) (UB _ _)). cbv zeta in RV. cbv zeta.
    destruct (rec _ _) as [[st' f]|e]; cbn [bind]; [|apply EE, RV].
    destruct RV as (R1 & R2 & R3 & R4). destruct (ev_at_known _ _ R1 R4) as (ev0 & ->). cbn [bind].
    set (st2 := set_event off (Jump (Some (unle (slice data (off + 1) (off + 4))))) st').
    assert (KK : K (set_fates mine f st2)).
    { apply K_fates; [apply K_event; [exact R1|split; [reflexivity|eexists; reflexivity]]|]. intros o Ho. apply R2, MK, Ho. }
    assert (GG : grows st' (set_fates mine f st2)) by (eapply grows_trans; [apply grows_event|apply grows_fates]).
    destruct (part_of_if _ _); cbn [eof step_outcome]; (split; [exact KK|]); (split; [eapply grows_trans; eassumption|]);
      (split; [apply GG, R3|]); [lia|exact I]. }
  destruct (t =? 0x95).
  { specialize (RV (Call None) (unle (slice data (off + 1) (off + 4))) ltac:(split; [reflexivity|eexists; reflexivity]) (UB _ _)). cbv zeta in RV. cbv zeta.
    destruct (rec _ _) as [[st' f]|e]; cbn [bind]; [|apply EE, RV].
    destruct RV as (R1 & R2 & R3 & R4). destruct (ev_at_known _ _ R1 R4) as (ev0 & ->). cbn [bind].
    set (st2 := set_event off (Call (Some (unle (slice data (off + 1) (off + 4))))) st').
    assert (KE : K st2) by (apply K_event; [exact R1|split; [reflexivity|eexists; reflexivity]]).
    assert (KK : K (set_fates mine f (set_fate off f st2))).
    { apply K_fates; [apply K_fate; [exact KE|]|].
      - unfold st2, set_event. cbn [psEvents]. rewrite lookup_cons, Z.eqb_refl. discriminate.
      - intros o Ho. apply grows_fate. apply R2, MK, Ho. }
    assert (GG : grows st' (set_fates mine f (set_fate off f st2))).
    { eapply grows_trans; [apply grows_event|]. eapply grows_trans; [apply grows_fate|apply grows_fates]. }
    destruct (f =? EOT); [|destruct (f =? RETURN); [|destruct (f =? LOOP)]]; cbn [eof step_outcome].
    1,3: (split; [exact KK|]); (split; [eapply grows_trans; eassumption|]); (split; [apply GG, R3|exact I]).
    all: (split; [exact KE|]); (split; [exact R2|]); (split; [exact R3|lia]). }
  assert (TERM : forall e f, okev e -> step_outcome (S d) st off mine (Ok (set_fates mine f (set_fate off f (set_event off e st)), inl f))).
  { intros e f R. cbn [step_outcome]. split; [|split; [|split; [|exact I]]].
    - apply K_fates; [apply K_visit; assumption|]. intros o Ho. apply grows_visit, MK, Ho.
    - eapply grows_trans; [apply grows_visit|apply grows_fates].
    - apply grows_fates, known_fate. }
  destruct (t =? 0xFD); [apply (TERM (Bare 0xFD) RETURN); split; [reflexivity|eexists; reflexivity]|].
  destruct (t =? 0xFF); [apply (TERM (Bare 0xFF) EOT); split; [reflexivity|eexists; reflexivity]|].
  destruct (fromData t data off) as [e|x] eqn:FD; cbn [bind].
  2:{ apply fromData_err in FD as [->|[->|[->| ->]]]; cbn [eof step_outcome]; [left; left|left; left|left; right; left|left; right; right]; reflexivity. }
  pose proof (fromData_raw _ _ _ _ FD) as RW.
  destruct (dataLength e) as [n|x] eqn:DL; cbn [bind].
  2:{ apply dataLength_err in DL as [->| ->]; left; right; [left|right]; reflexivity. }
  cbn [eof step_outcome]. split; [apply K_visit; [assumption|split; [assumption|eexists; exact DL]]|]. split; [apply grows_visit|]. split; [apply known_fate|].
  pose proof (dataLength_pos _ _ DL RW). lia.
Qed.

Lemma parse_loop_total d rec : is_bytes data -> (forall st o, K st -> 0 <= o -> outcome d st o (rec st o)) ->
  forall fuel st off mine, K st -> 0 <= off -> (Z.to_nat (zlen data - off) < fuel)%nat -> (forall o, In o mine -> known st o) ->
  match parse_loop rec data fuel st off mine with
  | Ok (st', _) => K st' /\ grows st st' /\ known st' off
  | Err e => err1 e \/ (e = RecursionError /\ (S d <= left_ st)%nat)
  end.
Proof.
  intros BD REC. induction fuel as [|k IH]; intros st off mine KS OF FU MK; [lia|]. cbn [parse_loop].
  destruct (off <? zlen data) eqn:LT; cbn [negb]; [|left; left; reflexivity].
  destruct (lookup off (psFates st)) as [f|] eqn:LK.
  - split; [apply K_fates; assumption|]. split; [apply grows_fates|]. apply grows_fates. unfold known. congruence.
  - assert (NK : ~ known st off) by (unfold known; congruence).
    pose proof (parse_step_total d rec st off mine BD REC KS ltac:(lia) NK MK) as S.
    destruct (eof (parse_step rec data st off mine)) as [[st' [f|off']]|e]; cbn [bind]; [| |exact S].
    + destruct S as (S1 & S2 & S3 & _). auto.
    + destruct S as (S1 & S2 & S3 & S4).
      specialize (IH st' off' (mine ++ [off]) S1 ltac:(lia) ltac:(lia)).
      assert (M' : forall o, In o (mine ++ [off]) -> known st' o).
      { intros o Ho. apply in_app_or in Ho as [Ho|[<-|[]]]; [apply S2, MK, Ho|exact S3]. }
      specialize (IH M'). destruct (parse_loop rec data k st' off' (mine ++ [off])) as [[st2 f]|e].
      * destruct IH as (I1 & I2 & I3). split; [exact I1|]. split; [eapply grows_trans; eassumption|]. apply I2, S3.
      * destruct IH as [I1|[I1 I2]]; [left; exact I1|right]. split; [exact I1|]. pose proof (left_grows _ _ S2). lia.
Qed.

Lemma parse_at_total d : is_bytes data -> forall st o, K st -> 0 <= o -> outcome d st o (parse_at d data st o).
Proof.
  intros BD. induction d as [|d IH]; intros st o KS OF; cbn [parse_at outcome].
  - right. split; [reflexivity|lia].
  - apply (parse_loop_total d (parse_at d data) BD IH); [exact KS|exact OF|lia|intros x []].
Qed.

Lemma parse_starts_total d : is_bytes data -> forall starts st, K st -> Forall (fun o => 0 <= o) starts ->
  match foldM (fun st start => ' (st, fate) <- parse_at d data st start ;;
                 _ <- guard ((fate =? EOT) || (fate =? LOOP)) AssertionError ;; Ok st) st starts with
  | Ok st' => K st' /\ grows st st' /\ forall o, In o starts -> known st' o
  | Err e => err1 e \/ e = AssertionError \/ (e = RecursionError /\ (d <= left_ st)%nat)
  end.
Proof.
  intros BD. induction starts as [|o r IH]; intros st KS F; cbn [foldM].
  - split; [exact KS|]. split; [intros x H; exact H|intros x []].
  - inversion_clear F as [|? ? F1 F2]. pose proof (parse_at_total d BD st o KS F1) as Q. unfold outcome in Q.
    destruct (parse_at d data st o) as [[st' f]|e]; cbn [bind]; [|destruct Q as [Q|Q]; auto].
    destruct Q as (Q1 & Q2 & Q3). unfold guard. destruct ((f =? EOT) || (f =? LOOP)); cbn [bind]; [|auto].
    specialize (IH st' Q1 F2). destruct (foldM _ st' r) as [st2|e].
    + destruct IH as (I1 & I2 & I3). split; [exact I1|]. split; [eapply grows_trans; eassumption|].
      intros x [<-|H]; [apply I2, Q3|apply I3, H].
    + destruct IH as [I1|[I1|[I1 I2]]]; auto. right. right. split; [exact I1|]. pose proof (left_grows _ _ Q2). lia.
Qed.

Lemma next_event_gt evs fuel : forall j, lookup j evs = None -> (0 < fuel)%nat -> j < next_event evs fuel j.
Proof.
  assert (GE : forall fuel j, j <= next_event evs fuel j).
  { induction fuel0 as [|k IH]; intros j; cbn [next_event]; [lia|]. destruct (lookup j evs); [lia|]. specialize (IH (j + 1)). lia. }
  destruct fuel as [|k]; intros j L F; [lia|]. cbn [next_event]. rewrite L. specialize (GE k (j + 1)). lia.
Qed.

Lemma walk_total evs : (forall o e, lookup o evs = Some e -> okev e) ->
  forall fuel i, 0 <= i -> (Z.to_nat (zlen data - i) < fuel)%nat ->
  exists r, walk evs data fuel i = Ok r.
Proof.
  intros R. induction fuel as [|k IH]; intros i OI FU; [lia|]. cbn [walk].
  destruct (i <? zlen data) eqn:LT; cbn [negb]; [|eexists; reflexivity].
  destruct (lookup i evs) as [e|] eqn:L.
  - destruct (R _ _ L) as (NR & n & D). rewrite D. cbn [bind].
    pose proof (dataLength_pos _ _ D NR). destruct (IH (i + n) ltac:(lia) ltac:(lia)) as (r & ->).
    eexists. reflexivity.
  - pose proof (next_event_gt evs (Z.to_nat (zlen data - i)) i L ltac:(lia)) as G. cbv zeta.
    destruct (IH (next_event evs (Z.to_nat (zlen data - i)) i) ltac:(lia) ltac:(lia)) as (r & ->). eexists. reflexivity.
Qed.
End Total.

Lemma read_total depth data os : is_bytes data -> Forall (fun o => 0 <= o) os ->
  match readSequenceEvents depth data os with
  | Ok (evs, ns) => ns = os
  | Err e => e = EOFError \/ e = ValueError \/ e = KeyError \/ e = AssertionError
             \/ (e = RecursionError /\ (depth <= length data)%nat)
  end.
Proof.
  intros BD F. unfold readSequenceEvents. set (starts := match os with [] => [0] | _ => os end).
  assert (FS : Forall (fun o => 0 <= o) starts) by (unfold starts; destruct os; [repeat constructor; lia|exact F]).
  assert (K0 : K {| psEvents := []; psFates := [] |}).
  { split; unfold known; cbn [psEvents psFates]; [intros o H; exfalso; apply H; reflexivity|intros o e H; discriminate H]. }
  pose proof (parse_starts_total data depth BD starts _ K0 FS) as S. unfold parse_starts.
  destruct (foldM _ _ starts) as [st|e]; cbn [bind].
  - destruct S as (S1 & _ & S3).
    pose proof (walk_total data (psEvents st) (k_raw _ S1) (Datatypes.S (length data)) 0 ltac:(lia)) as W.
    destruct (W ltac:(unfold zlen; lia)) as (L & ->). cbn [bind].
    assert (M : mapM (fun off => _ <- ev_at st off ;; Ok off) os = Ok os).
      { assert (DN : forall o, In o os -> known st o) by (intros o H; apply S3; unfold starts; destruct os; [destruct H|exact H]).
        clear - DN S1. induction os as [|o os IH]; [reflexivity|]. cbn [mapM].
        destruct (ev_at_known st o S1 (DN o (or_introl eq_refl))) as (e & ->). cbn [bind].
        rewrite IH by (intros x Hx; apply DN; right; exact Hx). reflexivity. }
      rewrite M. reflexivity.
  - destruct S as [[->|[->| ->]]|[->|[-> H]]]; auto. right. right. right. right. split; [reflexivity|].
    unfold left_ in H. etransitivity; [exact H|]. clear. unfold fresh_b. cbn [psFates].
    assert (L : length (range_z 0 (length data)) = length data) by (pose proof (zlen_range_z 0 (length data)) as Q; unfold zlen in Q; lia).
    rewrite <- L at 2. clear L. induction (range_z 0 (length data)) as [|o l IH]; cbn [filter length]; [lia|].
    destruct (match lookup o [] with Some _ => _ | None => _ end); cbn [length]; lia.
Qed.

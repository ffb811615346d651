(** Proofs about the sequence model, part 3: the parser on laid out events *)
From Verif Require Import PyBase PyLemmas PyTac Gfx2DLemmas WaveLemmas SeqModel SeqSpec SeqLemmas SeqSave.
From Coq Require Import ZifyBool.
Ltac Zify.zify_post_hook ::= idtac.

Notation pev := (Z * ev * bytes)%type.
Definition offs (P : list pev) : list Z := map (fun x => fst (fst x)) P.
Definition body (P : list pev) : bytes := concat (map snd P).
Definition ident (P : list pev) : list (Z * Z) := map (fun x => (fst (fst x), fst (fst x))) P.

Fixpoint chain (off : Z) (P : list pev) : Prop :=
  match P with
  | [] => True
  | (o, _, b) :: r => o = off /\ chain (off + zlen b) r
  end.

Lemma body_app A B : body (A ++ B) = body A ++ body B.
Proof. unfold body. rewrite map_app, concat_app. reflexivity. Qed.
Lemma body_cons o e b r : body ((o, e, b) :: r) = b ++ body r.
Proof. reflexivity. Qed.

Lemma chain_app A : forall off B, chain off (A ++ B) -> chain off A /\ chain (off + zlen (body A)) B.
Proof.
  induction A as [|[[o e] b] A IH]; intros off B H; cbn [app chain] in *.
  - split; [exact I|]. change (body []) with (@nil Z). change (zlen (@nil Z)) with 0.
    replace (off + 0) with off by lia. exact H.
  - destruct H as [-> H]. apply IH in H as [H1 H2]. split; [split; [reflexivity|exact H1]|].
    rewrite body_cons, zlen_app. rewrite Z.add_assoc. exact H2.
Qed.
Lemma chain_split P o e b : chain 0 P -> In (o, e, b) P ->
  exists P1 P2, P = P1 ++ (o, e, b) :: P2 /\ zlen (body P1) = o /\ chain (o + zlen b) P2.
Proof.
  intros C H. apply in_split in H as (P1 & P2 & ->). apply chain_app in C as [_ C].
  cbn [chain] in C. destruct C as [E C]. rewrite Z.add_0_l in E. exists P1, P2. split; [reflexivity|].
  split; [symmetry; exact E|]. subst o. exact C.
Qed.
Lemma chain_ge P : forall off, chain off P -> forall x, In x (offs P) -> off <= x.
Proof.
  induction P as [|[[o e] b] P IH]; intros off C x H; [destruct H|].
  destruct C as [-> C]. destruct H as [<-|H]; [cbn; lia|].
  apply (IH _ C) in H. pose proof (zlen_nonneg b). lia.
Qed.

(** a well formed placement of events over the data *)
Record GP (data : bytes) (P : list pev) : Prop := {
  g_data : data = body P;
  g_chain : chain 0 P;
  g_ev : forall o e b, In (o, e, b) P ->
    ev_fits e /\ ev_small e /\ is_fromvar e = false /\ is_raw e = false /\
    dataLength e = Ok (zlen b) /\ ev_save e (ident P) = Ok b /\
    (has_ref e = true -> exists d, ev_ref e = Some d /\ In d (offs P))
}.

Lemma dataLength_pos e n : dataLength e = Ok n -> is_raw e = false -> 1 <= n.
Proof.
  intros H R. destruct e; cbn [dataLength is_raw] in *; try discriminate R; try (injection H as <-; lia).
  - unfold vl_length in H. destruct (_ <? 0); [discriminate|]. cbn [bind] in H. injection H as <-. lia.
  - unfold vl_length in H. destruct (_ <? 0); [discriminate|]. cbn [bind] in H. injection H as <-. lia.
  - unfold vl_length in H. destruct (_ <? 0); [discriminate|]. cbn [bind] in H. injection H as <-. lia.
  - apply random_length_ge in H. lia.
  - injection H as <-. destruct (is_arith subType); lia.
Qed.

Lemma ident_get P d : In d (offs P) -> pos_of (ident P) (Some d) = Some d.
Proof.
  unfold ident. induction P as [|[[o e] b] P IH]; intros H; [destruct H|].
  cbn [map fst]. rewrite pos_of_cons. destruct (Z.eqb_spec o d) as [->|N]; [reflexivity|].
  apply IH. destruct H; [contradiction|assumption].
Qed.

Lemma lookup_cons {A} k j (v : A) l : lookup k ((j, v) :: l) = if j =? k then Some v else lookup k l.
Proof. unfold lookup. cbn [find fst]. destruct (j =? k); reflexivity. Qed.

Lemma set_fates_events mine f st : psEvents (set_fates mine f st) = psEvents st.
Proof.
  unfold set_fates. revert st. induction mine as [|o r IH]; intros st; [reflexivity|].
  cbn [fold_left]. rewrite IH. reflexivity.
Qed.
Lemma set_fates_lookup mine f : forall st o,
  lookup o (psFates (set_fates mine f st)) = if existsb (Z.eqb o) mine then Some f else lookup o (psFates st).
Proof.
  unfold set_fates. induction mine as [|m r IH]; intros st o; [reflexivity|].
  cbn [fold_left existsb]. rewrite IH. unfold set_fate at 1. cbn [psFates]. rewrite lookup_cons.
  rewrite (Z.eqb_sym o m). destruct (existsb (Z.eqb o) r); [rewrite orb_true_r; reflexivity|].
  rewrite orb_false_r. reflexivity.
Qed.
Lemma existsb_In o l : existsb (Z.eqb o) l = true <-> In o l.
Proof.
  rewrite existsb_exists. split.
  - intros (x & H & E). apply Z.eqb_eq in E as ->. exact H.
  - intros H. exists o. split; [exact H|apply Z.eqb_refl].
Qed.

(** the byte at each event *)
Section Parse.
Variable data : bytes.
Variable P : list pev.
Variable starts : list Z.
Hypothesis G : GP data P.

Lemma at_split o e b : In (o, e, b) P ->
  exists pre post, data = pre ++ b ++ post /\ zlen pre = o.
Proof.
  intros H. destruct (chain_split P o e b (g_chain _ _ G) H) as (P1 & P2 & E & L & _).
  exists (body P1), (body P2). split; [|exact L].
  rewrite (g_data _ _ G), E, body_app, body_cons. reflexivity.
Qed.
Lemma at_len o e b : In (o, e, b) P -> dataLength e = Ok (zlen b) /\ 1 <= zlen b.
Proof.
  intros H. destruct (g_ev _ _ G _ _ _ H) as (_ & _ & _ & R & D & _).
  split; [exact D|]. apply dataLength_pos with e; assumption.
Qed.
Lemma at_next o e b : In (o, e, b) P -> o + zlen b = zlen data \/ In (o + zlen b) (offs P).
Proof.
  intros H. destruct (chain_split P o e b (g_chain _ _ G) H) as (P1 & P2 & E & L & C).
  destruct P2 as [|[[o' e'] b'] P2].
  - left. rewrite (g_data _ _ G), E, body_app, body_cons, !zlen_app, L. change (zlen (body [])) with 0. lia.
  - right. destruct C as [-> _]. rewrite E. unfold offs. rewrite map_app. apply in_or_app. right. right. left. reflexivity.
Qed.
Lemma at_before o e b o' e' b' : In (o, e, b) P -> In (o', e', b') P -> o < o' -> o + zlen b <= o'.
Proof.
  intros H H' L. destruct (chain_split P o e b (g_chain _ _ G) H) as (P1 & P2 & E & L1 & C).
  rewrite E in H'. apply in_app_or in H' as [H'|[H'|H']].
  - exfalso. pose proof (g_chain _ _ G) as GC. rewrite E in GC. apply chain_app in GC as [C1 _].
    apply in_split in H' as (A & B & ->). apply chain_app in C1 as [_ C1]. destruct C1 as [Q _].
    rewrite body_app, zlen_app in L1. pose proof (zlen_nonneg (body ((o', e', b') :: B))). lia.
  - injection H' as -> -> ->. lia.
  - apply (chain_ge _ _ C). unfold offs. apply in_map with (f := fun x => fst (fst x)) in H'. exact H'.
Qed.
Lemma at_fun o e b e' b' : In (o, e, b) P -> In (o, e', b') P -> e = e' /\ b = b'.
Proof.
  intros H H'. destruct (chain_split P o e b (g_chain _ _ G) H) as (P1 & P2 & E & L1 & C).
  pose proof (at_len _ _ _ H) as [_ LB]. pose proof (at_len _ _ _ H') as [_ LB'].
  rewrite E in H'. apply in_app_or in H' as [H'|[H'|H']].
  - exfalso. pose proof (g_chain _ _ G) as GC. rewrite E in GC. apply chain_app in GC as [C1 _].
    apply in_split in H' as (A & B & ->). apply chain_app in C1 as [_ C1]. destruct C1 as [Q _].
    rewrite body_app, zlen_app, body_cons, zlen_app in L1. pose proof (zlen_nonneg (body B)). lia.
  - injection H' as -> ->. split; reflexivity.
  - apply in_map with (f := fun x => fst (fst x)) in H'. apply (chain_ge _ _ C) in H'. cbn in H'. lia.
Qed.
Lemma at_range o e b : In (o, e, b) P -> 0 <= o /\ o + zlen b <= zlen data.
Proof.
  intros H. destruct (at_split _ _ _ H) as (pre & post & -> & <-). rewrite !zlen_app.
  pose proof (zlen_nonneg pre). pose proof (zlen_nonneg post). lia.
Qed.
Lemma offs_in o : In o (offs P) -> exists e b, In (o, e, b) P.
Proof.
  unfold offs. intros H. apply in_map_iff in H as ([[o' e] b] & E & H). cbn in E. subst. eauto.
Qed.
Lemma in_offs o e b : In (o, e, b) P -> In o (offs P).
Proof. intros H. unfold offs. change o with (fst (fst (o, e, b))). apply in_map with (f := fun x => fst (fst x)). exact H. Qed.

(** what the parser sees at an event *)
Lemma at_plain o e b : In (o, e, b) P -> has_ref e = false ->
  exists t, ev_type e = Some t /\ get data o = Ok t /\ fromData t data o = Ok e.
Proof.
  intros H R. destruct (g_ev _ _ G _ _ _ H) as (F & S & _ & W & D & V & _).
  destruct (at_split _ _ _ H) as (pre & post & -> & <-).
  assert (exists t, ev_type e = Some t) as (t & T).
  { destruct e; try discriminate W; eexists; reflexivity. }
  exists t. split; [exact T|]. apply (fromData_save e _ b pre post t F S R T V).
Qed.
Lemma slice3 pre d post a o : 0 <= d < 2 ^ 24 -> o = zlen pre + a -> 0 <= a ->
  forall x, zlen x = a -> unle (slice (pre ++ (x ++ le 3 d) ++ post) o (o + 3)) = d.
Proof.
  intros D -> A x X. rewrite <- app_assoc. rewrite slice_skip by (pose proof (zlen_nonneg pre); lia).
  rewrite slice_skip by lia. rewrite slice_hit by (rewrite ?zlen_le; lia).
  apply unle_le_id. p256. lia.
Qed.

Lemma at_ref o e b : In (o, e, b) P -> has_ref e = true ->
  exists d, ev_ref e = Some d /\ In d (offs P) /\
  match e with
  | BeginTrack n _ => get data o = Ok 0x93 /\ get data (o + 1) = Ok n
                      /\ unle (slice data (o + 2) (o + 5)) = d /\ zlen b = 5
  | Jump _ => get data o = Ok 0x94 /\ unle (slice data (o + 1) (o + 4)) = d /\ zlen b = 4
  | Call _ => get data o = Ok 0x95 /\ unle (slice data (o + 1) (o + 4)) = d /\ zlen b = 4
  | _ => True
  end.
Proof.
  intros H R. destruct (g_ev _ _ G _ _ _ H) as (F & S & _ & W & D & V & RF).
  destruct (at_split _ _ _ H) as (pre & post & -> & E).
  destruct (RF R) as (d & ED & ID). exists d. split; [exact ED|]. split; [exact ID|].
  destruct e; cbn [has_ref ev_ref ev_save ev_fits] in *; try discriminate R; subst;
    rewrite pos_of_get, (ident_get _ _ ID) in V; inv_bind; subst;
    repeat match goal with
    | H : int_bytes _ _ = Ok _ |- _ => apply int_bytes_inv in H as [? ->]
    end; p256.
  - rewrite (le_1 trackNumber) by lia.
    change (147 :: [trackNumber] ++ le 3 v0) with ([147; trackNumber] ++ le 3 v0).
    split; [apply get_mid; reflexivity|]. split.
    + change ((([147; trackNumber] ++ le 3 v0) ++ post)) with (147 :: (trackNumber :: le 3 v0 ++ post)).
      rewrite get_shift by lia. reflexivity.
    + split; [|reflexivity]. replace (zlen pre + 5) with (zlen pre + 2 + 3) by lia.
      apply slice3 with (a := 2); (reflexivity || lia).
  - split; [apply get_mid; reflexivity|]. split; [|reflexivity].
    change (148 :: le 3 v) with ([148] ++ le 3 v).
    replace (zlen pre + 4) with (zlen pre + 1 + 3) by lia. apply slice3 with (a := 1); (reflexivity || lia).
  - split; [apply get_mid; reflexivity|]. split; [|reflexivity].
    change (149 :: le 3 v) with ([149] ++ le 3 v).
    replace (zlen pre + 4) with (zlen pre + 1 + 3) by lia. apply slice3 with (a := 1); (reflexivity || lia).
Qed.

(** ** The invariant of the parser *)

Definition dom (st : pstate) (o : Z) : Prop := lookup o (psEvents st) <> None.
Definition unref (e : ev) : ev := map_ref (fun _ => None) e.
Definition has_ret : Prop := exists o b, In (o, Bare 0xFD, b) P.
Definition open_end : Prop := exists o e b, In (o, e, b) P /\ is_end e = false /\ o + zlen b = zlen data.
Definition entry (st : pstate) (off : Z) : Prop :=
  entered starts P off \/
  exists p e b, dom st p /\ In (p, e, b) P /\ is_end e = false /\ p + zlen b = off.
Definition fresh_b (st : pstate) (o : Z) : bool :=
  match lookup o (psFates st) with None => true | Some _ => false end.
Definition count (st : pstate) : nat := length (filter (fresh_b st) (offs P)).
Definition mono (st st' : pstate) : Prop := forall o, dom st o -> dom st' o.

Record INV (pend mine : list Z) (W : Z -> Prop) (st : pstate) : Prop := {
  i_ev : forall o e, lookup o (psEvents st) = Some e -> exists e' b, In (o, e', b) P /\
    ((e = e' /\ forall d, ev_ref e' = Some d -> dom st d) \/ (In o pend /\ e = unref e'));
  i_dom : forall o, dom st o <-> lookup o (psFates st) <> None;
  i_val : forall o f, lookup o (psFates st) = Some f -> 0 <= f <= 3 /\ (f = RETURN -> has_ret);
  i_succ : forall o s, dom st o -> flows starts P o s -> dom st s \/ W s;
  i_ret : forall o f, returns P o -> lookup o (psFates st) = Some f -> f = RETURN \/ In o mine
}.

Lemma flows_inv o e b s : In (o, e, b) P -> flows starts P o s ->
  (is_control e = false /\ s = o + zlen b)
  \/ (exists n r, e = BeginTrack n r /\ s = o + zlen b)
  \/ ev_ref e = Some s
  \/ (exists r p b0, e = Jump r /\ p + 1 = o /\ In (p, Bare 0xA2, b0) P /\ ~ entered starts P o /\ s = o + zlen b)
  \/ (exists d, e = Call (Some d) /\ returns P d /\ s = o + zlen b).
Proof.
  intros H F. destruct F as [o e' b' I C|o n r b' I|o e' b' d I R|p b0 r b' I0 I N|o d b' I R];
    destruct (at_fun _ _ _ _ _ H I) as [-> ->].
  - left. auto.
  - right. left. eauto.
  - right. right. left. exact R.
  - right. right. right. left. exists r, p, b0. auto.
  - right. right. right. right. eauto.
Qed.

Lemma returns_plain o e b : In (o, e, b) P -> returns P o -> is_control e = false -> returns P (o + zlen b).
Proof.
  intros H R C. destruct R as [o b' I|o e' b' I C' R]; destruct (at_fun _ _ _ _ _ H I) as [-> ->].
  - discriminate C.
  - exact R.
Qed.
Lemma returns_control o e b : In (o, e, b) P -> is_control e = true -> e <> Bare 0xFD -> ~ returns P o.
Proof.
  intros H C N R. destruct R as [o b' I|o e' b' I C' R]; destruct (at_fun _ _ _ _ _ H I) as [-> ->].
  - congruence.
  - congruence.
Qed.
Lemma returns_has o : returns P o -> has_ret.
Proof. induction 1 as [o b I|]; [exists o, b; exact I|assumption]. Qed.

Lemma INV_weaken pend pend' mine mine' (W W' : Z -> Prop) st :
  INV pend mine W st -> (forall x, In x pend -> In x pend') -> (forall x, In x mine -> returns P x -> In x mine') ->
  (forall x, W x -> dom st x \/ W' x) -> INV pend' mine' W' st.
Proof.
  intros [A B C D E] HP HM HW. constructor.
  - intros o e L. destruct (A o e L) as (e' & b & I & [K|[K1 K2]]); exists e', b; (split; [exact I|]); auto.
  - exact B.
  - exact C.
  - intros o s Ho F. destruct (D o s Ho F); auto.
  - intros o f R L. destruct (E o f R L); auto.
Qed.

Lemma dom_visit off f e st o : dom (set_fate off f (set_event off e st)) o <-> o = off \/ dom st o.
Proof.
  unfold dom, set_fate, set_event. cbn [psEvents]. rewrite lookup_cons.
  destruct (Z.eqb_spec off o) as [->|N]; [|intuition congruence]. split; [auto|discriminate].
Qed.

Lemma INV_visit pend pend' mine mine' (W : Z -> Prop) st off e b e1 f :
  INV pend mine (fun s => s = off \/ W s) st -> In (off, e, b) P ->
  (e1 = e /\ ev_ref e = None) \/ (In off pend' /\ e1 = unref e) ->
  (forall x, In x pend -> In x pend') -> (forall x, In x mine -> In x mine') ->
  0 <= f <= 3 -> (f = RETURN -> has_ret) -> (returns P off -> f = RETURN \/ In off mine') ->
  INV pend' mine' (fun s => W s \/ flows starts P off s) (set_fate off f (set_event off e1 st)).
Proof.
  intros [A B C D E] I1 HE HP HM F1 F2 F3. constructor.
  - intros o e0 L. unfold set_fate, set_event in L. cbn [psEvents] in L. rewrite lookup_cons in L.
    destruct (Z.eqb_spec off o) as [->|N].
    + injection L as <-. exists e, b. split; [exact I1|]. destruct HE as [[H1 H2]|[H1 H2]].
      * left. split; [exact H1|]. intros d Hd. congruence.
      * right. split; assumption.
    + destruct (A o e0 L) as (e' & b' & I & [[K1 K2]|[K1 K2]]); exists e', b'; (split; [exact I|]).
      * left. split; [exact K1|]. intros d Hd. apply dom_visit. right. apply K2. exact Hd.
      * right. auto.
  - intros o. rewrite dom_visit. unfold set_fate, set_event. cbn [psFates]. rewrite lookup_cons.
    destruct (Z.eqb_spec off o) as [->|N]; [intuition congruence|]. rewrite <- B. intuition congruence.
  - intros o f0 L. unfold set_fate, set_event in L. cbn [psFates] in L. rewrite lookup_cons in L.
    destruct (Z.eqb_spec off o) as [->|N]; [injection L as <-; auto|]. apply C with o. exact L.
  - intros o s Ho F. apply dom_visit in Ho. destruct Ho as [->|Ho]; [right; right; exact F|].
    destruct (D o s Ho F) as [K|[->|K]].
    + left. apply dom_visit. right. exact K.
    + left. apply dom_visit. left. reflexivity.
    + right. left. exact K.
  - intros o f0 R L. unfold set_fate, set_event in L. cbn [psFates] in L. rewrite lookup_cons in L.
    destruct (Z.eqb_spec off o) as [->|N]; [injection L as <-; auto|].
    destruct (E o f0 R L); auto.
Qed.

Lemma dom_event off e st o : dom st off -> dom (set_event off e st) o <-> dom st o.
Proof.
  intros H. unfold dom, set_event in *. cbn [psEvents]. rewrite lookup_cons.
  destruct (Z.eqb_spec off o) as [->|N]; [|tauto]. split; [intros; exact H|discriminate].
Qed.

Lemma INV_patch pend mine W st off e b d :
  INV (off :: pend) mine W st -> In (off, e, b) P -> ev_ref e = Some d -> dom st d -> dom st off ->
  INV pend mine W (set_event off e st).
Proof.
  intros [A B C D E] I1 R Dd Do. constructor.
  - intros o e0 L. unfold set_event in L. cbn [psEvents] in L. rewrite lookup_cons in L.
    destruct (Z.eqb_spec off o) as [->|N].
    + injection L as <-. exists e, b. split; [exact I1|]. left. split; [reflexivity|].
      intros d' Hd'. rewrite dom_event by exact Do. congruence.
    + destruct (A o e0 L) as (e' & b' & I & [[K1 K2]|[K1 K2]]); exists e', b'; (split; [exact I|]).
      * left. split; [exact K1|]. intros d' Hd'. rewrite dom_event by exact Do. auto.
      * right. destruct K1; [congruence|]. auto.
  - intros o. rewrite dom_event by exact Do. apply B.
  - exact C.
  - intros o s Ho F. rewrite dom_event in Ho by exact Do. rewrite dom_event by exact Do. apply (D o s Ho F).
  - exact E.
Qed.

Lemma dom_fates mine f st o : dom (set_fates mine f st) o <-> dom st o.
Proof. unfold dom. rewrite set_fates_events. tauto. Qed.

Lemma INV_fates pend mine mine' W st f :
  INV pend mine W st -> (forall o, In o mine' -> dom st o) -> (forall o, In o mine -> In o mine') ->
  0 <= f <= 3 -> (f = RETURN -> has_ret) -> (forall o, In o mine' -> returns P o -> f = RETURN) ->
  INV pend [] W (set_fates mine' f st).
Proof.
  intros [A B C D E] HD HS F1 F2 F3. constructor.
  - intros o e L. rewrite set_fates_events in L. destruct (A o e L) as (e' & b' & I & [[K1 K2]|K]); exists e', b'; (split; [exact I|]); [left|right; exact K].
    split; [exact K1|]. intros d Hd. apply dom_fates. auto.
  - intros o. rewrite dom_fates, set_fates_lookup. destruct (existsb (Z.eqb o) mine') eqn:X; [|apply B].
    apply existsb_In in X. split; [discriminate|]. intros _. apply HD. exact X.
  - intros o f0. rewrite set_fates_lookup. destruct (existsb _ _); [intros [= <-]; auto|apply C].
  - intros o s Ho F. rewrite dom_fates in Ho |- *. apply (D o s Ho F).
  - intros o f0 R. rewrite set_fates_lookup. destruct (existsb (Z.eqb o) mine') eqn:X.
    + intros [= <-]. left. apply existsb_In in X. apply (F3 o X R).
    + intros L. destruct (E o f0 R L) as [|K]; [auto|]. apply HS in K. apply existsb_In in K. congruence.
Qed.

Lemma fresh_mono st st' o : (lookup o (psFates st) <> None -> lookup o (psFates st') <> None) ->
  implb (fresh_b st' o) (fresh_b st o) = true.
Proof.
  intros H. unfold fresh_b. destruct (lookup o (psFates st)), (lookup o (psFates st')); try reflexivity.
  exfalso. apply H; congruence.
Qed.
Lemma count_le st st' : (forall o, lookup o (psFates st) <> None -> lookup o (psFates st') <> None) -> (count st' <= count st)%nat.
Proof.
  intros H. unfold count. induction (offs P) as [|o r IH]; [reflexivity|]. cbn [filter].
  pose proof (fresh_mono st st' o (H o)).
  destruct (fresh_b st' o), (fresh_b st o); cbn [length]; try lia; discriminate.
Qed.
Lemma count_lt st st' off : In off (offs P) -> lookup off (psFates st) = None -> lookup off (psFates st') <> None ->
  (forall o, lookup o (psFates st) <> None -> lookup o (psFates st') <> None) -> (count st' < count st)%nat.
Proof.
  intros I N S H. unfold count.
  assert (LE : forall l, (length (filter (fresh_b st') l) <= length (filter (fresh_b st) l))%nat).
  { induction l as [|o r IH]; [reflexivity|]. cbn [filter].
    pose proof (fresh_mono st st' o (H o)).
    destruct (fresh_b st' o), (fresh_b st o); cbn [length]; try lia; discriminate. }
  apply in_split in I as (A & B & ->). rewrite !filter_app, !app_length. cbn [filter].
  assert (fresh_b st off = true) as -> by (unfold fresh_b; rewrite N; reflexivity).
  assert (fresh_b st' off = false) as -> by (unfold fresh_b; destruct (lookup off (psFates st')); congruence).
  pose proof (LE A). pose proof (LE B). cbn [length]. lia.
Qed.

Lemma mono_trans a b c : mono a b -> mono b c -> mono a c.
Proof. unfold mono. auto. Qed.
Lemma mono_refl a : mono a a.
Proof. unfold mono. auto. Qed.
Lemma entry_mono st st' off : mono st st' -> entry st off -> entry st' off.
Proof. intros M [H|(p & e & b & D & H)]; [left; exact H|right]. exists p, e, b. auto. Qed.

(** what a call of [parse_at] with [d] nested calls left guarantees *)
Definition spec (d : nat) (rec : pstate -> Z -> res (pstate * Z)) : Prop :=
  forall st off pend W, In off (offs P) -> entered starts P off ->
  INV pend [] (fun s => s = off \/ W s) st ->
  match rec st off with
  | Ok (st', f) => INV pend [] W st' /\ mono st st' /\ dom st' off /\ 1 <= f <= 3
                   /\ (f = RETURN -> has_ret) /\ (returns P off -> f = RETURN)
  | Err e => (e = RecursionError /\ (d <= count st)%nat) \/ (e = EOFError /\ open_end)
  end.

(** the loop *)
Definition loop_spec (d : nat) (r : res (pstate * Z)) st off pend (W : Z -> Prop) : Prop :=
  match r with
  | Ok (st', f) => INV pend [] W st' /\ mono st st' /\ dom st' off /\ 1 <= f <= 3
                   /\ (f = RETURN -> has_ret) /\ (returns P off -> f = RETURN)
  | Err e => (e = RecursionError /\ (d < count st)%nat) \/ (e = EOFError /\ open_end)
  end.

Hypothesis SB : forall o, In o starts -> In o (offs P).

Lemma entered_in o : entered starts P o -> In o (offs P).
Proof.
  intros [H|(p & e & b & I & R)]; [apply SB; exact H|].
  destruct (g_ev _ _ G _ _ _ I) as (_ & _ & _ & _ & _ & _ & K).
  destruct K as (d & E & K); [destruct e; cbn in R |- *; congruence|]. congruence.
Qed.
Lemma in_lt o : In o (offs P) -> 0 <= o < zlen data.
Proof.
  intros H. apply offs_in in H as (e & b & H). pose proof (at_range _ _ _ H). pose proof (at_len _ _ _ H). lia.
Qed.

Lemma step_plain rec st off mine e b : In (off, e, b) P -> has_ref e = false -> is_end e = false ->
  parse_step rec data st off mine = Ok (set_fate off INPROGRESS (set_event off e st), inr (off + zlen b)).
Proof.
  intros I R N. destruct (at_plain _ _ _ I R) as (t & T & Gt & FD).
  destruct (at_len _ _ _ I) as [DL _]. destruct (g_ev _ _ G _ _ _ I) as (F & _ & _ & W & _).
  unfold parse_step. rewrite Gt. cbn [bind]. rewrite FD. cbn [bind]. rewrite DL. cbn [bind].
  assert (t <> 0x93 /\ t <> 0x94 /\ t <> 0x95 /\ t <> 0xFD /\ t <> 0xFF) as (N1 & N2 & N3 & N4 & N5).
  { apply fits_b in F. destruct e; cbn [ev_type has_ref is_end is_raw ev_fitsb] in *; try discriminate; injection T as <-;
      unfold is_arith, is_byte1, is_word1, is_bare in *; lia. }
  repeat match goal with |- context [t =? ?x] => destruct (Z.eqb_spec t x); [contradiction|] end.
  reflexivity.
Qed.
Lemma step_return rec st off mine b : In (off, Bare 0xFD, b) P ->
  parse_step rec data st off mine
  = Ok (set_fates mine RETURN (set_fate off RETURN (set_event off (Bare 0xFD) st)), inl RETURN).
Proof.
  intros I. destruct (at_plain _ _ _ I eq_refl) as (t & T & Gt & FD). injection T as <-.
  unfold parse_step. rewrite Gt. reflexivity.
Qed.
Lemma step_eot rec st off mine b : In (off, Bare 0xFF, b) P ->
  parse_step rec data st off mine
  = Ok (set_fates mine EOT (set_fate off EOT (set_event off (Bare 0xFF) st)), inl EOT).
Proof.
  intros I. destruct (at_plain _ _ _ I eq_refl) as (t & T & Gt & FD). injection T as <-.
  unfold parse_step. rewrite Gt. reflexivity.
Qed.

Lemma part_of_if_ok pend mine W st p b0 : INV pend mine W st -> In (p, Bare 0xA2, b0) P -> dom st p ->
  part_of_if st (p + 1) = true.
Proof.
  intros IV I D. unfold part_of_if. pose proof (at_range _ _ _ I).
  replace (Z.to_nat (p + 1)) with (S (Z.to_nat p)) by lia. cbn [prev_event].
  rewrite Z2Nat.id by lia. unfold dom in D. destruct (lookup p (psEvents st)) as [e|] eqn:L; [|congruence].
  destruct (i_ev _ _ _ _ IV _ _ L) as (e' & b & I' & K). destruct (at_fun _ _ _ _ _ I I') as [<- _].
  destruct K as [[-> _]|[_ ->]]; reflexivity.
Qed.

(** visiting an event that has a destination, up to the recursive call *)
Lemma visit_ref d rec st off mine pend (W : Z -> Prop) e b d0 :
  spec d rec -> In (off, e, b) P -> has_ref e = true -> ev_ref e = Some d0 -> In d0 (offs P) ->
  lookup off (psFates st) = None ->
  INV pend mine (fun s => s = off \/ W s) st ->
  (forall o, In o mine -> ~ returns P o) ->
  match rec (set_fate off INPROGRESS (set_event off (unref e) st)) d0 with
  | Ok (st', f) =>
      INV pend [] (fun s => W s \/ (s = off + zlen b /\ flows starts P off s)) (set_event off e st')
      /\ mono st (set_event off e st') /\ ev_at st' d0 <> Err KeyError /\ dom (set_event off e st') d0 /\ dom (set_event off e st') off /\ 1 <= f <= 3
      /\ (f = RETURN -> has_ret) /\ (returns P d0 -> f = RETURN)
      /\ (count (set_event off e st') < count st)%nat
  | Err x => (x = RecursionError /\ (d < count st)%nat) \/ (x = EOFError /\ open_end)
  end.
Proof.
  intros SP I HR RF ID LN IV HM.
  assert (NR : ~ returns P off).
  { apply (returns_control _ _ _ I); [unfold is_control; rewrite HR; reflexivity|]. intros ->. discriminate. }
  set (st1 := set_fate off INPROGRESS (set_event off (unref e) st)).
  assert (IV1 : INV (off :: pend) [] (fun s => s = d0 \/ (W s \/ (s = off + zlen b /\ flows starts P off s))) st1).
  { assert (IV0 : INV pend [] (fun s => s = off \/ W s) st).
    { apply (INV_weaken _ _ _ _ _ _ _ IV); [auto|intros x Hx R; exfalso; apply (HM x Hx R)|auto]. }
    pose proof (INV_visit pend (off :: pend) [] [] W st off e b (unref e) INPROGRESS IV0 I) as V.
    fold st1 in V.
    eapply INV_weaken; [apply V| | |].
    - right. split; [left; reflexivity|reflexivity].
    - intros x Hx. right. exact Hx.
    - auto.
    - unfold INPROGRESS. lia.
    - unfold INPROGRESS, RETURN. discriminate.
    - intros R. contradiction.
    - auto.
    - auto.
    - intros x [Hx|Hx]; [right; right; left; exact Hx|].
      destruct (flows_inv _ _ _ _ I Hx) as [K|[(n & r & _ & K)|[K|[(r & p & b0 & _ & _ & _ & _ & K)|(dd & _ & _ & K)]]]].
      + right. right. right. destruct K as [_ K]. auto.
      + right. right. right. auto.
      + right. left. congruence.
      + right. right. right. auto.
      + right. right. right. auto. }
  assert (CL : (count st1 < count st)%nat).
  { apply count_lt with off.
    - eapply in_offs. exact I.
    - exact LN.
    - unfold st1, set_fate. cbn [psFates]. rewrite lookup_cons, Z.eqb_refl. discriminate.
    - intros o. unfold st1, set_fate, set_event. cbn [psFates]. rewrite lookup_cons. destruct (off =? o); [discriminate|auto]. }
  assert (EN : entered starts P d0) by (right; exists off, e, b; auto).
  pose proof (SP st1 d0 (off :: pend) (fun s => W s \/ (s = off + zlen b /\ flows starts P off s)) ID EN IV1) as Q.
  destruct (rec st1 d0) as [[st' f]|x].
  - destruct Q as (Q1 & Q2 & Q3 & Q4 & Q5 & Q6).
    assert (D1 : dom st' off) by (apply Q2, dom_visit; left; reflexivity).
    split; [|split; [|split; [|split; [|split; [|split; [|split; [|split]]]]]]].
    + eapply INV_patch; eassumption.
    + intros o Ho. apply dom_event; [exact D1|]. apply Q2, dom_visit. right. exact Ho.
    + unfold ev_at. unfold dom in Q3. destruct (lookup d0 (psEvents st')); congruence.
    + apply dom_event; assumption.
    + apply dom_event; assumption.
    + exact Q4.
    + exact Q5.
    + exact Q6.
    + apply Nat.le_lt_trans with (count st1); [|exact CL].
      apply count_le. intros o Ho. cbn [set_event psFates].
      apply (i_dom _ _ _ _ Q1). apply Q2. apply (i_dom _ _ _ _ IV1). exact Ho.
  - destruct Q as [[-> Q]|Q]; [left|right; exact Q]. split; [reflexivity|lia].
Qed.

Lemma parse_loop_ok d rec : spec d rec -> forall fuel st off mine pend W,
  zlen data - off < Z.of_nat fuel -> In off (offs P) \/ off = zlen data -> entry st off ->
  INV pend mine (fun s => s = off \/ W s) st ->
  (forall o, In o mine -> o < off /\ dom st o) ->
  (forall o, In o mine -> returns P o -> returns P off) ->
  loop_spec d (parse_loop rec data fuel st off mine) st off pend W.
Proof.
  intros SP. induction fuel as [|k IH]; intros st off mine pend W FU OB EN IV HM HS.
  { exfalso. destruct OB as [OB|OB]; [apply in_lt in OB|]; lia. }
  cbn [parse_loop].
  destruct OB as [OB|OB].
  2:{ replace (off <? zlen data) with false by lia. cbn [negb loop_spec]. right. split; [reflexivity|].
      destruct EN as [EN|(p & e & b & _ & I & E & L)].
      - apply entered_in, in_lt in EN. lia.
      - exists p, e, b. subst off. auto. }
  pose proof (in_lt _ OB) as LT. replace (off <? zlen data) with true by lia. cbn [negb].
  destruct (lookup off (psFates st)) as [f|] eqn:LF.
  { (* already parsed *)
    assert (D : dom st off) by (apply (i_dom _ _ _ _ IV); congruence).
    destruct (i_val _ _ _ _ IV _ _ LF) as [V1 V2].
    assert (R : returns P off -> f = RETURN).
    { intros R. destruct (i_ret _ _ _ _ IV _ _ R LF) as [|K]; [assumption|]. apply HM in K. lia. }
    unfold loop_spec, INPROGRESS, LOOP, RETURN in *.
    assert (R' : returns P off -> (if f =? 0 then 2 else f) = 1).
    { intros K. rewrite (R K). reflexivity. }
    split; [|split; [|split; [|split; [|split]]]].
    - apply INV_fates with mine.
      + apply (INV_weaken _ _ _ _ _ _ _ IV); [auto|auto|]. intros x [->|H]; [left; exact D|right; exact H].
      + intros o Ho. apply HM, Ho.
      + auto.
      + destruct (Z.eqb_spec f 0); lia.
      + intros H. apply V2. destruct (Z.eqb_spec f 0); unfold RETURN in *; lia.
      + intros o Ho Ro. apply R'. apply (HS o Ho Ro).
    - intros o Ho. apply dom_fates. exact Ho.
    - apply dom_fates. exact D.
    - destruct (Z.eqb_spec f 0); lia.
    - intros H. apply V2. destruct (Z.eqb_spec f 0); lia.
    - exact R'. }
  destruct (offs_in _ OB) as (e & b & I). destruct (at_len _ _ _ I) as [DL LB].
  destruct (has_ref e) eqn:HR.
  - (* an event with a destination *)
    assert (NR : ~ returns P off).
    { apply (returns_control _ _ _ I); [unfold is_control; rewrite HR; reflexivity|]. intros ->. discriminate. }
    assert (NM : forall o, In o mine -> ~ returns P o) by (intros o Ho R; apply NR, (HS o Ho R)).
    destruct (at_ref _ _ _ I HR) as (d0 & RF & ID & AT).
    pose proof (visit_ref d rec st off mine pend W e b d0 SP I HR RF ID LF IV NM) as V.
    assert (CONT : forall st', 
      INV pend [] (fun s => s = off + zlen b \/ W s) st' -> mono st st' -> dom st' off -> (count st' < count st)%nat ->
      loop_spec d (parse_loop rec data k st' (off + zlen b) (mine ++ [off])) st off pend W).
    { intros st' IV' MO DO CL.
      assert (L : loop_spec d (parse_loop rec data k st' (off + zlen b) (mine ++ [off])) st' (off + zlen b) pend W).
      { apply IH.
        - lia.
        - destruct (at_next _ _ _ I); auto.
        - right. exists off, e, b. split; [exact DO|]. split; [exact I|]. split; [|reflexivity].
          destruct e; try discriminate HR; reflexivity.
        - apply (INV_weaken _ _ _ _ _ _ _ IV'); [auto|intros x []|auto].
        - intros o Ho. apply in_app_or in Ho as [Ho|[<-|[]]].
          + destruct (HM o Ho). split; [lia|]. apply MO. assumption.
          + split; [lia|exact DO].
        - intros o Ho R. exfalso. apply in_app_or in Ho as [Ho|[<-|[]]]; [apply (NM o Ho R)|apply NR, R]. }
      unfold loop_spec in L |- *. destruct (parse_loop rec data k st' (off + zlen b) (mine ++ [off])) as [[st2 f]|x].
      - destruct L as (L1 & L2 & L3 & L4 & L5 & L6). split; [exact L1|]. split; [eapply mono_trans; eassumption|].
        split; [apply L2, DO|]. split; [exact L4|]. split; [exact L5|]. intros R. contradiction.
      - destruct L as [[-> L]|L]; [left; split; [reflexivity|lia]|right; exact L]. }
    assert (RET : forall st' f, INV pend [] W st' -> mono st st' -> dom st' off -> 1 <= f <= 3 -> (f = RETURN -> has_ret) ->
      loop_spec d (Ok (st', f)) st off pend W).
    { intros st' f R1 R2 R3 R4 R5. unfold loop_spec. split; [exact R1|]. split; [exact R2|]. split; [exact R3|]. split; [exact R4|].
      split; [exact R5|]. intros R. contradiction. }
    assert (ERR : forall x, (x = RecursionError /\ (d < count st)%nat) \/ (x = EOFError /\ open_end) ->
      loop_spec d (Err x) st off pend W) by (intros x H; exact H).
    destruct e as [ | | |n r|r|r| | | | | | | | ]; try discriminate HR; cbn [ev_ref] in RF; subst r.
    + (* BeginTrack *)
      destruct AT as (A1 & A2 & A3 & A4). cbn [unref map_ref] in V.
      unfold parse_step. rewrite A1. cbn [bind]. cbn [Z.eqb Pos.eqb]. rewrite A2. cbn [bind]. rewrite A3.
      destruct (rec (set_fate off INPROGRESS (set_event off (BeginTrack n None) st)) d0) as [[st' f]|x].
      2:{ cbn [bind]. destruct V as [[-> V]|[-> V]]; cbn [eof bind]; apply ERR; auto. }
      destruct V as (V1 & V2 & V0 & V3 & V4 & V5 & V6 & V7 & V8). cbn [bind].
      unfold ev_at in *. destruct (lookup d0 (psEvents st')); [|congruence]. cbn [bind eof].
      rewrite <- A4. apply CONT; [|exact V2|exact V4|exact V8].
      apply (INV_weaken _ _ _ _ _ _ _ V1); [auto|auto|]. tauto.
    + (* Jump *)
      destruct AT as (A1 & A3 & A4). cbn [unref map_ref] in V.
      unfold parse_step. rewrite A1. cbn [bind]. cbn [Z.eqb Pos.eqb]. rewrite A3.
      destruct (rec (set_fate off INPROGRESS (set_event off (Jump None) st)) d0) as [[st' f]|x].
      2:{ cbn [bind]. destruct V as [[-> V]|[-> V]]; cbn [eof bind]; apply ERR; auto. }
      destruct V as (V1 & V2 & V0 & V3 & V4 & V5 & V6 & V7 & V8). cbn [bind].
      unfold ev_at in *. destruct (lookup d0 (psEvents st')); [|congruence]. cbn [bind].
      set (st2 := set_event off (Jump (Some d0)) st') in *.
      assert (IV2 : INV pend [] (fun s => W s \/ (s = off + zlen b /\ flows starts P off s)) (set_fates mine f st2)).
      { apply INV_fates with []; [exact V1| | |lia|exact V6|].
        - intros o Ho. apply V2, HM, Ho.
        - intros o [].
        - intros o Ho R. exfalso. apply (NM o Ho R). }
      assert (M2 : mono st (set_fates mine f st2)) by (intros o Ho; apply dom_fates; apply V2; exact Ho).
      assert (D2 : dom (set_fates mine f st2) off) by (apply dom_fates; exact V4).
      assert (C2 : (count (set_fates mine f st2) < count st)%nat).
      { apply Nat.le_lt_trans with (count st2); [|exact V8]. apply count_le. intros o Ho.
        rewrite set_fates_lookup. destruct (existsb _ _); [discriminate|exact Ho]. }
      destruct (part_of_if (set_fates mine f st2) off) eqn:PI; cbn [eof bind].
      * rewrite <- A4. apply CONT; [|exact M2|exact D2|exact C2].
        apply (INV_weaken _ _ _ _ _ _ _ IV2); [auto|auto|]. tauto.
      * apply RET; [|exact M2|exact D2|exact V5|exact V6].
        apply (INV_weaken _ _ _ _ _ _ _ IV2); [auto|auto|]. intros x [H|[-> H]]; [right; exact H|].
        destruct (flows_inv _ _ _ _ I H) as [[K _]|[(n & r & K & _)|[K|[(r & p & b0 & _ & K1 & K2 & K3 & _)|(dd & K & _)]]]].
        -- discriminate K.
        -- discriminate K.
        -- (* the destination is the next event *)
           cbn [ev_ref] in K. injection K as <-. left. apply dom_fates. exact V3.
        -- exfalso. destruct EN as [EN|(q & eq & bq & Dq & Iq & Nq & Lq)]; [contradiction|].
           assert (q = p) as ->.
           { pose proof (at_len _ _ _ Iq) as [_ Lbq]. pose proof (at_len _ _ _ K2) as [DLp Lbp].
             cbn [dataLength] in DLp. assert (zlen b0 = 1) by congruence.
             destruct (Z.lt_trichotomy q p) as [Q|[Q|Q]]; [|exact Q|].
             - pose proof (at_before _ _ _ _ _ _ Iq K2 Q). lia.
             - pose proof (at_before _ _ _ _ _ _ K2 Iq Q). lia. }
           rewrite <- K1 in PI. rewrite (part_of_if_ok _ _ _ _ _ _ IV2 K2) in PI; [discriminate|].
           apply M2, Dq.
        -- discriminate K.
    + (* Call *)
      destruct AT as (A1 & A3 & A4). cbn [unref map_ref] in V.
      unfold parse_step. rewrite A1. cbn [bind]. cbn [Z.eqb Pos.eqb]. rewrite A3.
      destruct (rec (set_fate off INPROGRESS (set_event off (Call None) st)) d0) as [[st' f]|x].
      2:{ cbn [bind]. destruct V as [[-> V]|[-> V]]; cbn [eof bind]; apply ERR; auto. }
      destruct V as (V1 & V2 & V0 & V3 & V4 & V5 & V6 & V7 & V8). cbn [bind].
      unfold ev_at in *. destruct (lookup d0 (psEvents st')); [|congruence]. cbn [bind].
      set (st2 := set_event off (Call (Some d0)) st') in *.
      assert (MR : forall o, In o mine -> dom st2 o) by (intros o Ho; apply V2, HM, Ho).
      assert (GO : loop_spec d (parse_loop rec data k st2 (off + 4) (mine ++ [off])) st off pend W).
      { rewrite <- A4. apply CONT; [|exact V2|exact V4|exact V8].
        apply (INV_weaken _ _ _ _ _ _ _ V1); [auto|auto|]. tauto. }
      assert (STOP : f <> RETURN -> loop_spec d (Ok (set_fates mine f (set_fate off f st2), f)) st off pend W).
      { intros NF.
        assert (ES : set_fates mine f (set_fate off f st2) = set_fates (off :: mine) f st2) by reflexivity.
        rewrite ES. apply RET; [| |apply dom_fates; exact V4|exact V5|exact V6].
        - apply INV_fates with []; [| | |lia|exact V6|].
          + apply (INV_weaken _ _ _ _ _ _ _ V1); [auto|auto|]. intros x [H|[-> H]]; [right; exact H|].
            destruct (flows_inv _ _ _ _ I H) as [[K _]|[(n & r & K & _)|[K|[(r & p & b0 & K & _)|(dd & K & KR & _)]]]];
              try discriminate K.
            * left. cbn [ev_ref] in K. injection K as <-. exact V3.
            * exfalso. injection K as <-. apply NF, V7, KR.
          + intros o [<-|Ho]; [exact V4|apply MR, Ho].
          + intros o [].
          + intros o [<-|Ho] R; exfalso; [apply NR, R|apply (NM o Ho R)].
        - intros o Ho. apply dom_fates, V2, Ho. }
      unfold EOT, RETURN, LOOP in *.
      destruct (Z.eqb_spec f 3); [cbn [eof bind]; apply STOP; lia|].
      destruct (Z.eqb_spec f 1); [cbn [eof bind]; exact GO|].
      destruct (Z.eqb_spec f 2); [cbn [eof bind]; apply STOP; lia|]. lia.
  - destruct (is_end e) eqn:IE.
    + (* Return, EndTrack *)
      destruct e; try discriminate IE. cbn [is_end] in IE.
      assert (STOP : forall f, 1 <= f <= 3 -> (f = RETURN -> has_ret) -> (returns P off -> f = RETURN) ->
        loop_spec d (Ok (set_fates mine f (set_fate off f (set_event off (Bare type) st)), f)) st off pend W).
      { intros f F1 F2 F3. unfold loop_spec.
        assert (DV : forall o, dom (set_fate off f (set_event off (Bare type) st)) o <-> o = off \/ dom st o)
          by (intros o; apply dom_visit).
        split; [|split; [|split; [|split; [|split]]]].
        - apply INV_fates with mine.
          + pose proof (INV_visit pend pend mine mine W st off (Bare type) b (Bare type) f IV I) as V.
            eapply INV_weaken; [apply V; auto; lia|auto|auto|].
            intros x [H|H]; [right; exact H|].
            destruct (flows_inv _ _ _ _ I H) as [[K _]|[(n & r & K & _)|[K|[(r & p & b0 & K & _)|(dd & K & KR & _)]]]];
              try discriminate K.
            unfold is_control in K. cbn [is_end] in K. rewrite IE in K. discriminate K.
          + intros o Ho. apply DV. right. apply HM, Ho.
          + auto.
          + lia.
          + exact F2.
          + intros o Ho R. apply F3, (HS o Ho R).
        - intros o Ho. apply dom_fates, DV. right. exact Ho.
        - apply dom_fates, DV. left. reflexivity.
        - exact F1.
        - exact F2.
        - exact F3. }
      destruct (Z.eqb_spec type 0xFD) as [->|N1].
      * rewrite (step_return rec st off mine b I). cbn [eof bind]. apply STOP; unfold RETURN; [lia| |reflexivity].
        intros _. exists off, b. exact I.
      * destruct (Z.eqb_spec type 0xFF) as [->|N2]; [|discriminate IE].
        rewrite (step_eot rec st off mine b I). cbn [eof bind]. apply STOP; unfold RETURN, EOT; [lia|discriminate|].
        intros R. exfalso. revert R. apply (returns_control _ _ _ I); [reflexivity|discriminate].
    + (* a plain event *)
      rewrite (step_plain rec st off mine e b I HR IE). cbn [eof bind].
      set (st1 := set_fate off INPROGRESS (set_event off e st)).
      assert (DV : forall o, dom st1 o <-> o = off \/ dom st o) by (intros o; apply dom_visit).
      assert (IC : is_control e = false) by (unfold is_control; rewrite HR, IE; reflexivity).
      assert (RN : ev_ref e = None) by (destruct e; try discriminate HR; reflexivity).
      assert (CL : (count st1 < count st)%nat).
      { apply count_lt with off.
        - exact OB.
        - exact LF.
        - unfold st1, set_fate. cbn [psFates]. rewrite lookup_cons, Z.eqb_refl. discriminate.
        - intros o. unfold st1, set_fate, set_event. cbn [psFates]. rewrite lookup_cons. destruct (off =? o); [discriminate|auto]. }
      assert (L : loop_spec d (parse_loop rec data k st1 (off + zlen b) (mine ++ [off])) st1 (off + zlen b) pend W).
      { apply IH.
        - lia.
        - destruct (at_next _ _ _ I); auto.
        - right. exists off, e, b. split; [apply DV; left; reflexivity|]. auto.
        - pose proof (INV_visit pend pend mine (mine ++ [off]) W st off e b e INPROGRESS IV I) as V. fold st1 in V.
          eapply INV_weaken; [apply V| | |].
          + left. auto.
          + auto.
          + intros x Hx. apply in_or_app. left. exact Hx.
          + unfold INPROGRESS. lia.
          + unfold INPROGRESS, RETURN. discriminate.
          + intros _. right. apply in_or_app. right. left. reflexivity.
          + auto.
          + auto.
          + intros x [H|H]; [right; right; exact H|].
            destruct (flows_inv _ _ _ _ I H) as [[_ K]|[(n & r & K & _)|[K|[(r & p & b0 & K & _)|(dd & K & KR & _)]]]].
            * right. left. exact K.
            * subst e. discriminate HR.
            * congruence.
            * subst e. discriminate HR.
            * subst e. discriminate HR.
        - intros o Ho. apply in_app_or in Ho as [Ho|[<-|[]]].
          + destruct (HM o Ho). split; [lia|]. apply DV. right. assumption.
          + split; [lia|apply DV; left; reflexivity].
        - intros o Ho R. apply in_app_or in Ho as [Ho|[<-|[]]]; apply (returns_plain _ _ _ I); auto. apply (HS o Ho R). }
      unfold loop_spec in L |- *. destruct (parse_loop rec data k st1 (off + zlen b) (mine ++ [off])) as [[st2 f]|x].
      * destruct L as (L1 & L2 & L3 & L4 & L5 & L6). split; [exact L1|].
        split; [intros o Ho; apply L2, DV; right; exact Ho|].
        split; [apply L2, DV; left; reflexivity|]. split; [exact L4|]. split; [exact L5|].
        intros R. apply L6. apply (returns_plain _ _ _ I R IC).
      * destruct L as [[-> L]|L]; [left; split; [reflexivity|lia]|right; exact L].
Qed.

Lemma parse_at_ok d : spec d (parse_at d data).
Proof.
  induction d as [|d IH]; intros st off pend W OB EN IV; cbn [parse_at].
  - left. split; [reflexivity|lia].
  - pose proof (in_lt _ OB).
    pose proof (parse_loop_ok d (parse_at d data) IH (S (Z.to_nat (zlen data - off))) st off [] pend W) as L.
    unfold loop_spec in L. apply L; [lia|left; exact OB|left; exact EN|exact IV|intros o []|intros o []].
Qed.

(** all the starts *)
Lemma parse_starts_ok d sts : forall st,
  (forall o, In o sts -> In o starts) ->
  INV [] [] (fun s => In s sts) st ->
  match foldM (fun st start => ' (st, fate) <- parse_at d data st start ;;
                 _ <- guard ((fate =? EOT) || (fate =? LOOP)) AssertionError ;; Ok st) st sts with
  | Ok st' => INV [] [] (fun _ => False) st' /\ mono st st' /\ forall o, In o sts -> dom st' o
  | Err e => (e = RecursionError /\ (d <= count st)%nat) \/ (e = EOFError /\ open_end)
             \/ (e = AssertionError /\ has_ret)
  end.
Proof.
  induction sts as [|o r IH]; intros st HI IV; cbn [foldM].
  - split; [|split; [apply mono_refl|intros o []]]. apply (INV_weaken _ _ _ _ _ _ _ IV); auto.
  - assert (IO : In o starts) by (apply HI; left; reflexivity).
    pose proof (parse_at_ok d st o [] (fun s => In s r) (SB _ IO) (or_introl IO)) as S.
    specialize (S ltac:(apply (INV_weaken _ _ _ _ _ _ _ IV); [auto|auto|intros x [<-|H]; auto])).
    destruct (parse_at d data st o) as [[st' f]|e]; cbn [bind]; [|tauto].
    destruct S as (S1 & S2 & S3 & S4 & S5 & S6).
    destruct ((f =? EOT) || (f =? LOOP)) eqn:FF; cbn [guard bind].
    + specialize (IH st' ltac:(intros x Hx; apply HI; right; exact Hx) S1).
      destruct (foldM _ st' r) as [st2|e].
      * destruct IH as (I1 & I2 & I3). split; [exact I1|]. split; [eapply mono_trans; eassumption|].
        intros x [<-|Hx]; auto.
      * destruct IH as [[-> K]|K]; [left|right; exact K]. split; [reflexivity|].
        apply Nat.le_trans with (count st'); [exact K|]. apply count_le. intros x Hx.
        apply (i_dom _ _ _ _ S1), S2, (i_dom _ _ _ _ IV). exact Hx.
    + right. right. split; [reflexivity|]. apply S5. unfold EOT, LOOP, RETURN in *. lia.
Qed.
End Parse.

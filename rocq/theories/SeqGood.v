(** Proofs about the sequence model, part 6: saving what was read from arbitrary bytes *)
From Verif Require Import PyBase PyLemmas PyTac Lz10Lemmas Gfx2DLemmas WaveLemmas SeqModel SeqSpec SeqLemmas SeqSave SeqParse SeqRead SeqTotal.
From Coq Require Import ZifyBool.
Ltac Zify.zify_post_hook ::= idtac.

Lemma vl_loop_range fuel : forall data off v len r, 0 <= len <= 4 -> 0 <= v < 2 ^ (7 * (len + 1)) ->
  vl_loop fuel data off v len = Ok r -> 0 <= r < 2 ^ 35.
Proof.
  induction fuel as [|k IH]; intros data off v len r L V H; [discriminate|]. cbn [vl_loop] in H.
  destruct (get data (off - 1)) as [c|]; [|discriminate]. cbn [bind] in H.
  destruct (_ =? 0).
  { injection H as <-. assert (2 ^ (7 * (len + 1)) <= 2 ^ 35) by (apply Z.pow_le_mono_r; lia). lia. }
  destruct (get data off) as [b|]; [|discriminate]. cbn [bind] in H.
  destruct (4 <? len + 1) eqn:Q; [discriminate|].
  eapply IH; [| |exact H]; [lia|]. rewrite shl7_lor. pose proof (Z.mod_pos_bound b 128 ltac:(lia)).
  replace (7 * (len + 1 + 1)) with (7 * (len + 1) + 7) by lia. rewrite Z.pow_add_r by lia. change (2 ^ 7) with 128. nia.
Qed.
Lemma vl_read_range data off r : vl_read data off = Ok r -> 0 <= r < 2 ^ 35.
Proof.
  unfold vl_read. destruct (get data off) as [b|]; [|discriminate]. cbn [bind]. intros H.
  eapply vl_loop_range; [| |exact H]; [lia|]. change (2 ^ (7 * (0 + 1))) with 128. rewrite land127. apply Z.mod_pos_bound. lia.
Qed.
Lemma random_sub s n : 0 <= s < 256 -> random_length s = Ok n -> sub_args s = Some (n - 6).
Proof.
  intros R E.
  assert (S : match sub_args s, random_length s with Some n, Ok m => m =? 6 + n | _, Ok _ => false | _, _ => true end = true).
  { apply (sweep 256 (fun s => match sub_args s, random_length s with
                           | Some n, Ok m => m =? 6 + n | _, Ok _ => false | _, _ => true end)); [vm_compute; reflexivity|lia]. }
  rewrite E in S. destruct (sub_args s); [|discriminate]. apply Z.eqb_eq in S. f_equal. lia.
Qed.
Lemma mapM_get_bytes data (f : Z -> Z) l r : is_bytes data -> mapM (fun i => get data (f i)) l = Ok r -> is_bytes r /\ zlen r = zlen l.
Proof.
  intros B. revert r. induction l as [|x l IH]; intros r H; cbn [mapM] in H.
  - injection H as <-. split; [constructor|reflexivity].
  - destruct (get data (f x)) as [b|] eqn:G; [|discriminate]. cbn [bind] in H.
    destruct (mapM _ l) as [t|]; [|discriminate]. cbn [bind] in H. injection H as <-.
    destruct (IH t eq_refl) as [I1 I2]. split; [constructor; [exact (get_is_byte _ _ _ B G)|exact I1]|rewrite !zlen_cons, I2; reflexivity].
Qed.
Lemma unpack_s_range2 data off v : is_bytes data -> unpack_s 2 data off = Ok v -> i16 v.
Proof.
  unfold unpack_s. intros B H. destruct (unpack_u 2 data off) as [u|] eqn:E; [|discriminate]. cbn [bind] in H.
  apply unpack_u_range in E; [|exact B]. change (256 ^ Z.of_nat 2) with 65536 in E. injection H as <-.
  unfold sign_of, i16. change (256 ^ Z.of_nat 2) with 65536. change (65536 / 2) with 32768.
  match goal with |- context [if ?c then _ else _] => destruct c eqn:Q end; lia.
Qed.
Lemma unpack_s_range1 data off v : is_bytes data -> unpack_s 1 data off = Ok v -> i8 v.
Proof.
  unfold unpack_s. intros B H. destruct (unpack_u 1 data off) as [u|] eqn:E; [|discriminate]. cbn [bind] in H.
  apply unpack_u_range in E; [|exact B]. change (256 ^ Z.of_nat 1) with 256 in E. injection H as <-.
  unfold sign_of, i8. change (256 ^ Z.of_nat 1) with 256. change (256 / 2) with 128.
  match goal with |- context [if ?c then _ else _] => destruct c eqn:Q end; lia.
Qed.
Lemma filter_range_ascending (f : Z -> bool) n : forall a,
  ascending (filter f (range_z a n)) /\ Forall (fun t => a <= t < a + Z.of_nat n) (filter f (range_z a n)).
Proof.
  induction n as [|n IH]; intros a; cbn [range_z filter]; [split; constructor|].
  destruct (IH (a + 1)) as [I1 I2].
  assert (I3 : Forall (fun t => a <= t < a + Z.of_nat (S n)) (filter f (range_z (a + 1) n)))
    by (eapply Forall_impl; [|exact I2]; cbv beta; intros; lia).
  destruct (f a); [|split; assumption]. split; [|constructor; [lia|exact I3]].
  cbn [ascending]. split; [|exact I1]. destruct (filter f (range_z (a + 1) n)); [exact I|].
  inversion_clear I2. lia.
Qed.

Definition nice (e : ev) : Prop := ev_fits e /\ ev_small e /\ is_raw e = false.

Lemma fromData_nice t data off e : is_bytes data -> 0 <= t < 256 -> fromData t data off = Ok e -> nice e /\ has_ref e = false.
Proof.
  intros B T H. unfold fromData in H. unfold nice.
  repeat lazymatch type of H with
  | (if ?c then _ else _) = _ => let Q := fresh "Q" in destruct c eqn:Q
  | (bind ?a _ = Ok _) => let Q := fresh "Q" in destruct a eqn:Q; cbn [bind] in H; [|discriminate H]
  | Err _ = _ => discriminate H
  | Ok _ = _ => apply ok_inj in H; rewrite <- H; clear H
  end; rewrite fits_b; cbn [ev_fitsb ev_small is_raw has_ref];
  repeat match goal with
  | Q : vl_read _ _ = Ok _ |- _ => apply vl_read_range in Q
  | Q : unpack_s 2 _ _ = Ok _ |- _ => apply unpack_s_range2 in Q; [|exact B]
  | Q : unpack_s 1 _ _ = Ok _ |- _ => apply unpack_s_range1 in Q; [|exact B]
  | Q : unpack_u 2 _ _ = Ok _ |- _ => apply unpack_u_range in Q; [|exact B]; change (256 ^ Z.of_nat 2) with 65536 in Q
  | Q : unpack_u 1 _ _ = Ok _ |- _ => apply unpack_u_range in Q; [|exact B]; change (256 ^ Z.of_nat 1) with 256 in Q
  | Q : get _ _ = Ok _ |- _ => apply get_is_byte in Q; [|exact B]; unfold is_byte in Q
  | Q : mapM _ (range_z _ _) = Ok _ |- _ => apply mapM_get_bytes in Q; [|exact B]; rewrite zlen_range_z in Q; destruct Q
  end.
  all: match goal with |- context [Z.land ?z 127] => rewrite land127; pose proof (Z.mod_pos_bound z 128 ltac:(lia)) | _ => idtac end.
  3: { rewrite shr7.
    assert (0 <= a / 128 < 2 ^ 28) by (split; [apply Z.div_pos; lia|apply Z.div_lt_upper_bound; [lia|change (128 * 2 ^ 28) with (2 ^ 35); lia]]).
    repeat match goal with |- _ /\ _ => split end; first [assumption|reflexivity|lia]. }
  3: { match goal with Q : random_length _ = Ok _ |- _ => pose proof (random_length_ge _ _ Q); apply random_sub in Q; [|assumption] end.
    repeat match goal with |- _ /\ _ => split end; try first [assumption|reflexivity|lia|exact I].
    match goal with Q : sub_args _ = _ |- _ => rewrite Q end. f_equal. lia. }
  9: { pose proof (filter_range_ascending (fun i => negb (Z.land a (Z.shiftl 1 i) =? 0)) 16 0) as [A1 A2].
    repeat match goal with |- _ /\ _ => split end; first [assumption|reflexivity|exact I]. }
  all: unfold guard in *;
    repeat match goal with Q : (if ?c then Ok tt else Err _) = Ok _ |- _ => destruct c eqn:?; [clear Q|discriminate Q] end.
  all: repeat match goal with |- _ /\ _ => split end; first [assumption|reflexivity|exact I|lia].
Qed.

Section Good.
Variable data : bytes.
Hypothesis BD : is_bytes data.

(** events of the parser state: in range, references resolved to 24-bit offsets
    except for the events that are being parsed *)
Definition good (pend : Z -> Prop) (st : pstate) : Prop := forall o e, lookup o (psEvents st) = Some e ->
  nice e /\ (has_ref e = true -> pend o \/ exists d, ev_ref e = Some d /\ 0 <= d < 2 ^ 24).

Lemma good_weaken (p q : Z -> Prop) st : (forall o, p o -> q o) -> good p st -> good q st.
Proof. intros H G o e L. destruct (G o e L) as [N R]. split; [exact N|]. intros HR. destruct (R HR); auto. Qed.
Lemma good_fate p st o f : good p st -> good p (set_fate o f st).
Proof. intros G. exact G. Qed.
Lemma good_fates p st mine f : good p st -> good p (set_fates mine f st).
Proof. intros G o e. rewrite set_fates_events. apply G. Qed.
Lemma good_event (p : Z -> Prop) st o e : nice e ->
  (has_ref e = true -> p o \/ exists d, ev_ref e = Some d /\ 0 <= d < 2 ^ 24) ->
  good (fun x => p x \/ x = o) st -> good p (set_event o e st).
Proof.
  intros N R G x y. unfold set_event. cbn [psEvents]. rewrite lookup_cons.
  destruct (Z.eqb_spec o x) as [<-|NE]; [intros [= <-]; split; assumption|]. intros L.
  destruct (G x y L) as [G1 G2]. split; [exact G1|]. intros HR. destruct (G2 HR) as [[H|H]|H]; auto. congruence.
Qed.
Lemma unle24 a : 0 <= unle (slice data a (a + 3)) < 2 ^ 24.
Proof.
  pose proof (is_bytes_slice data a (a + 3) BD) as B. pose proof (unle_range _ B) as [H1 H2]. split; [exact H1|].
  eapply Z.lt_le_trans; [exact H2|]. change (2 ^ 24) with (256 ^ 3). apply Z.pow_le_mono_r; [lia|].
  unfold slice, clamp. pose proof (zlen_nonneg data).
  unfold zlen at 1. rewrite firstn_length.
  repeat match goal with |- context [if ?c then _ else _] => destruct c eqn:? end; lia.
Qed.

Lemma step_good rec st off mine p st' n :
  (forall q st o st' f, good q st -> rec st o = Ok (st', f) -> good q st') ->
  good p st -> parse_step rec data st off mine = Ok (st', n) -> good p st'.
Proof.
  intros REC G H. unfold parse_step in H.
  destruct (get data off) as [t|] eqn:GT; [|discriminate]. cbn [bind] in H.
  apply get_is_byte in GT; [|exact BD]. unfold is_byte in GT.
  assert (G' : good (fun x => p x \/ x = off) st) by (eapply good_weaken; [|exact G]; auto).
  assert (V : forall e, nice e -> good (fun x => p x \/ x = off) (set_fate off INPROGRESS (set_event off e st))).
  { intros e N. apply good_fate, good_event; [exact N|auto|]. eapply good_weaken; [|exact G']. cbv beta. tauto. }
  destruct (t =? 0x93) eqn:T1.
  { destruct (get data (off + 1)) as [tn|] eqn:GN; [|discriminate]. cbn [bind] in H.
    apply get_is_byte in GN; [|exact BD]. unfold is_byte in GN.
    destruct (rec _ _) as [[st1 f]|] eqn:R; [|discriminate]. cbn [bind] in H.
    destruct (ev_at _ _); [|discriminate]. cbn [bind] in H. injection H as <- <-.
    assert (N : forall r, nice (BeginTrack tn r)) by (intros; split; [exact GN|split; [exact I|reflexivity]]).
    apply good_event; [apply N| |eapply REC; [|exact R]; apply V, N].
    intros _. right. eexists. split; [reflexivity|]. replace (off + 5) with (off + 2 + 3) by lia. apply unle24. }
  destruct (t =? 0x94) eqn:T2.
  { cbv zeta in H. destruct (rec _ _) as [[st1 f]|] eqn:R; [|discriminate]. cbn [bind] in H.
    destruct (ev_at _ _); [|discriminate]. cbn [bind] in H.
    assert (N : forall r, nice (Jump r)) by (intros; split; [exact I|split; [exact I|reflexivity]]).
    assert (Q : good p (set_event off (Jump (Some (unle (slice data (off + 1) (off + 4))))) st1)).
    { apply good_event; [apply N| |eapply REC; [|exact R]; apply V, N].
      intros _. right. eexists. split; [reflexivity|]. replace (off + 4) with (off + 1 + 3) by lia. apply unle24. }
    destruct (part_of_if _ _); injection H as <- <-; apply good_fates, Q. }
  destruct (t =? 0x95) eqn:T3.
  { cbv zeta in H. destruct (rec _ _) as [[st1 f]|] eqn:R; [|discriminate]. cbn [bind] in H.
    destruct (ev_at _ _); [|discriminate]. cbn [bind] in H.
    assert (N : forall r, nice (Call r)) by (intros; split; [exact I|split; [exact I|reflexivity]]).
    assert (Q : good p (set_event off (Call (Some (unle (slice data (off + 1) (off + 4))))) st1)).
    { apply good_event; [apply N| |eapply REC; [|exact R]; apply V, N].
      intros _. right. eexists. split; [reflexivity|]. replace (off + 4) with (off + 1 + 3) by lia. apply unle24. }
    destruct (f =? EOT); [injection H as <- <-; apply good_fates, good_fate, Q|].
    destruct (f =? RETURN); [injection H as <- <-; exact Q|].
    destruct (f =? LOOP); injection H as <- <-; [apply good_fates, good_fate, Q|exact Q]. }
  destruct (t =? 0xFD).
  { injection H as <- <-. apply good_fates, good_fate, good_event; [split; [apply fits_b; reflexivity|split; [exact I|reflexivity]]|discriminate|exact G']. }
  destruct (t =? 0xFF).
  { injection H as <- <-. apply good_fates, good_fate, good_event; [split; [apply fits_b; reflexivity|split; [exact I|reflexivity]]|discriminate|exact G']. }
  destruct (fromData t data off) as [e|] eqn:FD; [|discriminate]. cbn [bind] in H.
  destruct (dataLength e) as [k|]; [|discriminate]. cbn [bind] in H. injection H as <- <-.
  destruct (fromData_nice _ _ _ _ BD GT FD) as [N HR].
  apply good_fate, good_event; [exact N|congruence|exact G'].
Qed.

Lemma eof_ok {A} (r : res A) a : eof r = Ok a -> r = Ok a.
Proof. destruct r as [x|x]; [auto|]. destruct x; discriminate. Qed.

Lemma loop_good rec : (forall q st o st' f, good q st -> rec st o = Ok (st', f) -> good q st') ->
  forall fuel p st off mine st' f, good p st -> parse_loop rec data fuel st off mine = Ok (st', f) -> good p st'.
Proof.
  intros REC. induction fuel as [|k IH]; intros p st off mine st' f G H; [discriminate|]. cbn [parse_loop] in H.
  destruct (negb _); [discriminate|]. destruct (lookup off (psFates st)) as [f0|].
  - cbv zeta in H. injection H as <- <-. apply good_fates, G.
  - destruct (eof _) as [[st1 [f1|o1]]|] eqn:E; [| |discriminate]; cbn [bind] in H; apply eof_ok in E.
    + injection H as <- <-. eapply step_good; eassumption.
    + eapply IH; [|exact H]. eapply step_good; eassumption.
Qed.
Lemma at_good d : forall p st off st' f, good p st -> parse_at d data st off = Ok (st', f) -> good p st'.
Proof.
  induction d as [|d IH]; intros p st off st' f G H; [discriminate|]. cbn [parse_at] in H.
  eapply loop_good; [|exact G|exact H]. intros. eapply IH; eassumption.
Qed.
Lemma starts_good d starts st : parse_starts d data starts = Ok st -> good (fun _ => False) st.
Proof.
  unfold parse_starts. assert (G0 : good (fun _ => False) {| psEvents := []; psFates := [] |}) by (intros o e; discriminate).
  revert G0. generalize {| psEvents := []; psFates := [] |}. induction starts as [|o r IH]; intros st0 G0 H; cbn [foldM] in H.
  - injection H as <-. exact G0.
  - destruct (parse_at d data st0 o) as [[st1 f]|] eqn:E; [|discriminate]. cbn [bind] in H.
    destruct (guard _ _); [|discriminate]. cbn [bind] in H. eapply IH; [|exact H]. eapply at_good; eassumption.
Qed.

(** the list of events: the names are the offsets, one after the other *)
Fixpoint laid (i : Z) (L : list (Z * ev)) (m : Z) : Prop :=
  match L with
  | [] => i = m
  | (o, e) :: r => o = i /\ i < zlen data /\ exists n, dataLength e = Ok n /\ 1 <= n /\ laid (i + n) r m
  end.
Lemma next_event_le evs fuel : forall j, j <= next_event evs fuel j <= j + Z.of_nat fuel.
Proof.
  induction fuel as [|k IH]; intros j; cbn [next_event]; [lia|]. destruct (lookup j evs); [lia|]. specialize (IH (j + 1)). lia.
Qed.
Lemma walk_laid evs : (forall o e, lookup o evs = Some e -> nice e) -> forall fuel i L, 0 <= i -> walk evs data fuel i = Ok L ->
  (exists m, laid i L m) /\ Forall (fun p => lookup (fst p) evs = Some (snd p) \/
     (is_raw (snd p) = true /\ ev_fits (snd p) /\ exists n, dataLength (snd p) = Ok n /\ fst p + n <= zlen data)) L.
Proof.
  intros G. induction fuel as [|k IH]; intros i L Hi H; [discriminate|]. cbn [walk] in H.
  destruct (i <? zlen data) eqn:LT; cbn [negb] in H; [|injection H as <-; split; [exists i; reflexivity|constructor]].
  destruct (lookup i evs) as [e|] eqn:LK.
  - destruct (dataLength e) as [n|] eqn:DL; [|discriminate]. cbn [bind] in H.
    pose proof (dataLength_pos _ _ DL (proj2 (proj2 (G _ _ LK)))) as NP.
    destruct (walk evs data k (i + n)) as [r|] eqn:W; [|discriminate]. cbn [bind] in H. injection H as <-.
    destruct (IH (i + n) r ltac:(lia) W) as [[m M] F]. split; [|constructor; [left; exact LK|exact F]].
    exists m. cbn [laid]. split; [reflexivity|]. split; [lia|]. exists n. auto.
  - cbv zeta in H. set (j := next_event evs (Z.to_nat (zlen data - i)) i) in *.
    assert (J : i < j) by (apply next_event_gt; [exact LK|lia]).
    assert (J' : j <= zlen data) by (pose proof (next_event_le evs (Z.to_nat (zlen data - i)) i); unfold j in *; lia).
    destruct (walk evs data k j) as [r|] eqn:W; [|discriminate]. cbn [bind] in H. injection H as <-.
    destruct (IH j r ltac:(lia) W) as [[m M] F].
    assert (ZL : zlen (slice data i j) = j - i) by (rewrite zlen_slice by lia; reflexivity).
    split.
    + exists m. cbn [laid dataLength]. split; [reflexivity|]. split; [lia|]. exists (j - i). rewrite ZL.
      split; [reflexivity|]. split; [lia|]. replace (i + (j - i)) with j by lia. exact M.
    + constructor; [|exact F]. right. cbn [fst snd is_raw ev_fits dataLength]. split; [reflexivity|].
      split; [apply is_bytes_slice; exact BD|]. exists (j - i). rewrite ZL. split; [reflexivity|lia].
Qed.
End Good.

Lemma laid_ge data L : forall i m, laid data i L m -> (forall o, In o (map fst L) -> i <= o < zlen data) /\ i <= m.
Proof.
  induction L as [|[o e] r IH]; intros i m H; cbn [laid] in H.
  - subst m. split; [intros o []|lia].
  - destruct H as (-> & LT & n & _ & NP & H). destruct (IH _ _ H) as [I1 I2]. split; [|lia].
    intros x [<-|Hx]; [cbn [fst]; lia|]. apply I1 in Hx. lia.
Qed.
Lemma laid_nodup data L : forall i m, laid data i L m -> NoDup (map fst L).
Proof.
  induction L as [|[o e] r IH]; intros i m H; cbn [laid] in H; [constructor|].
  destruct H as (-> & LT & n & _ & NP & H). cbn [map fst]. constructor; [|eapply IH, H].
  intros Hx. apply (proj1 (laid_ge _ _ _ _ H)) in Hx. lia.
Qed.
Lemma laid_items data L : forall i m, laid data i L m -> exists ns, Forall2 (fun p n => dataLength (snd p) = Ok n) L ns
  /\ items_from i L ns = map (fun p => (fst p, (snd p, fst p))) L /\ i + sum ns = m.
Proof.
  induction L as [|[o e] r IH]; intros i m H; cbn [laid] in H.
  - exists []. subst m. repeat split; [constructor|cbn [sum]; lia].
  - destruct H as (-> & LT & n & D & NP & H). destruct (IH _ _ H) as (ns & F & E & S).
    exists (n :: ns). split; [constructor; assumption|]. cbn [items_from map fst snd sum]. rewrite E. split; [reflexivity|lia].
Qed.
Lemma vl_length_le x n : 0 <= x < 2 ^ 35 -> vl_length x = Ok n -> n <= 5.
Proof.
  intros X H. rewrite vl_length_eq in H by lia. injection H as <-.
  assert (bit_length x <= 35) by (apply bit_length_spec; lia).
  assert ((bit_length x + 6) / 7 <= 41 / 7) by (apply Z.div_le_mono; lia). change (41 / 7) with 5 in *. lia.
Qed.
Lemma random_length_le s n : random_length s = Ok n -> n <= 11.
Proof.
  unfold random_length.
  repeat match goal with |- context [if ?c then _ else _] => destruct c end; intros [= <-]; lia.
Qed.
Lemma nice_length e n : nice e -> dataLength e = Ok n -> n <= 11.
Proof.
  intros (F & S & R) D. destruct e; cbn [ev_fits ev_small is_raw dataLength] in *; try discriminate R;
    try (injection D as <-; try destruct (is_arith _); lia).
  - destruct (vl_length duration) eqn:V; [|discriminate]. cbn [bind] in D. injection D as <-. apply vl_length_le in V; lia.
  - destruct (vl_length duration) eqn:V; [|discriminate]. cbn [bind] in D. injection D as <-. apply vl_length_le in V; lia.
  - destruct (vl_length _) eqn:V; [|discriminate]. cbn [bind] in D. injection D as <-.
    apply vl_length_le in V; [lia|]. rewrite Z.lor_comm, lor_add by (change (2 ^ 7) with 128; lia).
    change (2 ^ 7) with 128. change (2 ^ 35) with (128 * 2 ^ 28). lia.
  - eapply random_length_le, D.
Qed.
Lemma save_len_le e tab b n : ev_fits e -> ev_save e tab = Ok b -> dataLength e = Ok n -> zlen b <= n + 2.
Proof.
  intros F S D. destruct (is_fromvar e) eqn:V.
  - destruct e; try discriminate V. rewrite (fromvar_length _ _ _ _ _ F S) in D. injection D as <-. destruct (_ && _); lia.
  - rewrite (ev_save_length _ _ _ F V S) in D. injection D as <-. lia.
Qed.
Lemma slice_set_le {A} (l v : list A) a B : 0 <= a -> zlen l <= B -> a + zlen v <= B -> zlen (slice_set l a (a + zlen v) v) <= B.
Proof.
  intros HA HL HV. unfold slice_set, clamp. pose proof (zlen_nonneg v). pose proof (zlen_nonneg l).
  replace (a <? 0) with false by lia. replace (a + zlen v <? 0) with false by lia.
  unfold zlen in *. rewrite !app_length, firstn_length, skipn_length. lia.
Qed.

Section SaveLaid.
Variables (data : bytes) (L : list (Z * ev)) (m : Z).
Hypothesis LD : laid data 0 L m.
Hypothesis SH : Forall (fun p => (nice (snd p) /\ (has_ref (snd p) = true -> exists d, ev_ref (snd p) = Some d /\ 0 <= d < 2 ^ 24)) \/
   (is_raw (snd p) = true /\ ev_fits (snd p) /\ exists n, dataLength (snd p) = Ok n /\ fst p + n <= zlen data)) L.

Let items := map (fun p : Z * ev => (fst p, (snd p, fst p))) L.
Let tab := map (fun it : Z * (ev * Z) => (fst it, snd (snd it))) items.

Lemma tab_fst : map fst tab = map fst L.
Proof. unfold tab, items. rewrite !map_map. reflexivity. Qed.
Lemma tab_pos d : In d (map fst L) -> pos_of tab (Some d) = Some d.
Proof.
  intros H. apply pos_of_in; [rewrite tab_fst; eapply laid_nodup, LD|].
  unfold tab, items. rewrite !map_map. cbn [fst snd]. apply in_map_iff in H as (p & <- & Hp).
  apply in_map_iff. exists p. auto.
Qed.
Lemma laid_total : m <= Z.max 0 (zlen data + 11).
Proof.
  assert (G : forall L i m, laid data i L m -> Forall (fun p => (nice (snd p)) \/
   (exists n, dataLength (snd p) = Ok n /\ fst p + n <= zlen data)) L -> m <= Z.max i (zlen data + 11)).
  { clear. induction L as [|[o e] r IH]; intros i m H F; cbn [laid] in H; [lia|].
    destruct H as (-> & LT & n & D & NP & H). inversion_clear F as [|? ? F1 F2]. specialize (IH _ _ H F2).
    cbn [fst snd] in F1. destruct F1 as [N|(n' & D' & B)].
    - apply nice_length in D; [|exact N]. lia.
    - assert (n' = n) as -> by congruence. lia. }
  apply (G L 0 m LD). eapply Forall_impl; [|exact SH]. cbv beta. intros p [[H _]|(_ & _ & H)]; auto.
Qed.

Definition closed (ns : list Z) : Prop :=
  (forall d, In d ns -> In d (map fst L)) /\
  (forall p d, In p L -> ev_ref (snd p) = Some d -> In d (map fst L)).

Lemma save_closed_ok ns : closed ns -> exists d, saveSequenceEvents L ns = Ok (d, ns) /\ zlen d <= zlen data + 13.
Proof.
  intros [C1 C2]. destruct (laid_items _ _ _ _ LD) as (lens & F & E & S).
  unfold saveSequenceEvents. rewrite (layout_ok L lens (laid_nodup _ _ _ _ LD) F). rewrite E. fold items. cbn [bind]. cbv zeta. fold tab.
  pose proof laid_total as LT. rewrite Z.add_0_l in S. rewrite S.
  assert (B0 : zlen (zeros m) <= zlen data + 13).
  { pose proof (proj2 (laid_ge _ _ _ _ LD)). rewrite zlen_zeros by lia. pose proof (zlen_nonneg data). lia. }
  assert (W : forall its d0, (forall it, In it its -> In it items) -> zlen d0 <= zlen data + 13 ->
    exists d, foldM (fun data it => let '(_, (e, offset)) := it in
                     eData <- ev_save e tab ;; Ok (slice_set data offset (offset + zlen eData) eData)) d0 its = Ok d
              /\ zlen d <= zlen data + 13).
  { induction its as [|it its IH]; intros d0 HI HB; cbn [foldM]; [exists d0; auto|].
    pose proof (HI it (or_introl eq_refl)) as Hit. unfold items in Hit. apply in_map_iff in Hit as (p & <- & Hp).
    pose proof (proj1 (laid_ge _ _ _ _ LD) (fst p) (in_map fst _ _ Hp)) as Rp.
    pose proof (proj1 (Forall_forall _ _) SH p Hp) as Sp.
    assert (SV : exists b, ev_save (snd p) tab = Ok b /\ fst p + zlen b <= zlen data + 13).
    { destruct Sp as [[N R]|(RW & FT & n & D & B)].
      - destruct (ev_savable (snd p) tab (proj1 N)) as (b & Sb).
        { intros HR. destruct (R HR) as (d & ED & RD). exists d. rewrite ED. split; [apply tab_pos, (C2 p d Hp ED)|exact RD]. }
        exists b. split; [exact Sb|].
        assert (exists n, dataLength (snd p) = Ok n) as (n & D).
        { clear - F Hp. induction F as [|q n l ns Q F IH]; [destruct Hp|]. destruct Hp as [->|Hp]; [exists n; exact Q|auto]. }
        pose proof (save_len_le _ _ _ _ (proj1 N) Sb D). pose proof (nice_length _ _ N D). lia.
      - destruct (snd p); try discriminate RW. cbn [dataLength] in D. injection D as <-. eexists. split; [reflexivity|lia]. }
    destruct SV as (b & Sb & Bb). rewrite Sb. cbn [bind]. apply IH; [intros x Hx; apply HI; right; exact Hx|].
    apply slice_set_le; lia. }
  destruct (W items (zeros m) (fun _ H => H) B0) as (d & -> & Bd). cbn [bind].
  assert (M : mapM (fun i => e2o_get tab (Some i)) ns = Ok ns).
  { clear - C1 LD. induction ns as [|i r IH]; [reflexivity|]. cbn [mapM]. rewrite pos_of_get, tab_pos by (apply C1; left; reflexivity).
    cbn [bind]. rewrite IH by (intros; apply C1; right; assumption). reflexivity. }
  rewrite M. cbn [bind]. exists d. auto.
Qed.

Lemma foldM_save_refs (its : list (Z * (ev * Z))) : forall d0 d, foldM (fun data it => let '(_, (e, offset)) := it in
     eData <- ev_save e tab ;; Ok (slice_set data offset (offset + zlen eData) eData)) d0 its = Ok d ->
  forall it, In it its -> exists b, ev_save (fst (snd it)) tab = Ok b.
Proof.
  induction its as [|[i [e o]] its IH]; intros d0 d H it Hi; [destruct Hi|]. cbn [foldM] in H.
  destruct (ev_save e tab) as [b|] eqn:S; [|discriminate]. cbn [bind] in H.
  destruct Hi as [<-|Hi]; [exists b; exact S|eapply IH; eassumption].
Qed.
Lemma e2o_in r o : e2o_get tab r = Ok o -> forall d, r = Some d -> In d (map fst L).
Proof.
  rewrite pos_of_get. intros H d ->. destruct (pos_of tab (Some d)) as [o'|] eqn:P; [|discriminate].
  apply pos_of_some in P. rewrite <- tab_fst. apply (in_map fst _ _ P).
Qed.
Lemma save_closed ns r : saveSequenceEvents L ns = Ok r -> closed ns.
Proof.
  destruct (laid_items _ _ _ _ LD) as (lens & F & E & S).
  unfold saveSequenceEvents. rewrite (layout_ok L lens (laid_nodup _ _ _ _ LD) F). rewrite E. fold items. cbn [bind]. cbv zeta. fold tab.
  intros H. destruct (foldM _ _ items) as [d|] eqn:FO; [|discriminate]. cbn [bind] in H.
  destruct (mapM _ ns) as [os|] eqn:M; [|discriminate]. split.
  - clear - M. revert os M. induction ns as [|i r IH]; intros os M d Hd; [destruct Hd|]. cbn [mapM] in M.
    destruct (e2o_get tab (Some i)) as [o|] eqn:EO; [|discriminate]. cbn [bind] in M.
    destruct (mapM _ r) as [os'|]; [|discriminate].
    destruct Hd as [<-|Hd]; [eapply e2o_in; [exact EO|reflexivity]|eapply IH; [reflexivity|exact Hd]].
  - intros p d0 Hp RF. destruct (foldM_save_refs _ _ _ FO (fst p, (snd p, fst p))) as (b & Sb).
    { unfold items. apply in_map_iff. exists p. auto. }
    cbn [fst snd] in Sb. destruct (snd p); cbn [ev_ref] in RF; try discriminate RF; cbn [ev_save] in Sb; subst.
    + destruct (int_bytes 1 trackNumber); [|discriminate]. cbn [bind] in Sb.
      destruct (e2o_get tab (Some d0)) eqn:EO; [|discriminate]. eapply e2o_in; [exact EO|reflexivity].
    + destruct (e2o_get tab (Some d0)) eqn:EO; [|discriminate]. eapply e2o_in; [exact EO|reflexivity].
    + destruct (e2o_get tab (Some d0)) eqn:EO; [|discriminate]. eapply e2o_in; [exact EO|reflexivity].
Qed.
End SaveLaid.

Lemma mapM_ev_at st os ns : mapM (fun off => _ <- ev_at st off ;; Ok off) os = Ok ns -> ns = os.
Proof.
  revert ns. induction os as [|o r IH]; intros ns H; cbn [mapM] in H; [congruence|].
  destruct (ev_at st o); [|discriminate]. cbn [bind] in H. destruct (mapM _ r); [|discriminate]. cbn [bind] in H.
  injection H as <-. f_equal. apply IH. reflexivity.
Qed.

Lemma read_save depth data os evs ns : is_bytes data -> readSequenceEvents depth data os = Ok (evs, ns) ->
  ns = os /\
  (closed evs os -> exists d, saveSequenceEvents evs os = Ok (d, os) /\ zlen d <= zlen data + 13) /\
  (forall r, saveSequenceEvents evs os = Ok r -> closed evs os).
Proof.
  intros BD H. unfold readSequenceEvents in H. cbv zeta in H.
  destruct (parse_starts _ _ _) as [st|] eqn:P; [|discriminate]. cbn [bind] in H.
  destruct (walk _ _ _ _) as [L|] eqn:W; [|discriminate]. cbn [bind] in H.
  destruct (mapM _ os) as [ns'|] eqn:M; [|discriminate]. cbn [bind] in H. injection H as <- <-.
  apply mapM_ev_at in M. split; [exact M|].
  pose proof (starts_good _ BD _ _ _ P) as G.
  destruct (walk_laid data BD (psEvents st) (fun o e Q => proj1 (G o e Q)) _ 0 L ltac:(lia) W) as [[m LD] F].
  assert (SH : Forall (fun p => (nice (snd p) /\ (has_ref (snd p) = true -> exists d, ev_ref (snd p) = Some d /\ 0 <= d < 2 ^ 24)) \/
   (is_raw (snd p) = true /\ ev_fits (snd p) /\ exists n, dataLength (snd p) = Ok n /\ fst p + n <= zlen data)) L).
  { eapply Forall_impl; [|exact F]. cbv beta. intros p [Q|Q]; [left|right; exact Q].
    destruct (G _ _ Q) as [G1 G2]. split; [exact G1|]. intros HR. destruct (G2 HR) as [[]|G3]; exact G3. }
  split; [intros C; eapply save_closed_ok; eassumption|intros r R; eapply save_closed; eassumption].
Qed.

(** * BMG: messages that were loaded are saved as the bytes they came from *)
From Coq Require Import String.
From Verif Require Import PyBase PyLemmas PyTac AtLemmas BmgModel BmgSpec BmgText BmgScan BmgFile BmgLoad BmgSave BmgExact.

(** every character takes a whole number of units *)
Definition whole_units (c : codec) (k : Z) : Prop := forall ch u, c_char c ch = Ok u -> zlen u mod k = 0.

Lemma whole_full sj x e nul : x <> ShiftJis -> encode (full_codec sj x e) [0] = Ok nul -> whole_units (full_codec sj x e) (zlen nul).
Proof.
  intros NS H ch u E. rewrite (unit_marks sj x e nul) by (exact H || (intros ->; contradiction)).
  destruct x; [apply Z.mod_1_r| |contradiction|apply Z.mod_1_r]. cbn [full_codec c_char unit_len] in *. unfold utf16_char in E.
  destruct (surrogateb ch); [discriminate|]. destruct (ch <? 65536); inversion E; [rewrite zlen_enc; reflexivity|]. rewrite zlen_app, !zlen_enc. reflexivity.
Qed.

Lemma encode_hit c v w s : encode c [v] = Ok w -> forall b k, 1 <= k -> whole_units c k -> encode c s = Ok b -> In v s ->
  exists p q, b = p ++ w ++ q /\ zlen p mod k = 0.
Proof.
  intros EV. induction s as [|x s IH]; intros b k K W E I; [destruct I|]. apply encode_cons in E as (u & r & Hu & Hr & ->). destruct I as [->|I].
  - exists [], r. split; [|reflexivity]. cbn [app]. f_equal. pose proof (encode_single c v u Hu). congruence.
  - destruct (IH r k K W Hr I) as (p & q & -> & M). exists (u ++ p), q. split; [rewrite <- app_assoc; reflexivity|]. rewrite zlen_app.
    rewrite Z.add_mod by lia. rewrite (W x u Hu), M. reflexivity.
Qed.

Section RESAVE.
Context (c : codec) (nul esc dat : bytes) (MK : marks c nul esc) (EX : exact c) (RC : reads_chars c) (WU : whole_units c (zlen nul)) (HB : is_bytes dat).

Definition clean (a b : Z) : Prop := forall j, 0 <= j -> a + j * zlen nul + zlen nul <= b ->
  slice dat (a + j * zlen nul) (a + j * zlen nul + zlen nul) <> nul /\ slice dat (a + j * zlen nul) (a + j * zlen nul + zlen nul) <> esc.

Lemma clean_none a v w s : 0 <= a -> clean a (a + zlen (slice dat a v)) -> a <= v <= zlen dat -> encode c s = Ok (slice dat a v) ->
  forall ch, encode c [ch] = Ok w -> (w = nul \/ w = esc) -> ~ In ch s.
Proof.
  intros A C V E ch EC W I. destruct MK as (_ & _ & LE & L1 & NE).
  destruct (encode_hit c ch w s EC _ (zlen nul) L1 WU E I) as (p & q & EQ & M).
  assert (LW : zlen w = zlen nul) by (destruct W as [->| ->]; lia). rewrite zlen_slice in C by lia.
  assert (LEN : zlen p + zlen w + zlen q = v - a) by (rewrite <- (zlen_slice dat a v) by lia; rewrite EQ, !zlen_app; lia).
  pose proof (zlen_nonneg p). pose proof (zlen_nonneg q). pose proof (Z.div_mod (zlen p) (zlen nul) ltac:(lia)) as DM. rewrite M in DM.
  destruct (C (zlen p / zlen nul)) as [C1 C2]; [apply Z.div_pos; lia|lia|].
  replace (a + zlen p / zlen nul * zlen nul) with (a + zlen p) in C1, C2 by lia.
  assert (SL : slice dat (a + zlen p) (a + zlen p + zlen nul) = w).
  { assert (F : at_ (slice dat a v) (zlen p) w) by (rewrite EQ; apply at_mid).
    rewrite <- LW. apply (at_slice dat (a + zlen p) w _); [|reflexivity]. replace v with (a + (v - a)) in F by lia.
    apply (BmgFile.at_sub dat a (v - a) w (zlen p)); [|exact F|reflexivity|rewrite zlen_slice; lia].
    assert (ZS : zlen (slice dat a (a + (v - a))) = v - a) by (rewrite zlen_slice; lia). unfold at_. rewrite ZS. repeat split; lia || reflexivity. }
  rewrite SL in C1, C2. destruct W; contradiction.
Qed.

(** the part list of one text run and what it saves as *)
Lemma flush_saves start off acc ps : 0 < start -> start <= off -> off <= zlen dat -> clean start off -> flush c dat start off acc = Ok ps ->
  exists rest bs, ps = acc ++ rest /\ mapM (part_save c) rest = Ok bs /\ concat bs = slice dat start off /\
    (rest = [] \/ exists s, rest = [Txt s] /\ s <> [] /\ is_text s).
Proof.
  intros P O L C F. unfold flush in F. replace (start =? 0) with false in F by lia. cbn [negb andb] in F. destruct (Z.eqb_spec start off) as [->|N]; cbn [negb] in F.
  - inversion F. exists [], []. rewrite app_nil_r. split; [reflexivity|]. split; [reflexivity|]. split; [rewrite slice_nil by lia; reflexivity|left; reflexivity].
  - apply bind_ok in F as (s & D & F). inversion F. destruct (EX _ s (is_bytes_slice dat start off HB) D) as [T E].
    assert (ZL : zlen (slice dat start off) = off - start) by (rewrite zlen_slice; lia).
    exists [Txt s], [slice dat start off]. split; [reflexivity|]. split; [|split; [cbn [concat]; apply app_nil_r|]].
    + cbn [mapM]. rewrite (proj2 (part_txt c s (slice dat start off))); [reflexivity|].
      assert (C' : clean start (start + zlen (slice dat start off))) by (rewrite ZL; replace (start + (off - start)) with off by lia; exact C).
      destruct MK as (EN & EE & _). split; [|split; [|exact E]]; apply contains_in.
      * apply (clean_none start off nul s ltac:(lia) C' ltac:(lia) E 0 EN). left. reflexivity.
      * apply (clean_none start off esc s ltac:(lia) C' ltac:(lia) E 26 EE). right. reflexivity.
    + right. exists s. split; [reflexivity|]. split; [|exact T]. intros ->. rewrite encode_nil in E. inversion E as [E']. rewrite <- E' in ZL. change (zlen (@nil Z)) with 0 in ZL. lia.
Qed.

Lemma hit_bound off w : 0 <= off -> 1 <= zlen w -> slice dat off (off + zlen w) = w -> off + zlen w <= zlen dat.
Proof.
  intros O L E. destruct (Z.le_gt_cases (off + zlen w) (zlen dat)) as [|G]; [assumption|]. exfalso.
  assert (Q : zlen (slice dat off (off + zlen w)) < zlen w); [|rewrite E in Q; lia]. clear E. pose proof (zlen_nonneg dat).
  unfold slice, clamp. replace (off <? 0) with false by lia. replace (off + zlen w <? 0) with false by lia. rewrite zlen_firstn.
  generalize (zlen (skipn (Z.to_nat (Z.min off (zlen dat))) dat)). intros. lia.
Qed.

(** all steps of the scan *)
Lemma scan_saves off : stored nul esc dat off -> forall fuel start acc ps stop,
  0 < start -> start <= off -> (off - start) mod zlen nul = 0 -> clean start off ->
  scan fuel c nul esc dat off start acc = Ok (ps, stop) ->
  off <= stop /\ slice dat stop (stop + zlen nul) = nul /\
  exists rest bs, ps = acc ++ rest /\ mapM (part_save c) rest = Ok bs /\ concat bs = slice dat start stop.
Proof.
  destruct MK as (EN & EE & LE & L1 & NE).
  induction 1 as [off H|off H S IH|off l t H1 H2 H3 S IH]; intros fuel start acc ps stop P O M C E; destruct fuel as [|fuel]; try discriminate; cbn [scan] in E.
  - rewrite H, beq_self in E. apply bind_ok in E as (ps' & F & E). inversion E; subst. pose proof (hit_bound stop nul ltac:(lia) L1 H).
    split; [lia|]. split; [exact H|]. destruct (flush_saves start stop acc ps P O ltac:(lia) C F) as (rest & bs & Q1 & Q2 & Q3 & _). exists rest, bs. auto.
  - destruct H as (U1 & U2 & U3). rewrite (beq_neq _ _ U2), (beq_neq _ _ U3) in E.
    destruct (IH fuel start acc ps stop P ltac:(lia)) as (Q1 & Q2); [| |exact E|split; [lia|exact Q2]].
    + replace (off + zlen nul - start) with (off - start + 1 * zlen nul) by lia. rewrite Z.mod_add by lia. exact M.
    + intros j J B. pose proof (Z.div_mod (off - start) (zlen nul) ltac:(lia)) as DM. rewrite M in DM. destruct (Z.lt_trichotomy j ((off - start) / zlen nul)) as [LT|[EQ|GT]].
      * apply C; [exact J|]. nia.
      * replace (start + j * zlen nul) with off by (subst j; lia). auto.
      * exfalso. nia.
  - pose proof H1 as H1e. rewrite LE in H1. rewrite H1, (beq_neq _ _ NE), beq_self, H2 in E. apply bind_ok in E as (ps' & F & E).
    assert (B : is_bytes [l; t]) by (rewrite <- H2; apply is_bytes_slice; exact HB). inversion B as [|? ? B1 B']; subst. inversion B' as [|? ? B2 _]; subst. unfold is_byte in B1, B2.
    destruct (IH fuel (off + l) (ps' ++ [Esc t (slice dat (off + zlen esc + 2) (off + l))]) ps stop ltac:(lia) ltac:(lia)) as (Q1 & Q2 & rest & bs & Q3 & Q4 & Q5); [rewrite Z.sub_diag; apply Z.mod_0_l; lia| |exact E|].
    { intros j J B0. exfalso. nia. }
    split; [lia|]. split; [exact Q2|]. pose proof (hit_bound stop nul ltac:(lia) L1 Q2) as HS.
    destruct (flush_saves start off acc ps' P O ltac:(lia) C F) as (r1 & b1 & R1 & R2 & R3 & _).
    set (d := slice dat (off + zlen esc + 2) (off + l)) in *. assert (LD : zlen d = l - 2 - zlen esc) by (subst d; rewrite zlen_slice; lia).
    exists (r1 ++ Esc t d :: rest), (b1 ++ (esc ++ [l] ++ [t] ++ d) :: bs). split; [rewrite Q3, R1, <- !app_assoc; reflexivity|]. split.
    + rewrite mapM_app, R2. cbn [bind mapM part_save]. unfold esc_save. rewrite EE. cbn [bind]. replace (zlen d + 2 + zlen esc) with l by lia.
      replace (byteb l) with true by (unfold byteb; lia). replace (byteb t) with true by (unfold byteb; lia). cbn [guard bind]. rewrite Q4. reflexivity.
    + rewrite concat_app, R3. cbn [concat]. rewrite Q5. rewrite <- (slice_app_eq dat start off stop) by lia. f_equal. rewrite <- (slice_app_eq dat off (off + l) stop) by lia. f_equal.
      rewrite <- (slice_app_eq dat off (off + zlen esc) (off + l)) by lia. rewrite <- (slice_app_eq dat (off + zlen esc) (off + zlen esc + 2) (off + l)) by lia. rewrite H2, H1e. reflexivity.
Qed.

Lemma message_saves off info m : 0 < off -> stored nul esc dat off -> load_message c nul esc dat (off, info) = Ok m ->
  mInfo m = info /\ mNull m = false /\ exists stop, off <= stop /\ slice dat stop (stop + zlen nul) = nul /\ message_save c m = Ok (slice dat off (stop + zlen nul)).
Proof.
  intros O S E. unfold load_message in E. cbn [fst snd] in E. apply bind_ok in E as ([ps stop] & E & E2). inversion E2; subst m. cbn [mInfo mNull]. clear E2.
  pose proof MK as (EN & _ & _ & L1 & _).
  destruct (scan_saves off S (Datatypes.S (length dat)) off [] ps stop O ltac:(lia)) as (Q1 & Q2 & rest & bs & Q3 & Q4 & Q5); [rewrite Z.sub_diag; apply Z.mod_0_l; lia|intros j J B; exfalso; nia|exact E|].
  split; [reflexivity|]. split; [lia|]. exists stop. split; [exact Q1|]. split; [exact Q2|]. unfold message_save. cbn [mNull mParts]. replace (stop =? 0) with false by lia. cbn [app] in Q3. subst rest.
  rewrite Q4. cbn [bind]. rewrite EN. cbn [bind]. rewrite Q5. rewrite <- (slice_app_eq dat off stop (stop + zlen nul)) by lia. rewrite Q2. reflexivity.
Qed.
End RESAVE.

(** * Scanning the messages of a BMG file *)
From Coq Require Import String.
From Verif Require Import PyBase PyLemmas PyTac AtLemmas BmgModel BmgSpec BmgText.

(** the terminator and the escape marker are single units *)
Definition marks (c : codec) (nul esc : bytes) : Prop :=
  encode c [0] = Ok nul /\ encode c [26] = Ok esc /\ zlen esc = zlen nul /\ 1 <= zlen nul /\ esc <> nul.

Lemma beq_neq a b : a <> b -> beq a b = false.
Proof. intros H. destruct (beq a b) eqn:E; [|reflexivity]. apply beq_eq in E. contradiction. Qed.
Lemma beq_self a : beq a a = true.
Proof. apply beq_eq. reflexivity. Qed.

Section SCAN.
Context (c : codec) (nul esc dat : bytes) (MK : marks c nul esc).

Lemma scan_units us : Forall (unit_ok nul esc) us -> forall fuel off start acc,
  at_ dat off (concat us) -> zlen dat - off < Z.of_nat fuel ->
  exists fuel', zlen dat - (off + zlen (concat us)) < Z.of_nat fuel' /\
    scan fuel c nul esc dat off start acc = scan fuel' c nul esc dat (off + zlen (concat us)) start acc.
Proof.
  destruct MK as (_ & _ & LE & L1 & NE).
  induction 1 as [|u us (LU & N1 & N2) F IH]; intros fuel off start acc A FU.
  - exists fuel. cbn [concat]. change (zlen (@nil Z)) with 0. rewrite Z.add_0_r. auto.
  - cbn [concat] in A |- *. apply at_app in A as [A1 A2]. rewrite LU in A2. destruct A1 as (B1 & B2 & B3). destruct A2 as (B4 & B5 & B6). pose proof (zlen_nonneg (concat us)).
    destruct fuel as [|k]; [lia|]. destruct (IH k (off + zlen nul) start acc) as (f' & F1 & F2); [unfold at_; auto|lia|].
    exists f'. rewrite zlen_app, LU, Z.add_assoc. split; [exact F1|]. rewrite <- F2. cbn [scan]. rewrite LU in B3. rewrite B3.
    rewrite (beq_neq u nul N1), (beq_neq u esc N2). reflexivity.
Qed.

(** no two adjacent strings, no empty ones *)
Fixpoint normal (ps : list part) : Prop :=
  match ps with
  | [] => True
  | Txt s :: r => s <> [] /\ match r with Txt _ :: _ => False | _ => True end /\ normal r
  | Esc _ _ :: r => normal r
  end.

Lemma flush_none off acc : flush c dat off off acc = Ok acc.
Proof. unfold flush. rewrite Z.eqb_refl, andb_false_r. reflexivity. Qed.

Lemma scan_parts ps : normal ps -> (forall s, In (Txt s) ps -> framed c nul esc s) ->
  forall bs fuel off start acc acc',
  mapM (part_save c) ps = Ok bs -> 0 < off -> 0 < start ->
  flush c dat start off acc = Ok acc' ->
  match ps with Txt _ :: _ => start = off /\ acc' = acc | _ => True end ->
  at_ dat off (concat bs ++ nul) -> zlen dat - off < Z.of_nat fuel ->
  scan fuel c nul esc dat off start acc = Ok (acc' ++ ps, off + zlen (concat bs)).
Proof.
  destruct MK as (EN & EE & LE & L1 & NE). pose proof L1 as L1'.
  induction ps as [|p r IH]; intros N FR bs fuel off start acc acc' E O S FL ST A FU.
  - inversion E; subst bs. cbn [concat] in A |- *. change (zlen (@nil Z)) with 0. cbn [app] in A. destruct A as (A1 & A2 & A3).
    destruct fuel as [|k]; [lia|]. cbn [scan]. rewrite A3, beq_self, FL. cbn [bind]. rewrite app_nil_r, Z.add_0_r. reflexivity.
  - cbn [mapM] in E. apply bind_ok in E as (pb & EP & E). apply bind_ok in E as (rb & ER & E). inversion E; subst bs. cbn [concat] in A |- *. rewrite <- app_assoc in A.
    apply at_app in A as [AP AR]. pose proof (zlen_nonneg (concat rb)) as P3. rewrite zlen_app.
    assert (FR' : forall s, In (Txt s) r -> framed c nul esc s) by (intros s Hs; apply FR; right; exact Hs).
    destruct p as [s|t d].
    + destruct ST as [-> ->]. cbn [normal] in N. destruct N as (NS & NR & N). cbn [part_save] in EP. apply bind_ok in EP as (? & _ & EP). apply bind_ok in EP as (? & _ & EP).
      destruct (FR s (or_introl eq_refl) pb EP) as (D & NB & us & -> & F). specialize (NB NS).
      destruct (scan_units us F fuel off off acc AP FU) as (f' & F1 & F2). rewrite F2. pose proof (zlen_nonneg (concat us)) as P.
      assert (0 < zlen (concat us)) by (destruct (concat us); [contradiction|rewrite zlen_cons; pose proof (zlen_nonneg l); lia]).
      rewrite (IH N FR' rb f' _ off acc (acc ++ [Txt s])); try assumption; try lia.
      * rewrite <- app_assoc. cbn [app]. f_equal. f_equal. lia.
      * unfold flush. replace (off =? 0) with false by lia. replace (off =? off + zlen (concat us)) with false by lia. cbn [negb andb].
        rewrite (at_slice dat off (concat us) _ AP eq_refl), D. reflexivity.
      * destruct r as [|[]]; auto. contradiction.
    + cbn [normal] in N. cbn [part_save] in EP. unfold esc_save in EP. rewrite EE in EP. cbn [bind] in EP.
      apply bind_ok in EP as (? & G1 & EP). apply bind_ok in EP as (? & G2 & EP). apply guard_ok in G1. inversion EP; subst pb. clear EP.
      set (l := zlen d + 2 + zlen esc) in *. pose proof (zlen_nonneg d).
      assert (LP : zlen (esc ++ l :: t :: d) = l) by (rewrite zlen_app, !zlen_cons; subst l; lia).
      rewrite LP in AR |- *. pose proof AP as (Q1 & Q2 & _). rewrite LP in Q2. apply at_app in AP as [A1 A2]. change (l :: t :: d) with ([l; t] ++ d) in A2. apply at_app in A2 as [A2 A3].
      change (zlen [l; t]) with 2 in A3.
      destruct fuel as [|k]; [lia|]. cbn [scan]. rewrite (at_slice dat off esc (off + zlen nul) A1) by lia. rewrite (beq_neq esc nul NE), beq_self, FL. cbn [bind].
      rewrite (at_slice dat (off + zlen esc) [l; t] (off + zlen esc + 2) A2 eq_refl). rewrite (at_slice dat (off + zlen esc + 2) d (off + l) A3) by lia.
      rewrite (IH N FR' rb k (off + l) (off + l) (acc' ++ [Esc t d]) (acc' ++ [Esc t d])); try assumption; try lia.
      * rewrite <- app_assoc. cbn [app]. f_equal. f_equal. lia.
      * apply flush_none.
      * destruct r as [|[]]; auto.
Qed.

End SCAN.

(** ** Joining the adjacent strings of a message changes nothing in its bytes *)
Lemma join_cons s r : s <> [] -> join (Txt s :: r) = match join r with Txt t :: r' => Txt (s ++ t) :: r' | r' => Txt s :: r' end.
Proof. intros H. destruct s; [contradiction|]. reflexivity. Qed.
Lemma join_normal ps : normal (join ps).
Proof.
  induction ps as [|[s|t d] r IH]; cbn [join normal]; [exact I| |exact IH].
  destruct s as [|a s]; [exact IH|]. destruct (join r) as [|[t|t d] r']; cbn [normal] in *.
  - repeat split; congruence.
  - destruct IH as (N & M & IH). repeat split; [discriminate|assumption|assumption].
  - repeat split; [discriminate|assumption].
Qed.
Lemma contains_app v s t : contains v (s ++ t) = contains v s || contains v t.
Proof. apply existsb_app. Qed.
Lemma contains_in v s : contains v s = false <-> ~ In v s.
Proof.
  unfold contains. split.
  - intros E H. assert (existsb (Z.eqb v) s = true) by (apply existsb_exists; exists v; split; [exact H|apply Z.eqb_refl]). congruence.
  - intros H. destruct (existsb (Z.eqb v) s) eqn:E; [|reflexivity]. apply existsb_exists in E as (x & Hx & E). apply Z.eqb_eq in E. subst. contradiction.
Qed.
Lemma part_txt c s b : part_save c (Txt s) = Ok b <-> contains 0 s = false /\ contains 26 s = false /\ encode c s = Ok b.
Proof.
  cbn [part_save]. destruct (contains 0 s), (contains 26 s); cbn [negb guard bind]; split; try discriminate; try tauto; intros (? & ? & ?); try discriminate.
Qed.
Lemma join_save c ps : forall bs, mapM (part_save c) ps = Ok bs -> exists bs', mapM (part_save c) (join ps) = Ok bs' /\ concat bs' = concat bs.
Proof.
  induction ps as [|p r IH]; intros bs E; [exists bs; auto|].
  cbn [mapM] in E. apply bind_ok in E as (pb & EP & E). apply bind_ok in E as (rb & ER & E). inversion E; subst bs. destruct (IH rb ER) as (rb' & IR & IC). cbn [concat]. rewrite <- IC.
  destruct p as [s|t d].
  - destruct s as [|a s].
    + cbn [join]. exists rb'. split; [exact IR|]. cbn in EP. inversion EP. reflexivity.
    + rewrite join_cons by discriminate. apply part_txt in EP as (C0 & C26 & EP). destruct (join r) as [|[t|t d] r'].
      * exists (pb :: rb'). split; [|reflexivity]. cbn [mapM]. rewrite (proj2 (part_txt c (a :: s) pb)) by auto. cbn [bind]. inversion IR; subst. reflexivity.
      * cbn [mapM] in IR. apply bind_ok in IR as (tb & ET & IR). apply bind_ok in IR as (r2 & ER2 & IR). inversion IR; subst rb'. apply part_txt in ET as (T0 & T26 & ET).
        exists ((pb ++ tb) :: r2). split.
        -- cbn [mapM]. rewrite (proj2 (part_txt c ((a :: s) ++ t) (pb ++ tb))); [cbn [bind]; rewrite ER2; reflexivity|].
           rewrite !contains_app, C0, C26, T0, T26. repeat split. apply encode_app; assumption.
        -- cbn [concat]. rewrite <- app_assoc. reflexivity.
      * exists (pb :: rb'). split; [|reflexivity]. cbn [mapM] in *. rewrite (proj2 (part_txt c (a :: s) pb)) by auto. cbn [bind]. rewrite IR. reflexivity.
  - cbn [join mapM]. rewrite EP. cbn [bind]. rewrite IR. cbn [bind]. exists (pb :: rb'). auto.
Qed.
(** the strings of the joined message *)
Lemma join_texts (P : text -> Prop) : (forall s t, P s -> P t -> P (s ++ t)) -> forall ps,
  (forall s, In (Txt s) ps -> P s) -> forall s, In (Txt s) (join ps) -> P s.
Proof.
  intros PA. induction ps as [|[u|t d] r IH]; intros H s Hs; [destruct Hs| |].
  - assert (IH' : forall s, In (Txt s) (join r) -> P s) by (apply IH; intros x Hx; apply H; right; exact Hx). pose proof (H u (or_introl eq_refl)) as PU.
    destruct u as [|a u]; [apply IH'; exact Hs|]. rewrite join_cons in Hs by discriminate.
    destruct (join r) as [|[t|t d] r']; cbn [In] in Hs, IH'.
    + destruct Hs as [E|[]]. inversion E. exact PU.
    + destruct Hs as [E|Hs]; [inversion E; subst; apply (PA (a :: u) t); auto|auto].
    + destruct Hs as [E|Hs]; [inversion E; exact PU|auto].
  - cbn [join In] in Hs. destruct Hs as [E|Hs]; [discriminate|]. apply IH; [|exact Hs]. intros x Hx. apply H. right. exact Hx.
Qed.

(** ** Loading one message *)
Lemma load_null c nul esc dat info : marks c nul esc -> at_ dat 0 nul ->
  load_message c nul esc dat (0, info) = Ok (mkMessage info [] true).
Proof.
  intros (EN & EE & LE & L1 & NE) A. unfold load_message. cbn [fst snd scan]. rewrite (at_slice dat 0 nul _ A eq_refl), beq_self. reflexivity.
Qed.
Lemma load_full c nul esc dat m b off : marks c nul esc -> mNull m = false -> message_save c m = Ok b ->
  (forall s, In (Txt s) (join (mParts m)) -> framed c nul esc s) -> 0 < off -> at_ dat off b ->
  load_message c nul esc dat (off, mInfo m) = Ok (loaded_message m).
Proof.
  intros MK NM E FR O A. unfold message_save in E. rewrite NM in E. apply bind_ok in E as (bs & EB & E). destruct MK as (EN & MK'). pose proof (conj EN MK' : marks c nul esc) as MK. rewrite EN in E. cbn [bind] in E. inversion E; subst b.
  destruct (join_save c _ _ EB) as (bs' & EJ & EC). rewrite <- EC in A.
  unfold load_message. cbn [fst snd].
  rewrite (scan_parts c nul esc dat MK (join (mParts m)) (join_normal _) FR bs' _ off off [] [] EJ O O); try assumption.
  - cbn [bind app]. unfold loaded_message. rewrite NM. pose proof (zlen_nonneg (concat bs')). replace (off + zlen (concat bs') =? 0) with false by lia. reflexivity.
  - apply flush_none.
  - destruct (join (mParts m)) as [|[]]; auto.
  - unfold zlen. lia.
Qed.

(** ** When the scanning loop runs out of fuel it never ends *)
Section DIVERGE.
Context (c : codec) (nul esc dat : bytes) (HB : is_bytes dat) (N1 : 1 <= zlen nul) (E1 : zlen esc = zlen nul).

Lemma scan_past m : forall off start acc, zlen dat <= off -> scan m c nul esc dat off start acc = Err OutOfFuel.
Proof.
  induction m as [|m IH]; intros off start acc H; [reflexivity|]. cbn [scan].
  assert (S : slice dat off (off + zlen nul) = []).
  { pose proof (zlen_nonneg dat). unfold slice, clamp. replace (off <? 0) with false by lia. replace (off + zlen nul <? 0) with false by lia. rewrite !Z.min_r by lia. rewrite Z.sub_diag. reflexivity. }
  rewrite S. assert (nul <> [] /\ esc <> []) as [Q1 Q2] by (split; intros ZZ; rewrite ZZ in *; change (zlen (@nil Z)) with 0 in *; lia).
  rewrite (beq_neq [] nul), (beq_neq [] esc) by congruence. apply IH. lia.
Qed.
Lemma scan_stuck t m : forall off acc,
  slice dat off (off + zlen nul) = esc -> esc <> nul -> slice dat (off + zlen esc) (off + zlen esc + 2) = [0; t] ->
  scan m c nul esc dat off off acc = Err OutOfFuel.
Proof.
  induction m as [|m IH]; intros off acc H1 H2 H3; [reflexivity|]. cbn [scan]. rewrite H1, (beq_neq esc nul H2), beq_self, flush_none. cbn [bind]. rewrite H3, Z.add_0_r. apply IH; assumption.
Qed.
Lemma flush_not_fuel start off acc : (forall b, c_dec c b <> Err OutOfFuel) -> flush c dat start off acc <> Err OutOfFuel.
Proof.
  intros H. unfold flush. destruct (negb (start =? 0) && negb (start =? off)); [|discriminate].
  specialize (H (slice dat start off)). destruct (c_dec c (slice dat start off)); cbn [bind]; congruence.
Qed.
Lemma scan_diverges : (forall b, c_dec c b <> Err OutOfFuel) -> forall n off start acc, 0 <= off -> zlen dat - off < Z.of_nat n ->
  scan n c nul esc dat off start acc = Err OutOfFuel -> forall m, scan m c nul esc dat off start acc = Err OutOfFuel.
Proof.
  intros HD. induction n as [|n IH]; intros off start acc O F H m.
  - apply scan_past. lia.
  - destruct m as [|m]; [reflexivity|]. destruct (Z.le_gt_cases (zlen dat) off) as [P|P]; [apply scan_past; exact P|].
    cbn [scan] in H |- *. destruct (beq (slice dat off (off + zlen nul)) nul) eqn:B1.
    { pose proof (flush_not_fuel start off acc HD) as Q. destruct (flush c dat start off acc); cbn [bind] in H; congruence. }
    destruct (beq (slice dat off (off + zlen nul)) esc) eqn:B2.
    + pose proof (flush_not_fuel start off acc HD) as Q. destruct (flush c dat start off acc) as [ps|]; cbn [bind] in H |- *; [|congruence].
      destruct (slice dat (off + zlen esc) (off + zlen esc + 2)) as [|l [|t [|]]] eqn:SL; try discriminate.
      assert (BL : is_bytes [l; t]) by (rewrite <- SL; apply is_bytes_slice; exact HB). inversion BL as [|? ? BL1 ?]; subst. unfold is_byte in BL1.
      destruct (Z.eq_dec l 0) as [->|NZ].
      * rewrite Z.add_0_r. apply beq_eq in B2. apply (scan_stuck t); [exact B2| |exact SL]. intros Z. rewrite B2, Z, beq_self in B1. discriminate.
      * apply IH; [lia|lia|exact H].
    + apply IH; [lia|lia|exact H].
Qed.
End DIVERGE.

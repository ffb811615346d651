(** * BMG: what loading gives is always canonical *)
From Coq Require Import String.
From Verif Require Import PyBase PyLemmas PyTac AtLemmas BmgModel BmgSpec BmgText BmgScan BmgFile BmgLoad BmgSave BmgExact BmgResave.

Lemma join_of_normal ps : normal ps -> join ps = ps.
Proof.
  induction ps as [|[s|t d] r IH]; intros N; [reflexivity| |].
  - cbn [normal] in N. destruct N as (NS & A & N). rewrite join_cons by exact NS. rewrite (IH N). destruct r as [|[]]; [reflexivity|contradiction|reflexivity].
  - cbn [join]. rewrite (IH N). reflexivity.
Qed.

Definition after_escape (acc : list part) : Prop := acc = [] \/ exists a t d, acc = a ++ [Esc t d].
Definition texts_in (ps : list part) : Prop := forall s, In (Txt s) ps -> is_text s.

Lemma normal_more acc rest : normal acc -> after_escape acc -> normal rest -> normal (acc ++ rest).
Proof.
  intros N [->|(a & t & d & ->)] R; [exact R|]. rewrite <- app_assoc. cbn [app]. revert N. induction a as [|[s|u v] a IH]; cbn [app normal]; intros N.
  - exact R.
  - destruct N as (NS & A & N). split; [exact NS|]. split; [|apply IH; exact N]. destruct a as [|[]]; cbn [app] in *; exact A.
  - apply IH. exact N.
Qed.

Lemma normal_esc q t d : normal q -> normal (q ++ [Esc t d]).
Proof.
  induction q as [|[s|u v] q IH]; cbn [app normal]; intros Q; [exact I| |apply IH; exact Q].
  destruct Q as (X & Y & Z). split; [exact X|]. split; [|apply IH; exact Z]. destruct q as [|[]]; cbn [app]; auto.
Qed.

Section LOADED.
Context (c : codec) (nul esc dat : bytes) (MK : marks c nul esc) (EX : exact c) (HB : is_bytes dat).

Lemma flush_normal start off acc ps : 0 <= start -> start <= off -> off <= zlen dat -> normal acc -> after_escape acc -> texts_in acc ->
  flush c dat start off acc = Ok ps -> normal ps /\ texts_in ps /\ exists rest, ps = acc ++ rest /\ (start = 0 \/ start = off -> rest = []).
Proof.
  intros S O L N A T F. unfold flush in F. destruct (negb (start =? 0) && negb (start =? off)) eqn:C.
  - apply bind_ok in F as (s & D & F). inversion F. destruct (EX _ s (is_bytes_slice dat start off HB) D) as [TS E].
    assert (ZL : zlen (slice dat start off) = off - start) by (rewrite zlen_slice; lia).
    assert (NS : s <> []) by (intros ->; rewrite encode_nil in E; inversion E as [E']; rewrite <- E' in ZL; change (zlen (@nil Z)) with 0 in ZL; lia).
    split; [apply normal_more; [assumption|assumption|cbn [normal]; auto]|]. split.
    + intros u Hu. apply in_app_or in Hu as [Hu|[Hu|[]]]; [apply T; exact Hu|]. inversion Hu. subst. exact TS.
    + exists [Txt s]. split; [reflexivity|]. intros. exfalso. lia.
  - inversion F; subst. split; [exact N|]. split; [exact T|]. exists []. rewrite app_nil_r. auto.
Qed.

Lemma scan_normal fuel : forall off start acc ps stop, 0 <= start -> start <= off -> normal acc -> after_escape acc -> texts_in acc ->
  scan fuel c nul esc dat off start acc = Ok (ps, stop) -> normal ps /\ texts_in ps /\ off <= stop.
Proof.
  destruct MK as (EN & EE & LE & L1 & NE).
  induction fuel as [|fuel IH]; intros off start acc ps stop S O N A T E; [discriminate|]. cbn [scan] in E.
  destruct (beq (slice dat off (off + zlen nul)) nul) eqn:B1.
  - apply beq_eq in B1. pose proof (hit_bound dat off nul ltac:(lia) L1 B1). apply bind_ok in E as (q & F & E). inversion E; subst.
    destruct (flush_normal start stop acc ps S O ltac:(lia) N A T F) as (Q1 & Q2 & _). split; [exact Q1|]. split; [exact Q2|lia].
  - destruct (beq (slice dat off (off + zlen nul)) esc) eqn:B2.
    + apply beq_eq in B2. rewrite <- LE in B2. pose proof (hit_bound dat off esc ltac:(lia) ltac:(lia) B2). apply bind_ok in E as (q & F & E).
      destruct (flush_normal start off acc q S O ltac:(lia) N A T F) as (Q1 & Q2 & _).
      destruct (slice dat (off + zlen esc) (off + zlen esc + 2)) as [|l [|t [|]]] eqn:SL; try discriminate.
      assert (B : is_bytes [l; t]) by (rewrite <- SL; apply is_bytes_slice; exact HB). inversion B as [|? ? B3 _]; subst. unfold is_byte in B3.
      assert (NQ : normal (q ++ [Esc t (slice dat (off + zlen esc + 2) (off + l))])).
      { apply normal_esc. exact Q1. }
      destruct (IH (off + l) (off + l) _ ps stop ltac:(lia) ltac:(lia) NQ) as (R1 & R2 & R3).
      * right. exists q. eexists. eexists. reflexivity.
      * intros s Hs. apply in_app_or in Hs as [Hs|[Hs|[]]]; [apply Q2; exact Hs|discriminate].
      * exact E.
      * split; [exact R1|]. split; [exact R2|lia].
    + destruct (IH (off + zlen nul) start acc ps stop S ltac:(lia) N A T E) as (R1 & R2 & R3). split; [exact R1|]. split; [exact R2|lia].
Qed.

Lemma message_canonical off info m : 0 <= off -> load_message c nul esc dat (off, info) = Ok m ->
  texts_in (mParts m) /\ if mNull m then mParts m = [] else join (mParts m) = mParts m.
Proof.
  intros O E. unfold load_message in E. cbn [fst snd] in E. apply bind_ok in E as ([ps stop] & E & E2). inversion E2; subst m. cbn [mParts mNull]. clear E2.
  destruct (scan_normal _ off off [] ps stop O ltac:(lia) I (or_introl eq_refl) ltac:(intros s []) E) as (N & T & L). split; [exact T|].
  destruct (Z.eqb_spec stop 0) as [->|NZ]; [|apply join_of_normal; exact N].
  assert (off = 0) by lia. subst off. pose proof MK as (EN & EE & LE & L1 & NE). cbn [scan] in E.
  destruct (beq (slice dat 0 (0 + zlen nul)) nul) eqn:B1.
  - rewrite flush_none in E. cbn [bind] in E. inversion E. reflexivity.
  - exfalso. destruct (beq (slice dat 0 (0 + zlen nul)) esc) eqn:B2.
    + rewrite flush_none in E. cbn [bind] in E. destruct (slice dat (0 + zlen esc) (0 + zlen esc + 2)) as [|l [|t [|]]] eqn:SL; try discriminate.
      assert (B : is_bytes [l; t]) by (rewrite <- SL; apply is_bytes_slice; exact HB). inversion B as [|? ? B3 _]; subst. unfold is_byte in B3.
      destruct (Z.eq_dec l 0) as [->|LN].
      * apply beq_eq in B2. cbn [app] in E. rewrite (scan_stuck c nul esc dat t (length dat) (0 + 0) _) in E; [discriminate| | |]; rewrite ?Z.add_0_r; assumption.
      * destruct (scan_normal _ (0 + l) (0 + l) _ ps 0 ltac:(lia) ltac:(lia) (I : normal [Esc t _]) ltac:(right; exists []; eexists; eexists; reflexivity) ltac:(intros s [Hs|[]]; discriminate) E) as (_ & _ & R). lia.
    + destruct (scan_normal _ (0 + zlen nul) 0 [] ps 0 ltac:(lia) ltac:(lia) I (or_introl eq_refl) ltac:(intros s []) E) as (_ & _ & R). lia.
Qed.
End LOADED.

(** ** the sections of an arbitrary file *)
Record good_sections (st : sections) : Prop := mkGood {
  g_inst : forall i, In i (sInst st) -> i <> zeros 8;
  g_lab : forall l, In l (sLab st) -> l <> (0, 0);
  g_scr : forall s, In s (sScr st) -> 0 <= snd s < 65536;
  g_inf : forall en, In en (sInf st) -> 0 <= fst en;
  g_dat : is_bytes (sDat st) }.

Lemma unpack_e_range e n data off v : is_bytes data -> unpack_e e n data off = Ok v -> 0 <= v < 256 ^ Z.of_nat n.
Proof.
  intros B H. destruct e; [apply (unpack_u_range n data off); assumption|]. unfold unpack_e, rd in H. cbn [bind] in H. apply bind_ok in H as (b & R & H). inversion H. apply bind_ok in R as (o & _ & R). inversion R. clear H R.
  cbn [dec]. set (l := firstn _ _). assert (BL : is_bytes (rev l)) by (apply is_bytes_rev; unfold l; apply Forall_firstn_, Forall_skipn_; exact B).
  pose proof (unle_range (rev l) BL) as R. unfold unbe. assert (Q : 256 ^ zlen (rev l) <= 256 ^ Z.of_nat n); [|lia].
  apply Z.pow_le_mono_r; [lia|]. unfold zlen. rewrite rev_length. unfold l. rewrite firstn_length. lia.
Qed.

Lemma mapM_in {A B} (f : A -> res B) l r : mapM f l = Ok r -> forall y, In y r -> exists x, In x l /\ f x = Ok y.
Proof.
  revert r. induction l as [|x l IH]; intros r H y Hy; cbn [mapM] in H; [inversion H; subst; destruct Hy|].
  apply bind_ok in H as (z & Hz & H). apply bind_ok in H as (k & Hk & H). inversion H; subst r. destruct Hy as [->|Hy]; [exists x; split; [left; reflexivity|exact Hz]|].
  destruct (IH k Hk y Hy) as (w & W1 & W2). exists w. split; [right; exact W1|exact W2].
Qed.

Lemma sections_good n e data : is_bytes data -> forall off st st', good_sections st -> parse_sections n e data off st = Ok st' -> good_sections st'.
Proof.
  intros B. induction n as [|n IH]; intros off st st' G H; cbn [parse_sections] in H; [inversion H; subst; exact G|].
  apply bind_ok in H as (m & _ & H). apply bind_ok in H as (len & _ & H). apply bind_ok in H as (st1 & H1 & H). apply (IH (off + len) st1 st'); [|exact H]. clear IH H. destruct G as [G1 G2 G3 G4 G5].
  destruct (beq m (asc "INF1")); [|destruct (beq m (asc "DAT1")); [|destruct (beq m (asc "FLW1")); [|destruct (beq m (asc "FLI1")); [|discriminate]]]].
  - unfold parse_inf1 in H1. apply bind_ok in H1 as (cnt & _ & H1). apply bind_ok in H1 as (el & _ & H1). apply bind_ok in H1 as (i & _ & H1). apply bind_ok in H1 as (new & HN & H1). inversion H1; subst st1.
    constructor; cbn [sInst sLab sScr sInf sDat]; try assumption. intros en I. apply in_app_or in I as [I|I]; [apply G4; exact I|].
    destruct (mapM_in _ _ _ HN en I) as (k & _ & HK). cbv zeta in HK. apply bind_ok in HK as (o & HO & HK). inversion HK. cbn [fst]. apply unpack_e_range in HO; [lia|exact B].
  - inversion H1; subst st1. constructor; cbn [parse_dat1 sInst sLab sScr sInf sDat]; try assumption. apply is_bytes_slice. exact B.
  - unfold parse_flw1 in H1. apply bind_ok in H1 as (ic & _ & H1). apply bind_ok in H1 as (lc & _ & H1). apply bind_ok in H1 as (z & _ & H1). cbv zeta in H1. apply bind_ok in H1 as (labs & _ & H1). inversion H1; subst st1.
    constructor; cbn [sInst sLab sScr sInf sDat]; try assumption.
    + intros i I. apply in_app_or in I as [I|I]; [apply G1; exact I|]. apply filter_In in I as [_ I]. intros ->. rewrite beq_self in I. discriminate.
    + intros l I. apply in_app_or in I as [I|I]; [apply G2; exact I|]. apply filter_In in I as [_ I]. intros ->. discriminate.
  - unfold parse_fli1 in H1. apply bind_ok in H1 as (cnt & _ & H1). apply bind_ok in H1 as (el & _ & H1). apply bind_ok in H1 as (z & _ & H1). apply bind_ok in H1 as (g & _ & H1). apply bind_ok in H1 as (new & HN & H1). inversion H1; subst st1.
    constructor; cbn [sInst sLab sScr sInf sDat]; try assumption. intros s I. apply in_app_or in I as [I|I]; [apply G3; exact I|].
    destruct (mapM_in _ _ _ HN s I) as (k & _ & HK). cbv zeta in HK. apply bind_ok in HK as (u & _ & HK). apply bind_ok in HK as (v & HV & HK). apply bind_ok in HK as (w & _ & HK). inversion HK. cbn [snd].
    apply unpack_e_range in HV; [|exact B]. exact HV.
Qed.

(** ** the loaded file *)
Theorem load_canonical sj id0 data b : is_bytes data -> bEncoding b <> ShiftJis -> bmg_load sj id0 data = Ok b ->
  texts_ok b /\
  (forall m, In m (bMessages b) -> if mNull m then mParts m = [] else join (mParts m) = mParts m) /\
  (forall i, In i (bInstructions b) -> i <> zeros 8) /\
  (forall l, In l (bLabels b) -> l <> (0, 0)) /\
  (forall s, In s (bScripts b) -> 0 <= snd s < 65536).
Proof.
  intros B NS H. unfold bmg_load in H. do 8 (apply bind_ok in H as (? & _ & H)). apply bind_ok in H as (st & HS & H). cbv zeta in H. apply bind_ok in H as (nul & HN & H). apply bind_ok in H as (esc & HE & H).
  apply bind_ok in H as (ms & HM & H). inversion H; subst b. cbn [bEncoding] in NS. unfold texts_ok. cbn [bMessages bInstructions bLabels bScripts].
  assert (G : good_sections st) by (apply (sections_good _ _ data B _ _ _) in HS; [exact HS|constructor; cbn [sInst sLab sScr sInf sDat]; try (intros ? []); constructor]).
  destruct (marks_of sj x6 x0 nul) as (esc' & MK & _); [intros ->; contradiction|exact HN|]. 
  assert (esc' = esc) by (destruct MK as (_ & E & _); congruence). subst esc'. pose proof (exact_full sj x6 x0 NS) as EX.
  assert (Q : forall m, In m ms -> texts_in (mParts m) /\ if mNull m then mParts m = [] else join (mParts m) = mParts m).
  { intros m Hm. destruct (mapM_in _ _ _ HM m Hm) as ([off info] & I & L). apply (message_canonical _ nul esc (sDat st) MK EX (g_dat st G) off info m); [|exact L]. apply (g_inf st G _ I). }
  split; [intros m s Hm Hs; apply (proj1 (Q m Hm)); exact Hs|]. split; [intros m Hm; apply (Q m Hm)|]. split; [apply (g_inst st G)|]. split; [apply (g_lab st G)|apply (g_scr st G)].
Qed.

(** * Lemmas about the representations of banks, sequences and sequence archives *)
From Coq Require Import String Lia.
From Verif Require Import PyBase PyLemmas TextModel TextSpec TextLemmas SeqModel SeqTextModel SeqTextSpec SeqTextLemmas SeqTextRepr ReprModel ReprSpec ReprLemmas ReprObjects ReprMoreSpec.
From Verif Require WaveModel SbnkModel SsarModel.

(** ** lists of texts that can be read or not *)
Definition lost (s : list Z) : Prop := stuck s /\ opens s.
Definition item_ok (s : list Z) : Prop := (exists v, reads s v) \/ lost s.
Lemma items_split ss : Forall item_ok ss -> (exists vs, Forall2 reads ss vs) \/ (exists pre vs s rest, ss = pre ++ s :: rest /\ Forall2 reads pre vs /\ lost s).
Proof.
  induction 1 as [|s ss [[v R]|L] F I]; [left; exists []; constructor| |].
  - destruct I as [(vs & Rs)|(pre & vs & x & rest & -> & Rs & X)]; [left; exists (v :: vs); constructor; assumption|].
    right. exists (s :: pre), (v :: vs), x, rest. split; [reflexivity|]. split; [constructor; assumption|exact X].
  - right. exists [], [], s, ss. split; [reflexivity|]. split; [constructor|exact L].
Qed.
Lemma reads_not_stuck s v : reads s v -> ~ stuck s.
Proof. intros R S. pose proof (reads_expr _ _ R) as E. rewrite (stuck_expr _ S) in E. discriminate E. Qed.
Lemma reads_in ss vs s : Forall2 reads ss vs -> In s ss -> exists v, reads s v.
Proof. induction 1 as [|x v ss vs R F H]; [intros []|]. intros [<-|I]; [exists v; exact R|apply H, I]. Qed.
Lemma list_ok ss : Forall item_ok ss -> item_ok (repr_list ss).
Proof.
  intro F. destruct (items_split ss F) as [(vs & R)|(pre & vs & s & rest & -> & R & S & O)].
  - left. exists (VList vs). apply reads_repr_list, R.
  - right. split; [eapply stuck_list; eassumption|apply opens_list].
Qed.
Lemma call_ok f ss : is_word f = true -> Forall item_ok ss -> item_ok (call f ss).
Proof.
  intros W F. destruct (items_split ss F) as [(vs & R)|(pre & vs & s & rest & -> & R & S & O)].
  - left. exists (VCall f vs). apply reads_call_args; assumption.
  - right. split; [eapply stuck_call; eassumption|]. unfold call. apply opens_word, W.
Qed.
Lemma call_lost f ss s : is_word f = true -> Forall item_ok ss -> In s ss -> lost s -> lost (call f ss).
Proof.
  intros W F I L. destruct (items_split ss F) as [(vs & R)|(pre & vs & x & rest & -> & R & S & O)].
  - exfalso. assert (exists v, reads s v) as (v & V) by (eapply reads_in; eassumption). exact (reads_not_stuck _ _ V (proj1 L)).
  - split; [eapply stuck_call; eassumption|]. unfold call. apply opens_word, W.
Qed.
Lemma list_lost ss s : Forall item_ok ss -> In s ss -> lost s -> lost (repr_list ss).
Proof.
  intros F I L. destruct (items_split ss F) as [(vs & R)|(pre & vs & x & rest & -> & R & S & O)].
  - exfalso. assert (exists v, reads s v) as (v & V) by (eapply reads_in; eassumption). exact (reads_not_stuck _ _ V (proj1 L)).
  - split; [eapply stuck_list; eassumption|apply opens_list].
Qed.
Lemma int_ok n : item_ok (str_int n).
Proof. left. exists (VInt n). apply reads_int. Qed.
Lemma ints_ok l : Forall item_ok (map str_int l).
Proof. induction l; constructor; [apply int_ok|assumption]. Qed.
Lemma lost_expr s : lost s -> expr s = None.
Proof. intros [S _]. apply stuck_expr, S. Qed.

(** ** banks *)
Lemma note_says n : unnamed_type n -> says eval_note (note_repr n) n.
Proof.
  intro T. unfold unnamed_type in T. assert (E : note_type_repr (SbnkModel.nType n) = str_int (SbnkModel.nType n)).
  { unfold note_type_repr. replace (SbnkModel.nType n =? 1) with false by lia. replace (SbnkModel.nType n =? 2) with false by lia. replace (SbnkModel.nType n =? 3) with false by lia. reflexivity. }
  exists (VCall (asc "NoteDefinition") (map VInt [SbnkModel.nWave n; SbnkModel.nArch n; SbnkModel.nPitch n; SbnkModel.nAttack n; SbnkModel.nDecay n; SbnkModel.nSustain n; SbnkModel.nRelease n; SbnkModel.nPan n; SbnkModel.nType n])).
  split; [|destruct n; reflexivity]. unfold note_repr. rewrite E. apply reads_call_args; [reflexivity|]. cbn [map app]. repeat (constructor; [apply reads_int|]). constructor.
Qed.
Lemma note_lost n : ~ unnamed_type n -> lost (note_repr n).
Proof. intro T. split; [apply note_stuck; unfold unnamed_type in T; lia|]. unfold note_repr, call. apply opens_word. reflexivity. Qed.
Lemma named_dec n : unnamed_type n \/ ~ unnamed_type n.
Proof. unfold unnamed_type. lia. Qed.
Lemma note_ok n : item_ok (note_repr n).
Proof. destruct (named_dec n) as [T|T]; [left; destruct (note_says n T) as (v & R & _); exists v; exact R|right; apply note_lost, T]. Qed.
Lemma region_ok r : item_ok (region_repr r).
Proof. apply call_ok; [reflexivity|]. repeat (constructor; [first [apply int_ok|apply note_ok]|]). constructor. Qed.
Lemma region_says r : unnamed_type (snd r) -> says eval_region (region_repr r) r.
Proof.
  intro T. destruct r as [p n]. cbn [snd] in T. destruct (note_says n T) as (v & R & E). exists (VCall (asc "Region") [VInt p; v]). split.
  - apply reads_call_args; [reflexivity|]. repeat (constructor; [first [apply reads_int|exact R]|]). constructor.
  - unfold eval_region, call_of. rewrite (eq_refl : beq (asc "Region") (asc "Region") = true). cbn [obind]. rewrite E. reflexivity.
Qed.
Lemma region_lost r : ~ unnamed_type (snd r) -> lost (region_repr r).
Proof.
  intro T. unfold region_repr. eapply call_lost; [reflexivity| |right; left; reflexivity|apply note_lost, T]. repeat (constructor; [first [apply int_ok|apply note_ok]|]). constructor.
Qed.
Lemma all_ok {A} (f : A -> list Z) l : (forall x, item_ok (f x)) -> Forall item_ok (map f l).
Proof. intro H. induction l; constructor; [apply H|assumption]. Qed.
Lemma inst_ok i : item_ok (inst_repr i).
Proof.
  unfold inst_repr. destruct (SbnkModel.iBody i) as [n|p l|l]; (apply call_ok; [reflexivity|]).
  - constructor; [apply note_ok|constructor].
  - constructor; [apply int_ok|]. constructor; [|constructor]. apply list_ok, all_ok, note_ok.
  - constructor; [|constructor]. apply list_ok, all_ok, region_ok.
Qed.
Lemma inst_says i : Forall unnamed_type (body_notes (SbnkModel.iBody i)) -> says eval_inst (inst_repr i) (SbnkModel.iBody i).
Proof.
  unfold inst_repr. destruct (SbnkModel.iBody i) as [n|p l|l]; cbn [body_notes]; intro F.
  - apply Forall_inv in F. destruct (note_says n F) as (v & R & E). exists (VCall (asc "SingleNoteInstrument") [v]). split; [apply reads_call_args; [reflexivity|repeat constructor; exact R]|].
    unfold eval_inst. rewrite (eq_refl : beq (asc "SingleNoteInstrument") (asc "SingleNoteInstrument") = true). rewrite E. reflexivity.
  - destruct (says_list eval_note note_repr l) as (v & R & E); [eapply Forall_impl; [|exact F]; intros; apply note_says; assumption|]. exists (VCall (asc "RangeInstrument") [VInt p; v]).
    split; [apply reads_call_args; [reflexivity|repeat (constructor; [first [exact R|apply reads_int]|]); constructor]|].
    unfold eval_inst. rewrite (eq_refl : beq (asc "RangeInstrument") (asc "SingleNoteInstrument") = false). rewrite (eq_refl : beq (asc "RangeInstrument") (asc "RangeInstrument") = true). rewrite E. reflexivity.
  - destruct (says_list eval_region region_repr l) as (v & R & E); [rewrite Forall_map in F; eapply Forall_impl; [|exact F]; intros; apply region_says; assumption|]. exists (VCall (asc "RegionalInstrument") [v]).
    split; [apply reads_call_args; [reflexivity|repeat constructor; exact R]|].
    unfold eval_inst. rewrite (eq_refl : beq (asc "RegionalInstrument") (asc "SingleNoteInstrument") = false). rewrite (eq_refl : beq (asc "RegionalInstrument") (asc "RangeInstrument") = false).
    rewrite (eq_refl : beq (asc "RegionalInstrument") (asc "RegionalInstrument") = true). rewrite E. reflexivity.
Qed.
Lemma inst_lost i n : In n (body_notes (SbnkModel.iBody i)) -> ~ unnamed_type n -> lost (inst_repr i).
Proof.
  unfold inst_repr. destruct (SbnkModel.iBody i) as [m|p l|l]; cbn [body_notes]; intros I T.
  - destruct I as [->|[]]. eapply call_lost; [reflexivity|constructor; [apply note_ok|constructor]|left; reflexivity|apply note_lost, T].
  - eapply call_lost; [reflexivity|constructor; [apply int_ok|constructor; [apply list_ok, all_ok, note_ok|constructor]]|right; left; reflexivity|].
    eapply list_lost; [apply all_ok, note_ok|apply in_map, I|apply note_lost, T].
  - apply in_map_iff in I. destruct I as (r & <- & I). eapply call_lost; [reflexivity|constructor; [apply list_ok, all_ok, region_ok|constructor]|left; reflexivity|].
    eapply list_lost; [apply all_ok, region_ok|apply in_map, I|apply region_lost, T].
Qed.
Definition slot_text (o : option SbnkModel.inst) : list Z := match o with Some i => inst_repr i | None => asc "None" end.
Lemma none_reads : reads (asc "None") (VWord (asc "None")).
Proof. apply reads_word. reflexivity. Qed.
Lemma slot_ok o : item_ok (slot_text o).
Proof. destruct o as [i|]; [apply inst_ok|left; exists (VWord (asc "None")); apply none_reads]. Qed.
(** what is read as a call is not None *)
Lemma says_some {A} (eval : value -> option A) s x : eval (VWord (asc "None")) = None -> says eval s x -> says (or_none eval) s (Some x).
Proof.
  intros N (v & R & E). exists v. split; [exact R|]. unfold or_none. destruct (is_none v) eqn:B; [|rewrite E; reflexivity]. exfalso. destruct v; try discriminate B. cbn [is_none] in B.
  apply beq_eq in B. subst. rewrite N in E. discriminate E.
Qed.
Lemma says_none {A} (eval : value -> option A) : says (or_none eval) (asc "None") None.
Proof. exists (VWord (asc "None")). split; [apply none_reads|reflexivity]. Qed.
Lemma says_map {A B} (eval : value -> option B) (f : A -> list Z) (g : A -> B) l : Forall (fun x => says eval (f x) (g x)) l ->
  says (as_list eval) (repr_list (map f l)) (map g l).
Proof.
  intro F. assert (exists vs, Forall2 reads (map f l) vs /\ all_some (map eval vs) = Some (map g l)) as (vs & R & E).
  { induction F as [|x l (v & R & E) F (vs & Rs & Es)]; [exists []; split; [constructor|reflexivity]|]. exists (v :: vs). split; [constructor; assumption|]. cbn [map all_some]. rewrite E, Es. reflexivity. }
  exists (VList vs). split; [apply reads_repr_list, R|exact E].
Qed.
Lemma ids_say l : says (as_list (or_none as_int)) (repr_list (map repr_opt l)) l.
Proof.
  rewrite <- (map_id l) at 2. apply says_map. apply Forall_forall. intros [n|] _; cbn [repr_opt]; [apply says_some; [reflexivity|apply says_int]|apply says_none].
Qed.
Lemma named_ok w s : is_word w = true -> item_ok s -> item_ok (w ++ asc "=" ++ s).
Proof. intros W [(v & R)|[S O]]; [left; eexists; apply reads_named; eassumption|right; split; [apply stuck_named; assumption|apply opens_word, W]]. Qed.
Lemma ids_ok l : item_ok (asc "waveArchiveIDs=" ++ repr_list (map repr_opt l)).
Proof. apply (named_ok (asc "waveArchiveIDs")); [reflexivity|]. left. destruct (ids_say l) as (v & R & _). exists v. exact R. Qed.
Lemma bank_says b : Forall unnamed_type (bank_notes b) -> says eval_bank (sbnk_repr b) (map (option_map SbnkModel.iBody) (SbnkModel.bInsts b), 0, SbnkModel.bWars b).
Proof.
  intro F. destruct (says_map (or_none eval_inst) slot_text (option_map SbnkModel.iBody) (SbnkModel.bInsts b)) as (v & R & E).
  { unfold bank_notes in F. apply Forall_forall. intros [i|] I; cbn [slot_text option_map]; [|apply says_none]. apply says_some; [reflexivity|]. apply inst_says. apply Forall_forall. intros n N. rewrite Forall_forall in F. apply F.
    apply in_flat_map. exists (Some i). split; [exact I|exact N]. }
  destruct (ids_say (SbnkModel.bWars b)) as (w & Rw & Ew). destruct (as_list_is _ _ _ E) as (vs & ->). destruct (as_list_is _ _ _ Ew) as (ws & ->).
  exists (VCall (asc "SBNK.fromInstruments") [VList vs; VNamed (asc "waveArchiveIDs") (VList ws)]). split.
  - unfold sbnk_repr. apply reads_call_args; [reflexivity|]. constructor; [exact R|]. constructor; [|constructor]. apply (reads_named (asc "waveArchiveIDs")); [reflexivity|exact Rw].
  - unfold eval_bank, call_of. rewrite (eq_refl : beq (asc "SBNK.fromInstruments") (asc "SBNK.fromInstruments") = true). cbn [obind].
    rewrite (eq_refl : bind_args 3 [asc "instruments"; asc "unk02"; asc "waveArchiveIDs"] [VList vs; VNamed (asc "waveArchiveIDs") (VList ws)] = Some [Some (VList vs); None; Some (VList ws)]). cbn [obind].
    rewrite E. cbn [obind or_else]. rewrite Ew. reflexivity.
Qed.
Lemma bank_lost b n : In n (bank_notes b) -> ~ unnamed_type n -> lost (sbnk_repr b).
Proof.
  intros I T. apply in_flat_map in I. destruct I as (o & O & I). destruct o as [i|]; [|destruct I]. unfold sbnk_repr.
  assert (A : Forall item_ok (map slot_text (SbnkModel.bInsts b))) by apply all_ok, slot_ok. change (map _ (SbnkModel.bInsts b)) with (map slot_text (SbnkModel.bInsts b)).
  apply (call_lost _ _ (repr_list (map slot_text (SbnkModel.bInsts b)))); [reflexivity|constructor; [apply list_ok, A|constructor; [apply ids_ok|constructor]]|left; reflexivity|].
  apply (list_lost _ (slot_text (Some i)) A); [apply in_map, O|exact (inst_lost i n I T)].
Qed.
Lemma some_named l : ~ Forall unnamed_type l -> exists n, In n l /\ ~ unnamed_type n.
Proof.
  induction l as [|n l I]; intro N; [exfalso; apply N; constructor|]. destruct (named_dec n) as [T|T]; [|exists n; split; [left; reflexivity|exact T]].
  destruct I as (m & M & X); [intro F; apply N; constructor; assumption|]. exists m. split; [right; exact M|exact X].
Qed.
Lemma forall_named l : Forall unnamed_type l \/ ~ Forall unnamed_type l.
Proof.
  induction l as [|n l [I|I]]; [left; constructor| |right; intro F; apply I; inversion F; assumption].
  destruct (named_dec n) as [T|T]; [left; constructor; assumption|right; intro F; apply T; inversion F; assumption].
Qed.
Lemma bank_expr b : expr (sbnk_repr b) <> None <-> Forall unnamed_type (bank_notes b).
Proof.
  split.
  - intro E. destruct (forall_named (bank_notes b)) as [F|F]; [exact F|]. exfalso. apply E. destruct (some_named _ F) as (n & I & T). apply lost_expr, (bank_lost b n I T).
  - intros F E. destruct (says_expr _ _ _ (bank_says b F)) as (v & V & _). congruence.
Qed.
Lemma inst_expr i : expr (inst_repr i) <> None <-> Forall unnamed_type (body_notes (SbnkModel.iBody i)).
Proof.
  split.
  - intro E. destruct (forall_named (body_notes (SbnkModel.iBody i))) as [F|F]; [exact F|]. exfalso. apply E. destruct (some_named _ F) as (n & I & T). apply lost_expr, (inst_lost i n I T).
  - intros F E. destruct (says_expr _ _ _ (inst_says i F)) as (v & V & _). congruence.
Qed.

(** ** wave archives *)
Lemma swar_lost s : WaveModel.rWaves s <> [] -> Forall (fun w => short (WaveModel.wData w) \/ long (WaveModel.wData w)) (WaveModel.rWaves s) -> exists t, swar_repr s = Ok t /\ lost t.
Proof.
  intros N F. assert (exists l, mapM swav_repr (WaveModel.rWaves s) = Ok l /\ Forall lost l /\ length l = length (WaveModel.rWaves s)) as (l & M & A & L).
  { clear N. induction F as [|w ws D F (l & M & A & L)]; [exists []; repeat split; constructor|].
    assert (exists t, swav_repr w = Ok t) as (t & T) by (unfold swav_repr; destruct D as [D|D]; [destruct (short_reads _ D) as (x & -> & _)|destruct (long_reads _ D) as (x & y & -> & _)]; eexists; reflexivity).
    exists (t :: l). cbn [mapM length]. rewrite T, M. split; [reflexivity|]. split; [|lia]. constructor; [|exact A]. split; [apply (swav_stuck w t D T)|].
    unfold swav_repr in T. destruct (shortBytesRepr (WaveModel.wData w) 32); cbn [bind] in T; [|discriminate T]. injection T as <-. unfold call. apply opens_word. reflexivity. }
  unfold swar_repr. rewrite M. cbn [bind]. eexists. split; [reflexivity|]. destruct l as [|x l]; [destruct (WaveModel.rWaves s); [congruence|discriminate L]|].
  assert (I : Forall item_ok (x :: l)) by (eapply Forall_impl; [|exact A]; intros y Y; right; exact Y).
  eapply call_lost; [reflexivity|constructor; [apply list_ok, I|constructor]|left; reflexivity|]. eapply list_lost; [exact I|left; reflexivity|apply Forall_inv in A; exact A].
Qed.

(** * Sequences without jumps are read back as they were (C39) *)
From Coq Require Import String.
From Verif Require Import PyBase PyLemmas SeqModel SeqSpec SeqProps SeqErrSpec SeqErrProps.

(** an event after which the reader goes on with the next one *)
Definition straight (e : ev) : Prop := ev_fits e /\ ev_small e /\ is_fromvar e = false /\ is_raw e = false /\ is_control e = false.

Lemma straight_ref e f : is_control e = false -> map_ref f e = e.
Proof. unfold is_control. destruct e; cbn [has_ref orb]; intro H; try discriminate H; reflexivity. Qed.
Lemma straight_reach starts P pos i : forall evs off P', placed pos off (evs ++ [(i, Bare 0xFF)]) P' -> Forall (fun p => is_control (snd p) = false) evs -> incl P' P ->
  reachable starts P off -> (forall o, In o (map (fun x => fst (fst x)) P') -> reachable starts P o) /\ map (fun x => snd (fst x)) P' = map snd evs ++ [Bare 0xFF].
Proof.
  induction evs as [|[j e] evs IH]; intros off P' H F I R; cbn [app] in H; inversion H as [|? ? ? b ? r' ? ? PL]; subst.
  - inversion PL; subst. split; [|reflexivity]. intros o [<-|[]]. exact R.
  - inversion F as [|? ? C F']; subst. cbn [snd] in C. destruct (IH _ _ PL F') as (A & B).
    + intros x X. apply I. right. exact X.
    + eapply re_flow; [exact R|]. eapply fl_plain; [apply I; left; reflexivity|]. rewrite straight_ref by exact C. exact C.
    + split; [|cbn [map fst snd app]; rewrite B, straight_ref by exact C; reflexivity]. intros o [<-|X]; [exact R|exact (A o X)].
Qed.
Lemma straight_ok evs i : NoDup (map fst (evs ++ [(i, Bare 0xFF)])) -> Forall (fun p => straight (snd p)) evs -> seq_ok (evs ++ [(i, Bare 0xFF)]).
Proof.
  intros N F. split; [exact N|]. apply Forall_app. split.
  - eapply Forall_impl; [|exact F]. intros p (A & B & C & D & E). repeat (split; [assumption|]). intro H. unfold is_control in E. rewrite H in E. discriminate E.
  - constructor; [|constructor]. cbn [snd]. split; [cbn; tauto|]. split; [exact Logic.I|]. repeat (split; [reflexivity|]). discriminate.
Qed.
Lemma straight_saved evs i : NoDup (map fst (evs ++ [(i, Bare 0xFF)])) -> Forall (fun p => straight (snd p)) evs -> exists data, saveSequenceEvents (evs ++ [(i, Bare 0xFF)]) [] = Ok (data, []).
Proof.
  intros N F. assert (G : forall p, In p (evs ++ [(i, Bare 0xFF)]) -> ev_fits (snd p) /\ is_fromvar (snd p) = false /\ has_ref (snd p) = false).
  { intros p X. apply in_app_or in X as [X|[<-|[]]]; [|cbn; tauto]. rewrite Forall_forall in F. destruct (F p X) as (A & _ & C & _ & E). split; [exact A|]. split; [exact C|]. unfold is_control in E. apply orb_false_iff in E. apply E. }
  assert (SV : forall p pos, In p (evs ++ [(i, Bare 0xFF)]) -> exists b, ev_save (snd p) pos = Ok b).
  { intros p pos X. destruct (G p X) as (A & _ & R). apply C38_savable; [exact A|]. rewrite R. discriminate. }
  destruct (saveSequenceEvents _ []) as [[data os]|k] eqn:E.
  - exists data. destruct (C39_list_exact 0 _ _ _ _ (straight_ok evs i N F) ltac:(destruct evs; discriminate) E) as (pos & P & _ & _ & Q & _). inversion Q; subst. reflexivity.
  - exfalso. apply (C97_list_fails _ _ _ N) in E. destruct E as [a p b k E _ L|lens a p b k _ E _ L|lens n _ _ [] _].
    + apply C97_length_fails in L. assert (X : In p (evs ++ [(i, Bare 0xFF)])) by (rewrite E; apply in_or_app; right; left; reflexivity).
      destruct (G p X) as (A & B & _). destruct (SV p [] X) as (w & W). rewrite (C38_announced_length_partial _ _ _ A B W) in L. discriminate L.
    + apply C97_event_save_fails in L. assert (X : In p (evs ++ [(i, Bare 0xFF)])) by (rewrite E; apply in_or_app; right; left; reflexivity).
      destruct (SV p (offsets 0 (evs ++ [(i, Bare 255)]) lens) X) as (w & W). rewrite W in L. discriminate L.
Qed.

(** a sequence of such events and an EndTrack can be saved, and is read back as it was *)
Theorem C39_straight : forall depth evs i, (length evs + 1 < depth)%nat -> NoDup (map fst (evs ++ [(i, Bare 0xFF)])) -> Forall (fun p => straight (snd p)) evs ->
  exists data evs', saveSequenceEvents (evs ++ [(i, Bare 0xFF)]) [] = Ok (data, []) /\ readSequenceEvents depth data [] = Ok (evs', []) /\ map snd evs' = map snd evs ++ [Bare 0xFF].
Proof.
  intros depth evs i D N F. destruct (straight_saved evs i N F) as (data & E). exists data. pose proof (straight_ok evs i N F) as K. assert (NE : evs ++ [(i, Bare 0xFF)] <> []) by (destruct evs; discriminate).
  destruct (C39_list_roundtrip_partial depth _ _ _ _ K NE E) as (pos0 & P0 & _ & _ & _ & R). destruct (C39_list_exact depth _ _ _ _ K NE E) as (pos & P & PL & _ & _ & X).
  assert (C : Forall (fun p => is_control (snd p) = false) evs) by (eapply Forall_impl; [|exact F]; intros p (_ & _ & _ & _ & Q); exact Q).
  destruct (straight_reach [0] P pos i evs 0 P PL C (incl_refl P) (re_start [0] P 0 (or_introl eq_refl))) as (A & B).
  destruct (readSequenceEvents depth data []) as [[evs' ns]|k] eqn:RE.
  - destruct (X A evs' ns eq_refl) as (-> & ->). exists (map fst P). split; [exact E|]. split; [reflexivity|]. rewrite map_map. exact B.
  - exfalso. destruct R as [[_ R]|[[_ (p & L & R)]|[_ (j & R)]]].
    + rewrite app_length in R. cbn [length] in R. lia.
    + rewrite map_app in L. cbn [map] in L. rewrite last_last in L. injection L as <-. discriminate R.
    + apply in_app_or in R as [R|[R|[]]]; [|discriminate R]. rewrite Forall_forall in C. specialize (C _ R). discriminate C.
Qed.
Print Assumptions C39_straight.

Example C39_straight_ex : let evs := [(5, Instr 3 7); (9, Note 60 100 true 48); (2, Random 60 [100] 10 20); (4, Byte1 0xC1 90); (3, Rest 96)] in
  NoDup (map fst (evs ++ [(1, Bare 0xFF)])) /\ Forall (fun p => straight (snd p)) evs /\
  match saveSequenceEvents (evs ++ [(1, Bare 0xFF)]) [] with Err _ => False | Ok (data, _) =>
    match readSequenceEvents 10 data [] with Err _ => False | Ok (evs', _) => map snd evs' = map snd evs ++ [Bare 0xFF] end end.
Proof.
  split; [repeat constructor; cbn; lia|]. split; [|vm_compute; reflexivity].
  repeat (apply Forall_cons; [unfold straight, ev_fits, ev_small, i16; cbn [snd]; repeat match goal with |- _ /\ _ => split end; try lia; try reflexivity; try exact Logic.I; repeat constructor; unfold is_byte; lia|]). apply Forall_nil.
Qed.

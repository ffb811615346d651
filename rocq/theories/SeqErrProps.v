(** C97: which exception the saving of a sequence event, and of a list of them, raises *)
From Verif Require Import PyBase PyLemmas SeqModel SeqSpec SeqErrSpec SeqErr.

Theorem C97_event_save_fails : forall pos e k, ev_save e pos = Err k <-> save_fault pos e k.
Proof. exact save_faults. Qed.
Print Assumptions C97_event_save_fails.
Example C97_event_ex :
  save_fault [] (Note 60 128 false 1) ValueError /\ ev_save (Note 60 128 false 1) [] = Err ValueError /\
  save_fault [] (Note 60 (-1) false 1) OverflowError /\ ev_save (Note 60 (-1) false 1) [] = Err OverflowError /\
  save_fault [(7, 2)] (Jump (Some 8)) KeyError /\ ev_save (Jump (Some 8)) [(7, 2)] = Err KeyError /\
  save_fault [] (FromVar 0xB0 3 None) ValueError /\ ev_save (FromVar 0xB0 3 None) [] = Err ValueError /\
  save_fault [] (Word1 0xE1 70000) StructError /\ ev_save (Word1 0xE1 70000) [] = Err StructError /\
  ev_save (Word1 0xE1 120) [] = Ok [0xE1; 120; 0].
Proof.
  split; [apply sf_velocity; lia|]. split; [vm_compute; reflexivity|]. split; [apply sf_negative; lia|]. split; [vm_compute; reflexivity|].
  split; [apply sf_jump; vm_compute; reflexivity|]. split; [vm_compute; reflexivity|]. split; [apply sf_unknown; lia|]. split; [vm_compute; reflexivity|].
  split; [apply sf_word; lia|]. split; vm_compute; reflexivity.
Qed.

Theorem C97_length_fails : forall e k, dataLength e = Err k <-> length_fault e k.
Proof. exact length_faults. Qed.
Print Assumptions C97_length_fails.
Example C97_length_ex : length_fault (Random 0xFF [] 0 1) ValueError /\ dataLength (Random 0xFF [] 0 1) = Err ValueError /\
  length_fault (Random 0x90 [] 0 1) KeyError /\ dataLength (Random 0x90 [] 0 1) = Err KeyError /\ dataLength (Random 0xC1 [] 0 1) = Ok 6.
Proof.
  split; [apply lf_bare; cbn; auto|]. split; [vm_compute; reflexivity|]. split.
  - apply lf_unknown. unfold known_type. cbn. lia.
  - split; vm_compute; reflexivity.
Qed.

(** The whole list: the event objects are distinct. *)
Theorem C97_list_fails : forall evs notable k, NoDup (map fst evs) -> (saveSequenceEvents evs notable = Err k <-> list_fault evs notable k).
Proof. exact list_faults. Qed.
Print Assumptions C97_list_fails.

(** The only exceptions. *)
Theorem C97_exceptions : forall evs notable k, NoDup (map fst evs) -> saveSequenceEvents evs notable = Err k ->
  k = ValueError \/ k = OverflowError \/ k = KeyError \/ k = StructError.
Proof.
  intros evs notable k ND H. apply list_faults in H; [|exact ND]. inversion H as [a p b k' _ _ F|lens a p b k' _ _ _ F|lens n _ _ _ _]; subst.
  - inversion F; auto.
  - inversion F; auto.
  - auto.
Qed.
Print Assumptions C97_exceptions.

(** An event too far away: the jump back over more than 2^24 bytes is refused. *)
Theorem C97_jump_too_far : forall evs lens i j o notable, NoDup (map fst evs) ->
  Forall2 (fun q n => dataLength (snd q) = Ok n) evs lens -> In (i, Jump (Some j)) evs -> pos_of (offsets 0 evs lens) (Some j) = Some o -> 2 ^ 24 <= o ->
  exists k, saveSequenceEvents evs notable = Err k.
Proof.
  intros evs lens i j o notable ND FL I P F. destruct (saveSequenceEvents evs notable) as [r|k] eqn:S; [|exists k; reflexivity]. exfalso.
  assert (E : ev_save (Jump (Some j)) (offsets 0 evs lens) = Err OverflowError) by (apply save_faults; apply (sf_jump_far _ _ o); [exact P|lia]).
  destruct (first_failure (fun p => ev_save (snd p) (offsets 0 evs lens)) evs) as [(ys & FY)|(a & p & b & k & EV & A1 & A2)].
  - destruct (forall2_ok_in _ _ _ FY _ I) as (y & Y). cbn [snd] in Y. congruence.
  - assert (B : saveSequenceEvents evs notable = Err k); [|congruence]. apply list_faults; [exact ND|]. apply (lst_save evs notable lens a p b k FL EV); [|apply save_faults; exact A2].
    intros q k' Q X. destruct (A1 q Q) as (y & Y). apply save_faults in X. congruence.
Qed.
Print Assumptions C97_jump_too_far.

Example C97_list_ex :
  let bad := [(1, Rest 5); (2, Note 60 200 false 1); (3, Jump (Some 9))] in
  NoDup (map fst bad) /\ saveSequenceEvents bad [] = Err ValueError /\
  saveSequenceEvents [(1, Rest 5); (3, Jump (Some 9)); (2, Note 60 200 false 1)] [] = Err KeyError /\
  saveSequenceEvents [(1, Rest 5); (3, Jump (Some 9)); (2, Rest (-1))] [] = Err ValueError /\
  saveSequenceEvents [(1, Rest 5); (3, Jump (Some 1))] [8] = Err KeyError /\
  saveSequenceEvents [(1, Rest 5); (3, Jump (Some 1))] [3] = Ok ([0x80; 5; 0x94; 0; 0; 0], [2]).
Proof.
  cbn zeta. split; [repeat constructor; cbn; lia|]. repeat split; vm_compute; reflexivity.
Qed.
Example C97_far_ex : exists evs lens o, NoDup (map fst evs) /\ Forall2 (fun q n => dataLength (snd q) = Ok n) evs lens /\ In (1, Jump (Some 2)) evs /\
  pos_of (offsets 0 evs lens) (Some 2) = Some o /\ 2 ^ 24 <= o.
Proof.
  pose (z := zeros (2 ^ 24)). assert (LZ : zlen z = 2 ^ 24) by (apply zlen_zeros; lia).
  exists [(1, Jump (Some 2)); (3, Raw z); (2, Rest 0)], [4; zlen z; 2], (4 + zlen z).
  split; [repeat constructor; cbn; lia|]. split; [repeat constructor|]. split; [left; reflexivity|]. rewrite LZ. split; [|lia].
  cbn [offsets]. vm_compute. reflexivity.
Qed.

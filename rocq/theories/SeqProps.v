(** * Sound sequences: variable-length integers, events and event lists *)
From Verif Require Import PyBase PyLemmas SeqModel SeqSpec SeqLemmas SeqSave SeqParse SeqRead SeqTotal.

(** C37: variable-length integers *)
Theorem C37_written : forall x, 0 <= x -> exists b, vl_write x = Ok b /\ vl_length x = Ok (zlen b).
Proof. exact vl_written. Qed.
Print Assumptions C37_written.

(** the number of bytes is the least possible with seven bits per byte *)
Theorem C37_minimal : forall x b n, vl_write x = Ok b -> 1 <= n -> (zlen b <= n <-> x < 2 ^ (7 * n)).
Proof. exact vl_write_min. Qed.
Print Assumptions C37_minimal.

Theorem C37_read_back : forall x b pre post, vl_write x = Ok b ->
  vl_read (pre ++ b ++ post) (zlen pre) = if x <? 2 ^ 35 then Ok x else Err ValueError.
Proof. exact vl_read_write. Qed.
Print Assumptions C37_read_back.

Example C37_ex : vl_write 0 = Ok [0] /\ vl_write 127 = Ok [127] /\ vl_write 128 = Ok [0x81; 0]
  /\ vl_length 16384 = Ok 3 /\ vl_read ([9; 9] ++ [0x81; 0] ++ [0xFF]) 2 = Ok 128
  /\ (exists b, vl_write (2 ^ 35) = Ok b /\ zlen b = 6 /\ vl_read b 0 = Err ValueError)
  /\ (exists b, vl_write (2 ^ 35 - 1) = Ok b /\ zlen b = 5 /\ vl_read b 0 = Ok (2 ^ 35 - 1))
  /\ vl_write (-1) = Err ValueError.
Proof.
  repeat match goal with |- _ /\ _ => split end; try (vm_compute; reflexivity);
    eexists; repeat split; vm_compute; reflexivity.
Qed.

(** C38: every event except the FromVariable ones occupies its announced length.
    [ev_fits e]: the fields are in the ranges of the format; for a Random event the
    arguments match the sub-type, and an instrument number is below 128. *)
Theorem C38_announced_length_partial : forall e e2o b,
  ev_fits e -> is_fromvar e = false -> ev_save e e2o = Ok b -> dataLength e = Ok (zlen b).
Proof. intros e e2o b F N S. exact (ev_save_length e e2o b F N S). Qed.
Print Assumptions C38_announced_length_partial.

(** so a list of distinct events is laid out without overlaps or gaps *)
Theorem C38_no_overlap_partial : forall evs notable data os,
  NoDup (map fst evs) -> Forall (fun p => ev_fits (snd p) /\ is_fromvar (snd p) = false) evs ->
  saveSequenceEvents evs notable = Ok (data, os) ->
  exists e2o bs, data = concat bs /\ Forall2 (fun p b => ev_save (snd p) e2o = Ok b) evs bs.
Proof. exact save_concat. Qed.
Print Assumptions C38_no_overlap_partial.

(** events with in-range fields whose references resolve can be saved *)
Theorem C38_savable : forall e e2o, ev_fits e ->
  (has_ref e = true -> exists o, pos_of e2o (ev_ref e) = Some o /\ 0 <= o < 2 ^ 24) ->
  exists b, ev_save e e2o = Ok b.
Proof. exact ev_savable. Qed.
Print Assumptions C38_savable.

(** the missing case: no FromVariable event has its announced length *)
Theorem C38_fromvariable_refuted : forall s v u e2o b,
  ev_fits (FromVar s v u) -> ev_save (FromVar s v u) e2o = Ok b ->
  dataLength (FromVar s v u) = Ok (zlen b - if (0xB0 <=? s) && (s <=? 0xBD) then 2 else 1).
Proof. exact fromvar_length. Qed.
Print Assumptions C38_fromvariable_refuted.

(** and so the events after it overwrite its end, or its end stays behind the
    last event *)
Theorem C38_overlap_refuted : exists s v u,
  ev_fits (FromVar s v u) /\
  (exists b, ev_save (FromVar s v u) [] = Ok b /\
     saveSequenceEvents [(7, FromVar s v u); (9, Bare 0xFF)] [9] <> Ok (b ++ [0xFF], [zlen b])).
Proof.
  exists 0xC0, 1, None. split; [cbn [ev_fits]; unfold i16; lia|].
  eexists. split; [vm_compute; reflexivity|]. vm_compute. congruence.
Qed.
Print Assumptions C38_overlap_refuted.

(** events with every shape, as objects 10..25; references by object name *)
Definition ex_evs : list (Z * ev) :=
  [ (10, DefTracks [0; 1; 15]); (11, BeginTrack 1 (Some 23)); (12, Instr 1 5); (13, Word1 0xE1 120)
  ; (14, Byte1 0xC0 64); (15, Arith 0xB0 3 (-2)); (16, Bare 0xA2); (17, Jump (Some 20))
  ; (18, Note 60 100 false 96); (19, Rest 200); (20, Random 0xC1 [] (-5) 70); (21, Call (Some 24))
  ; (22, Jump (Some 14)); (23, Bare 0xFF); (24, Rest 3); (25, Bare 0xFD) ].

Lemma ex_fits : Forall (fun p => ev_fits (snd p) /\ is_fromvar (snd p) = false) ex_evs.
Proof.
  unfold ex_evs.
  repeat (apply Forall_cons; [split; [|reflexivity]; cbn [snd ev_fits]; unfold i16, is_bytes; cbn [In]; repeat split;
    repeat first [apply Forall_nil | apply Forall_cons]; try lia; try (vm_compute; congruence); try (intros; lia)|]).
  apply Forall_nil.
Qed.

Example C38_ex : NoDup (map fst ex_evs) /\
  Forall (fun p => ev_fits (snd p) /\ is_fromvar (snd p) = false) ex_evs /\
  (exists data, saveSequenceEvents ex_evs [19; 23] = Ok (data, [28; 45]) /\ zlen data = 49) /\
  (exists b, ev_save (Note 60 100 true 300) [] = Ok b /\ zlen b = 4 /\ dataLength (Note 60 100 true 300) = Ok 4).
Proof.
  split; [|split; [exact ex_fits|split; [eexists; split; vm_compute; reflexivity|eexists; repeat split; vm_compute; reflexivity]]].
  vm_compute. repeat constructor; cbn [In]; intuition discriminate.
Qed.
Example C38_ex_refuted : ev_fits (FromVar 0xB3 5 (Some (-1))) /\
  ev_save (FromVar 0xB3 5 (Some (-1))) [] = Ok [0xA1; 0xB3; 255; 5; 0; 0] /\ dataLength (FromVar 0xB3 5 (Some (-1))) = Ok 4.
Proof. split; [vm_compute; repeat split; congruence|split; vm_compute; reflexivity]. Qed.

(** C39, single events: parsing the saved bytes, wherever they are, gives the type
    byte and the event back.  The events that hold references (BeginTrack, Jump,
    Call) are covered by the list theorems below.  [ev_small]: durations below
    2^35, bank numbers below 2^28. *)
Theorem C39_event_roundtrip : forall e e2o b pre post t,
  ev_fits e -> ev_small e -> has_ref e = false -> ev_type e = Some t -> ev_save e e2o = Ok b ->
  get (pre ++ b ++ post) (zlen pre) = Ok t /\ fromData t (pre ++ b ++ post) (zlen pre) = Ok e.
Proof. exact fromData_save. Qed.
Print Assumptions C39_event_roundtrip.

(** C39, lists.  [seq_ok evs]: distinct objects, fields in range, destinations in
    the list, no FromVariable and no raw data events.  [placed pos 0 evs P] lays
    the events out one after the other: [P] lists offset, event (references
    replaced by offsets) and bytes.  Reading the saved data back gives the same
    list, except that runs of events the reader cannot reach are collapsed into
    raw data; nothing that is reachable by the control flow is lost; and saving
    what was read reproduces data and offsets.  [depth] is Python's recursion
    limit.  Reading fails only if the recursion is too deep, if the list does not
    end in Return or EndTrack, or if a track returns. *)
Theorem C39_list_roundtrip_partial : forall depth evs notable data os,
  seq_ok evs -> evs <> [] -> saveSequenceEvents evs notable = Ok (data, os) ->
  exists pos P, placed pos 0 evs P /\ data = concat (map snd P)
    /\ Forall2 (fun i o => pos_of pos (Some i) = Some o) notable os
    /\ match readSequenceEvents depth data os with
       | Ok (evs', notable') => exists vis, collapsed vis P evs'
           /\ (forall o, reachable (match os with [] => [0] | _ => os end) P o -> vis o)
           /\ notable' = os /\ saveSequenceEvents evs' notable' = Ok (data, os)
       | Err e => (e = RecursionError /\ (depth <= length evs)%nat)
           \/ (e = EOFError /\ exists p, last (map Some evs) None = Some p /\ is_end (snd p) = false)
           \/ (e = AssertionError /\ exists i, In (i, Bare 0xFD) evs)
       end.
Proof. exact seq_read. Qed.
Print Assumptions C39_list_roundtrip_partial.

(** if every event is reachable, the list comes back exactly *)
Theorem C39_list_exact : forall depth evs notable data os,
  seq_ok evs -> evs <> [] -> saveSequenceEvents evs notable = Ok (data, os) ->
  exists pos P, placed pos 0 evs P /\ data = concat (map snd P)
    /\ Forall2 (fun i o => pos_of pos (Some i) = Some o) notable os
    /\ ((forall o, In o (map (fun x => fst (fst x)) P) ->
           reachable (match os with [] => [0] | _ => os end) P o) ->
        forall evs' notable', readSequenceEvents depth data os = Ok (evs', notable') ->
          evs' = map fst P /\ notable' = os).
Proof. exact seq_read_all. Qed.
Print Assumptions C39_list_exact.

(** C52: the reader terminates on all bytes and raises nothing else than these; it
    needs no more nested calls than there are bytes *)
Theorem C52_reader_total : forall depth data os, is_bytes data -> Forall (fun o => 0 <= o) os ->
  match readSequenceEvents depth data os with
  | Ok (_, notable) => notable = os
  | Err e => e = EOFError \/ e = ValueError \/ e = KeyError \/ e = AssertionError
             \/ (e = RecursionError /\ (depth <= length data)%nat)
  end.
Proof. exact read_total. Qed.
Print Assumptions C52_reader_total.

(** lists with FromVariable events do not round trip *)
Theorem C39_fromvariable_refuted : exists data os evs',
  ev_fits (FromVar 0xC0 5 None) /\
  saveSequenceEvents [(0, FromVar 0xC0 5 None); (1, Bare 0xFF)] [0] = Ok (data, os) /\
  readSequenceEvents 10 data os = Ok (evs', os) /\ evs' <> [(0, FromVar 0xC0 5 None); (3, Bare 0xFF)].
Proof.
  eexists. eexists. eexists. split; [cbn [ev_fits]; unfold i16; lia|].
  split; [vm_compute; reflexivity|]. split; [vm_compute; reflexivity|]. vm_compute. congruence.
Qed.
Print Assumptions C39_fromvariable_refuted.

(** data the package did not write need not be reproduced: a rest of length 1
    written with two bytes *)
Theorem C39_bytes_refuted : exists data evs ns, is_bytes data /\
  readSequenceEvents 10 data [] = Ok (evs, ns) /\ saveSequenceEvents evs ns <> Ok (data, []).
Proof.
  exists [0x80; 0x80; 1; 2; 3; 0xFF]. eexists. eexists. split.
  { unfold is_bytes. repeat (apply Forall_cons; [unfold is_byte; lia|]). apply Forall_nil. }
  split; [vm_compute; reflexivity|]. vm_compute. congruence.
Qed.
Print Assumptions C39_bytes_refuted.

Lemma ex_ok : seq_ok ex_evs.
Proof.
  split; [vm_compute; repeat constructor; cbn [In]; intuition discriminate|].
  pose proof ex_fits as F. apply Forall_forall. intros p H.
  assert (FP := proj1 (Forall_forall _ _) F p H). destruct FP as [F1 F2]. split; [exact F1|].
  clear F F1. unfold ex_evs in H. cbn [In] in H.
  repeat (destruct H as [<-|H]; [cbn [snd ev_small is_fromvar is_raw has_ref ev_ref];
    repeat split; try lia; try discriminate; intros _; eexists; (split; [reflexivity|vm_compute; tauto])|]).
  destruct H.
Qed.
(** a list in which two runs cannot be reached *)
Definition ex_evs2 : list (Z * ev) :=
  [(1, Rest 5); (2, Jump (Some 5)); (3, Rest 300); (4, Note 1 2 false 3); (5, Jump (Some 1)); (6, Bare 0xFF)].
Example C39_ex : seq_ok ex_evs /\ ex_evs <> [] /\
  (exists data, saveSequenceEvents ex_evs [10; 23] = Ok (data, [0; 45]) /\
     exists evs', readSequenceEvents 100 data [0; 45] = Ok (evs', [0; 45]) /\
       map fst evs' = [0; 3; 8; 11; 14; 16; 20; 21; 25; 28; 31; 37; 41; 45; 46; 48]) /\
  (exists data, saveSequenceEvents ex_evs2 [1] = Ok (data, [0]) /\
     readSequenceEvents 100 data [0]
     = Ok ([(0, Rest 5); (2, Jump (Some 12)); (6, Raw [0x80; 0x82; 0x2C; 1; 2; 3]); (12, Jump (Some 0)); (16, Raw [255])], [0])).
Proof.
  split; [exact ex_ok|]. split; [discriminate|]. split.
  - eexists. split; [vm_compute; reflexivity|]. eexists. split; [vm_compute; reflexivity|]. vm_compute; reflexivity.
  - eexists. split; [vm_compute; reflexivity|]. vm_compute; reflexivity.
Qed.
Example C52_ex : readSequenceEvents 50 [0x94; 0; 0; 0] [] = Ok ([(0, Jump (Some 0))], []) /\
  readSequenceEvents 2 [0x94; 4; 0; 0; 0x94; 8; 0; 0; 0xFF] [] = Err RecursionError /\
  readSequenceEvents 50 [0x80] [0] = Err EOFError /\ readSequenceEvents 50 [0xFD] [] = Err AssertionError /\
  readSequenceEvents 50 [0x82] [] = Err ValueError /\ readSequenceEvents 50 [0xA0; 0x82; 0; 0; 0; 0; 0] [] = Err KeyError.
Proof. repeat split; vm_compute; reflexivity. Qed.

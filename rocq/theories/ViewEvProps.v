(** * C115: what arbitrary sequence data are read as *)
From Verif Require Import PyBase PyLemmas SeqModel SeqSpec RomSpec ViewSpec ViewSdatSpec ViewEvSpec ViewEv ViewEvAll ViewTexProps.

(** the event at a place is what the bytes there say, or there is none *)
Theorem C115_event d p e : is_bytes d -> 0 <= p < zlen d -> (fromData (byte d p) d p = Ok e <-> says d p e /\ has_ref e = false).
Proof. apply event_iff. Qed.
Print Assumptions C115_event.
Example C115_event_ex : says [9; 60; 228; 0x81; 0x23] 1 (Note 60 100 true 163) /\ says [0xA0; 0xB1; 4; 5; 254; 255; 3; 0] 0 (Random 0xB1 [4; 5] (-2) 3) /\
  says [0xFE; 5; 128] 0 (DefTracks [0; 2; 15]).
Proof. repeat split; try reflexivity; try lia; try (vm_compute; reflexivity). exists 2. repeat split; try lia; try reflexivity. intros i I. assert (i = 0) as -> by lia. vm_compute. discriminate. Qed.
(** the number of bytes it takes is known *)
Theorem C115_length d p e : is_bytes d -> says d p e -> dataLength e = Ok (takes e) /\ 1 <= takes e.
Proof. apply takes_ok. Qed.
Print Assumptions C115_length.
(** numbers are counted as short as can be: the event after this rest is read at its second byte *)
Example C115_length_ex : says [0x80; 0x80; 5; 0xFF] 0 (Rest 5) /\ takes (Rest 5) = 2.
Proof. split; [|reflexivity]. split; [vm_compute; intuition discriminate|]. split; [reflexivity|]. exists 2. repeat split; try lia; try reflexivity; try (vm_compute; discriminate). intros i I. assert (i = 0) as -> by lia. vm_compute. discriminate. Qed.

(** Whatever is read: the list covers the data from start to end with the events found,
    and raw data in between.  An event is found at every start, after every event
    that does not jump, call, return or end, and at every destination; and
    nowhere that cannot be played. *)
Theorem C115_read depth d os l ns : is_bytes d -> Forall (fun o => 0 <= o) os -> readSequenceEvents depth d os = Ok (l, ns) ->
  ns = os /\ exists found : Z -> ev -> Prop,
  (forall p e, found p e -> says d p e) /\
  (forall o, In o (match os with [] => [0] | _ => os end) -> exists e, found o e) /\
  (forall p e, found p e -> is_control e = false \/ (exists n r, e = BeginTrack n r) -> exists e', found (p + takes e) e') /\
  (forall p e q, found p e -> ev_ref e = Some q -> exists e', found q e') /\
  (forall p e, found p e -> exists s, In s (match os with [] => [0] | _ => os end) /\ reaches d s p) /\
  listed d found 0 l.
Proof. apply read_view. Qed.
Print Assumptions C115_read.
Definition tune : bytes := [0x93; 1; 10; 0; 0; 60; 100; 24; 0xFF; 7; 0x81; 3; 0x94; 10; 0; 0].
Example C115_read_ex : readSequenceEvents 10 tune [] = Ok ([(0, BeginTrack 1 (Some 10)); (5, Note 60 100 false 24); (8, Bare 0xFF); (9, Raw [7]); (10, Instr 0 3); (12, Jump (Some 10))], []) /\ reaches tune 0 12.
Proof. split; [vm_compute; reflexivity|]. apply (next tune 0 10 (Instr 0 3)); [apply (there tune 0 0 (BeginTrack 1 (Some 10))); [apply here| |reflexivity]; repeat split; try lia; reflexivity| |left; reflexivity].
  split; [vm_compute; intuition discriminate|]. split; [reflexivity|]. split; [lia|]. exists 1. repeat split; try lia; try reflexivity; try (vm_compute; discriminate). Qed.

(** Not all that can be played is found: a jump that was read is taken for one that
    never comes back (soundSequence.py:1298-1322 leaves its fate "in progress"), so that what follows the
    second call of a part with a jump is raw data. *)
Definition twice : bytes := [0x95; 11; 0; 0; 0x95; 11; 0; 0; 0x80; 5; 0xFF; 0x94; 15; 0; 0; 0xFD].
Theorem C115_call_refuted : ~ (forall depth d l ns s p e, is_bytes d -> readSequenceEvents depth d [s] = Ok (l, ns) -> reaches d s p -> says d p e -> In (p, e) l).
Proof.
  intros H. assert (C4 : reaches twice 0 4 /\ reaches twice 0 8).
  { assert (J : reaches twice 11 15) by (apply (there twice 11 11 (Jump (Some 15))); [apply here| |reflexivity]; repeat split; try lia; try reflexivity).
    assert (F : says twice 15 (Bare 0xFD)) by (repeat split; try lia; try reflexivity; cbn [In]; lia).
    assert (R4 : reaches twice 0 4) by (apply (returned twice 0 0 11 15); [apply here| |exact J|exact F]; repeat split; try lia; try reflexivity).
    split; [exact R4|]. apply (returned twice 0 4 11 15); [exact R4| |exact J|exact F]; repeat split; try lia; try reflexivity. }
  assert (S : says twice 8 (Rest 5)).
  { split; [vm_compute; intuition discriminate|]. split; [reflexivity|]. exists 1. repeat split; try lia; try reflexivity; try (vm_compute; discriminate). }
  specialize (H 10%nat twice [(0, Call (Some 11)); (4, Call (Some 11)); (8, Raw [0x80; 5; 0xFF]); (11, Jump (Some 15)); (15, Bare 0xFD)] [0] 0 8 (Rest 5) ltac:(unfold twice; all_bytes) ltac:(vm_compute; reflexivity) (proj2 C4) S).
  cbn [In] in H. intuition discriminate.
Qed.
Print Assumptions C115_call_refuted.
(** and a jump after an If is not taken for one that may be skipped if it was read
    before the If was *)
Definition branch : bytes := [0x93; 1; 6; 0; 0; 0xA2; 0x94; 12; 0; 0; 0x80; 5; 0xFF].
Theorem C115_if_refuted : ~ (forall depth d l ns s p r e, is_bytes d -> readSequenceEvents depth d [s] = Ok (l, ns) -> In (p, Bare 0xA2) l -> In (p + 1, Jump r) l -> says d (p + 5) e -> In (p + 5, e) l).
Proof.
  intros H. assert (S : says branch (5 + 5) (Rest 5)).
  { split; [vm_compute; intuition discriminate|]. split; [reflexivity|]. exists 1. repeat split; try lia; try reflexivity; try (vm_compute; discriminate). }
  specialize (H 10%nat branch [(0, BeginTrack 1 (Some 6)); (5, Bare 0xA2); (6, Jump (Some 12)); (10, Raw [0x80; 5]); (12, Bare 0xFF)] [0] 0 5 (Some 12) (Rest 5) ltac:(unfold branch; all_bytes) ltac:(vm_compute; reflexivity) ltac:(cbn [In]; tauto) ltac:(cbn [In Z.add Pos.add Pos.succ]; tauto) S).
  cbn [In] in H. intuition discriminate.
Qed.
Print Assumptions C115_if_refuted.

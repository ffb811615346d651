(** * C129: sound banks are changed

    An arbitrary bank file is loaded, its instruments are removed, moved, changed and added,
    and it is saved and read again. *)
From Coq Require Import String.
From Verif Require Import PyBase PyLemmas PyTac WaveModel SbnkModel SbnkSpec SbnkLemmas SbnkBank SbnkInacc SbnkLoaded SbnkKept SbnkProps SbnkInaccProps.
From Verif Require EditSdatProps.

Lemma make_fits f t o i n : is_bytes f -> 0 <= o -> 0 <= t -> makeInstrumentAt f t o = Ok (Some i, n) -> body_fits (iBody i).
Proof.
  intros B O T0 H. unfold makeInstrumentAt in H. destruct (Z.eqb_spec t 0) as [?|T]; [discriminate|]. apply bind_ok in H as ([bd m] & H & E). injection E as <- <-. cbn [iBody].
  revert H. destruct (Z.ltb_spec t 16) as [T1|T1]; [|destruct (Z.eqb_spec t 16) as [T2|T2]; [|destruct (Z.eqb_spec t 17) as [T3|T3]; [|discriminate]]]; intros H.
  - unfold single_fromData in H. apply bind_ok in H as (nn & N & H). injection H as <- <-. unfold note_fromData in N. apply note_kept in N as (F & NB & L & TY); [|apply is_bytes_slice; exact B|lia].
    cbn [body_fits]. split; [exact F|lia].
  - unfold range_fromData in H. apply bind_ok in H as (x1 & X1 & H). apply bind_ok in H as (x2 & X2 & H). apply bind_ok in H as (ns & N & H). injection H as <- <-.
    apply unpack_le in X1 as (A1 & L1 & R1); [|exact B|lia]. apply unpack_le in X2 as (A2 & L2 & R2); [|exact B|lia]. change (256 ^ Z.of_nat 1) with 256 in *. change (Z.of_nat 1) with 1 in *.
    apply (notesT_kept f (o + 2) B ltac:(lia)) in N as (F & L & C); [|lia]. cbn [body_fits]. repeat split; try lia. exact F.
  - unfold regional_fromData in H. apply bind_ok in H as (ends & X1 & H). apply bind_ok in H as (rs & R & H). injection H as <- <-.
    pose proof (rd_ok_inv _ _ _ _ O X1) as L. rewrite (rd_slice f o 8 O ltac:(lia) L) in X1. injection X1 as <-.
    apply (regions_kept f o B O) in R as (F & (rest & ER) & C); [|lia|apply is_bytes_slice; exact B].
    cbn [body_fits]. split; [|exact F]. pose proof (zlen_slice f o (o + 8) ltac:(lia) ltac:(lia)) as ZS; rewrite ER, zlen_app, zlen_map in ZS; pose proof (zlen_nonneg rest); lia.
Qed.

(** whatever is read can be expressed in the format and saved *)
Theorem C129_read : forall order f u w b i, is_bytes f -> sbnk_load order f u w = Ok b -> member b i -> expressible (iBody i) /\ exists r, body_save (iBody i) = Ok r.
Proof.
  intros order f u w b i B LD M. destruct (load_found _ _ _ _ _ B LD) as (h & _ & (D1 & D2 & D3) & D4). destruct (load_types _ _ _ _ _ B LD) as (_ & _ & TI & _).
  assert (Q : 0 <= iKey i /\ exists t, 0 <= t /\ makeInstrumentAt f t (iKey i) = Ok (Some i, body_size (iBody i))).
  { pose proof (TI i M) as TY. destruct M as [M|(k & l & A & M)].
    - destruct (D4 i M) as (K & _ & t & E). split; [exact K|]. exists t. split; [|exact E]. rewrite (proj1 (make_type _ _ _ _ _ E)) in TY. lia.
    - destruct (D2 k l A) as (_ & _ & FD). destruct (FD i M) as (K & _ & (t & E) & _). pose proof (zlen_nonneg (bInsts b)). split; [lia|]. exists t. split; [|exact E]. rewrite (proj1 (make_type _ _ _ _ _ E)) in TY. lia. }
  destruct Q as (K & t & T & E). split; [exact (C42_instrument_only_expressible _ _ _ _ _ T E)|]. eexists. apply body_save_ok. exact (make_fits _ _ _ _ _ B K T E).
Qed.
Print Assumptions C129_read.

(** instruments of [b], listed or not, and new ones *)
Definition known_or_new (b : sbnk) (i : inst) : Prop := (exists j, member b j /\ iBody j = iBody i) \/ (expressible (iBody i) /\ exists r, body_save (iBody i) = Ok r).
Lemma known_ok order f u w b i : is_bytes f -> sbnk_load order f u w = Ok b -> known_or_new b i -> expressible (iBody i) /\ exists r, body_save (iBody i) = Ok r.
Proof. intros B LD [(j & M & <-)|H]; [exact (C129_read _ _ _ _ _ _ B LD M)|exact H]. Qed.

(** without inaccessible instruments, what is saved is read again, under the same IDs, and
    saving it again gives the same file *)
Theorem C129_edited : forall order order' f u w b insts1 u1 wars1 f1 v1 x1 w', is_bytes f -> sbnk_load order f u w = Ok b ->
  (forall i, In (Some i) insts1 -> known_or_new b i) -> sbnk_save {| bInsts := insts1; bInacc := []; bUnk := u1; bWars := wars1 |} = Ok (f1, v1, x1) ->
  v1 = u1 /\ x1 = wars1 /\ exists b1, sbnk_load order' f1 v1 w' = Ok b1 /\ map (option_map iBody) (bInsts b1) = map (option_map iBody) insts1 /\ bInacc b1 = [] /\ bUnk b1 = u1 /\
    bWars b1 = match w' with Some l => strip_none l | None => [] end /\ sbnk_save b1 = Ok (f1, v1, match w' with Some l => strip_none l | None => [] end).
Proof.
  intros order order' f u w b insts1 u1 wars1 f1 v1 x1 w' B LD K SV.
  assert (BE : bank_expressible {| bInsts := insts1; bInacc := []; bUnk := u1; bWars := wars1 |}) by (split; [reflexivity|]; intros i I; exact (known_ok _ _ _ _ _ _ B LD (K i I))).
  destruct (C42_bank_roundtrip order' _ _ _ _ w' [] BE SV) as (E1 & E2 & b1 & L1 & I1 & A1 & U1 & W1 & _). cbn [bUnk bWars bInsts] in *. pose proof (C54_resave order' _ _ _ _ w' [] b1 BE SV L1) as RS. rewrite app_nil_r in L1.
  split; [exact E1|]. split; [exact E2|]. exists b1. split; [exact L1|]. split; [exact I1|]. split; [exact A1|]. split; [congruence|]. split; [exact W1|exact RS].
Qed.
Print Assumptions C129_edited.

(** with any inaccessible instruments, the file can be read and the listed ones are the same *)
Theorem C129_listed : forall order order' f u w b b1 f1 v1 x1 w', is_bytes f -> sbnk_load order f u w = Ok b ->
  (forall i, member b1 i -> known_or_new b i) -> sbnk_save b1 = Ok (f1, v1, x1) ->
  exists b2, sbnk_load order' f1 v1 w' = Ok b2 /\ map (option_map iBody) (bInsts b2) = map (option_map iBody) (bInsts b1) /\ bUnk b2 = bUnk b1 /\ bWars b2 = match w' with Some l => strip_none l | None => [] end.
Proof.
  intros order order' f u w b b1 f1 v1 x1 w' B LD K SV. destruct (EditSdatProps.C120_bank order' b1 f1 v1 x1 w' [] (fun i M => proj1 (known_ok _ _ _ _ _ _ B LD (K i M))) SV) as (E1 & _ & b2 & L2 & I2 & U2 & W2).
  rewrite app_nil_r in L2. exists b2. split; [exact L2|]. split; [exact I2|]. split; [congruence|exact W2].
Qed.
Print Assumptions C129_listed.

(** a file with a table of two entries and an instrument that no entry points to: that one is
    listed, the first is moved, the second is removed, and a new one is added *)
Definition hidden_file : bytes := match sbnk_save {| bInsts := [Some {| iBody := Single (demo_note 3); iKey := 0; iMerge := 0 |}; Some {| iBody := Regional [(40, demo_note 1); (127, demo_note 2)]; iKey := 1; iMerge := 1 |}];
  bInacc := [(Some 0, [{| iBody := Single (demo_note 5); iKey := 0; iMerge := 5 |}])]; bUnk := 0; bWars := [] |} with Ok (f, _, _) => f | Err _ => [] end.
Definition an_inst (b : ibody) (k : Z) : inst := {| iBody := b; iKey := k; iMerge := k |}.
Definition ex_insts : list (option inst) := [Some (an_inst (Single (demo_note 5)) 0); None; Some (an_inst (Single (demo_note 3)) 1); Some (an_inst (Ranged 30 [demo_note 7; demo_note 8]) 2)].
Example C129_ex : is_bytes hidden_file /\ exists b, sbnk_load [1; 16; 17] hidden_file 0 None = Ok b /\ map (option_map iBody) (bInsts b) = [Some (Single (demo_note 3)); Some (Regional [(40, demo_note 1); (127, demo_note 2)])] /\
  map (fun p => (fst p, map iBody (snd p))) (bInacc b) = [(Some 0, [Single (demo_note 5)])] /\ (forall i, In (Some i) ex_insts -> known_or_new b i) /\
  match (r <- sbnk_save {| bInsts := ex_insts; bInacc := []; bUnk := 0; bWars := [] |} ;; sbnk_load [1; 16; 17] (fst (fst r)) 0 None) with Err _ => False | Ok b1 => map (option_map iBody) (bInsts b1) = map (option_map iBody) ex_insts end.
Proof.
  split; [match goal with |- is_bytes ?x => let y := eval vm_compute in x in change (is_bytes y) end; repeat (apply Forall_cons; [split; discriminate || reflexivity|]); apply Forall_nil|].
  eexists. split; [vm_compute; reflexivity|]. split; [reflexivity|]. split; [reflexivity|]. split; [|vm_compute; reflexivity].
  intros i [E|[E|[E|[E|[]]]]]; try discriminate E; injection E as <-.
  - left. eexists. split; [right; eexists; eexists; split; [left; reflexivity|left; reflexivity]|reflexivity].
  - left. eexists. split; [left; left; reflexivity|reflexivity].
  - right. split; [exact Logic.I|]. eexists. vm_compute. reflexivity.
Qed.

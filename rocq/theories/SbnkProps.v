(** * Sound banks *)
From Coq Require Import String.
From Verif Require Import PyBase PyLemmas WaveModel SsarLemmas SeqTotal SbnkModel SbnkLemmas SbnkBank.

(** ** C42: note definitions *)
Theorem C42_note_layout : forall n d, note_save n = Ok d <->
  (0 <= nWave n < 2 ^ 16 /\ 0 <= nArch n < 2 ^ 16 /\ 0 <= nPitch n < 2 ^ 8 /\ 0 <= nAttack n < 2 ^ 8 /\ 0 <= nDecay n < 2 ^ 8 /\
   0 <= nSustain n < 2 ^ 8 /\ 0 <= nRelease n < 2 ^ 8 /\ 0 <= nPan n < 2 ^ 8) /\
  d = le 2 (nWave n) ++ le 2 (nArch n) ++ [nPitch n; nAttack n; nDecay n; nSustain n; nRelease n; nPan n].
Proof.
  intros n d. assert (E : note_fits n -> note_bytes n = le 2 (nWave n) ++ le 2 (nArch n) ++ [nPitch n; nAttack n; nDecay n; nSustain n; nRelease n; nPan n]).
  { intros (H1 & H2 & H3 & H4 & H5 & H6 & H7 & H8). unfold note_bytes. cbn [le]. rewrite !(Z.mod_small (nPitch n)), !(Z.mod_small (nAttack n)), !(Z.mod_small (nDecay n)), !(Z.mod_small (nSustain n)), !(Z.mod_small (nRelease n)), !(Z.mod_small (nPan n)) by lia. reflexivity. }
  change (2 ^ 16) with 65536. change (2 ^ 8) with 256. split.
  - intros H. apply note_save_inv in H as [F ->]. split; [exact F|apply E, F].
  - intros [F ->]. rewrite <- E by exact F. apply note_save_ok, F.
Qed.
Print Assumptions C42_note_layout.

(** saved with its type, or saved without and read back with the same type *)
Theorem C42_note_roundtrip : forall n d post, note_save n = Ok d -> note_fromData (d ++ post) (nType n) = Ok n.
Proof. intros n d post H. apply note_save_inv in H as [F ->]. apply note_fromData_hit; [exact F|reflexivity]. Qed.
Print Assumptions C42_note_roundtrip.
Theorem C42_typed_note_roundtrip : forall n d post, note_saveWithType n = Ok d -> note_fromDataWithType (d ++ post) = Ok n.
Proof. intros n d post H. apply noteT_save_inv in H as [F ->]. apply noteT_fromData_hit, F. Qed.
Print Assumptions C42_typed_note_roundtrip.

Definition demo_note (w : Z) : note :=
  {| nWave := w; nArch := 1; nPitch := 60; nAttack := 127; nDecay := 126; nSustain := 125; nRelease := 124; nPan := 64; nType := 1 |}.
Example C42_note_ex : exists d, note_save (demo_note 300) = Ok d /\ note_saveWithType (demo_note 300) = Ok ([1; 0] ++ d) /\
  note_fromData (d ++ [9]) 1 = Ok (demo_note 300) /\ note_saveWithType (demo_note 65536) = Err StructError.
Proof. eexists. split; [vm_compute; reflexivity|]. repeat split. Qed.

(** ** C42: instruments *)

(** what the format can express: the type of a single-note instrument is its note's
    and must not be 0; a regional instrument has a region, and only the first may
    end at pitch 0 *)
Definition expressible (b : ibody) : Prop :=
  match b with
  | Single n => 1 <= nType n <= 15
  | Ranged _ _ => True
  | Regional rs => exists r rest, rs = r :: rest /\ forall x, In x rest -> fst x <> 0
  end.

(** such an instrument is read back wherever its data is put, with the number of
    bytes it takes *)
Theorem C42_instrument_roundtrip : forall b t d pre post, expressible b -> body_save b = Ok (t, d) ->
  makeInstrumentAt (pre ++ d ++ post) t (zlen pre) = Ok (Some {| iBody := b; iKey := zlen pre; iMerge := zlen pre |}, zlen d).
Proof.
  intros b t d pre post E H. apply body_save_inv in H as (F & -> & ->).
  - apply make_hit; [exact F|]. destruct b as [n|f ns|rs]; try exact I. destruct E as (r & rest & -> & E). apply Forall_forall, E.
  - destruct b; try exact I. cbn [expressible] in E. lia.
Qed.
Print Assumptions C42_instrument_roundtrip.

(** and nothing else is ever read *)
Theorem C42_instrument_only_expressible : forall data t o i n, 0 <= t -> makeInstrumentAt data t o = Ok (Some i, n) -> expressible (iBody i).
Proof.
  intros data t o i n T H. pose proof (make_good _ _ _ _ _ H) as G. destruct (iBody i) as [nn|f ns|rs] eqn:B; cbn [expressible]; [|exact I|].
  - unfold makeInstrumentAt in H. destruct (t =? 0) eqn:T0; [discriminate|]. apply bind_ok in H as ([b m] & H & E). injection E as E _. subst i. cbn [iBody] in B. subst b.
    revert H. destruct (t <? 16) eqn:T1; [|destruct (t =? 16); [|destruct (t =? 17); [|discriminate]]]; intros H.
    + unfold single_fromData in H. apply bind_ok in H as (n0 & H & E). injection E as -> _. assert (X : nType nn = t); [|lia].
      unfold note_fromData, note_read in H. repeat (apply bind_ok in H as (? & _ & H)). injection H as <-. reflexivity.
    + unfold range_fromData in H. apply bind_ok in H as (x1 & _ & H). apply bind_ok in H as (x2 & _ & H). apply bind_ok in H as (x3 & _ & H). discriminate.
    + unfold regional_fromData in H. apply bind_ok in H as (x1 & _ & H). apply bind_ok in H as (x2 & _ & H). discriminate.
  - cbn [body_good] in G. destruct rs as [|r rest]; [destruct G|]. exists r, rest. split; [reflexivity|]. apply Forall_forall, G.
Qed.
Print Assumptions C42_instrument_only_expressible.

Theorem C42_too_many_regions : forall rs, 8 < zlen rs -> body_save (Regional rs) = Err ValueError.
Proof. exact too_many. Qed.
Print Assumptions C42_too_many_regions.

(** so the claim for all instruments fails: a second region that ends at pitch 0, no
    region at all, a single note of type 0 *)
Theorem C42_instruments_refuted :
  exists b1 b2 b3 d1 d2 d3, body_save b1 = Ok (17, d1) /\ body_save b2 = Ok (17, d2) /\ body_save b3 = Ok (0, d3) /\
    (forall i n, makeInstrumentAt d1 17 0 = Ok (Some i, n) -> iBody i <> b1) /\
    (exists e, makeInstrumentAt d2 17 0 = Err e) /\ makeInstrumentAt d3 0 0 = Ok (None, 0).
Proof.
  exists (Regional [(50, demo_note 1); (0, demo_note 2)]), (Regional []), (Single {| nWave := 0; nArch := 0; nPitch := 60; nAttack := 0; nDecay := 0; nSustain := 0; nRelease := 0; nPan := 0; nType := 0 |}).
  do 3 eexists. split; [vm_compute; reflexivity|]. split; [vm_compute; reflexivity|]. split; [vm_compute; reflexivity|]. split; [|split].
  - intros i n. vm_compute. intros [= <- _]. discriminate.
  - eexists. vm_compute. reflexivity.
  - reflexivity.
Qed.
Print Assumptions C42_instruments_refuted.

Example C42_inst_ex : exists d, body_save (Regional [(0, demo_note 7); (60, demo_note 8); (127, demo_note 9)]) = Ok (17, d) /\ zlen d = 44 /\
  expressible (Regional [(0, demo_note 7); (60, demo_note 8); (127, demo_note 9)]) /\
  body_save (Regional (repeat (60, demo_note 1) 9)) = Err ValueError.
Proof.
  eexists. split; [vm_compute; reflexivity|]. split; [reflexivity|]. split; [|reflexivity].
  do 2 eexists. split; [reflexivity|]. cbn. intros x [<-|[<-|[]]]; discriminate.
Qed.

(** ** C42, C54: whole banks without inaccessible instruments *)
Definition bank_expressible (b : sbnk) : Prop :=
  bInacc b = [] /\ forall i, In (Some i) (bInsts b) -> expressible (iBody i) /\ exists r, body_save (iBody i) = Ok r.
Lemma bank_good b : bank_expressible b -> bInacc b = [] /\ insts_good (bInsts b).
Proof.
  intros [H1 H2]. split; [exact H1|]. intros i Hi. destruct (H2 i Hi) as [E [[t d] S]]. apply body_save_inv in S as (F & _).
  - split; [exact F|]. destruct (iBody i) as [n|f ns|rs]; try exact I. destruct E as (r & rest & -> & E). apply Forall_forall, E.
  - destruct (iBody i); try exact I. cbn [expressible] in E. lia.
Qed.
Lemma good_insts_ok b : bank_expressible b -> insts_ok (bInsts b).
Proof. intros G. apply good_ok, bank_good, G. Qed.
Lemma reloaded_nth b u w i x x' : nth_error (bInsts b) i = Some (Some x) -> nth_error (bInsts (reloaded b u w)) i = Some (Some x') ->
  iBody x' = iBody x /\ iMerge x' = snd (bank_row b (Some x)) /\ iKey x' = snd (bank_row b (Some x)).
Proof. intros H. cbn [reloaded bInsts]. rewrite nth_error_map, H. cbn [option_map relabel]. intros [= <-]. repeat split. Qed.

(** the instruments come back with their bodies at the same IDs, none is
    inaccessible, and two of them have the same place in the file exactly when their
    saved data and merge IDs are the same; the iteration order of sets does not matter *)
Theorem C42_bank_roundtrip : forall order b f u w w' post, bank_expressible b -> sbnk_save b = Ok (f, u, w) ->
  u = bUnk b /\ w = bWars b /\
  exists b', sbnk_load order (f ++ post) u w' = Ok b' /\
    map (option_map iBody) (bInsts b') = map (option_map iBody) (bInsts b) /\
    bInacc b' = [] /\ bUnk b' = u /\ bWars b' = match w' with Some l => strip_none l | None => [] end /\
    (forall i j x y x' y', nth_error (bInsts b) i = Some (Some x) -> nth_error (bInsts b) j = Some (Some y) ->
       nth_error (bInsts b') i = Some (Some x') -> nth_error (bInsts b') j = Some (Some y') ->
       (iMerge x' = iMerge y' <->
        (exists tx ty d, body_save (iBody x) = Ok (tx, d) /\ body_save (iBody y) = Ok (ty, d)) /\ iMerge x = iMerge y)).
Proof.
  intros order b f u w w' post G S. pose proof (good_insts_ok b G) as O. destruct (bank_good b G) as [H1 H2].
  pose proof S as S0. rewrite (sbnk_save_eq b H1 O) in S0. apply finish_inv in S0 as (_ & _ & _ & -> & ->). split; [reflexivity|]. split; [reflexivity|].
  exists (reloaded b (bUnk b) w'). split; [eapply sbnk_reload_tail; eassumption|]. split; [|split; [reflexivity|split; [reflexivity|split; [reflexivity|]]]].
  - cbn [reloaded bInsts]. rewrite map_map. apply map_ext. intros [i|]; reflexivity.
  - intros i j x y x' y' Hx Hy Hx' Hy'. destruct (reloaded_nth _ _ _ _ _ _ Hx Hx') as (_ & -> & _). destruct (reloaded_nth _ _ _ _ _ _ Hy Hy') as (_ & -> & _).
    apply nth_error_In in Hx. apply nth_error_In in Hy. rewrite (shared_iff b x y O Hx Hy). pose proof (body_save_ok _ (O _ Hx)) as Sx. pose proof (body_save_ok _ (O _ Hy)) as Sy. split.
    + intros [E1 E2]. split; [|exact E2]. rewrite E1 in Sx. do 3 eexists. split; eassumption.
    + intros [(tx & ty & d & E1 & E2) E3]. split; [|exact E3]. rewrite Sx in E1. rewrite Sy in E2. apply ok_inj in E1. apply ok_inj in E2. congruence.
Qed.
Print Assumptions C42_bank_roundtrip.

(** C54: saving the loaded bank gives the same file *)
Theorem C54_resave : forall order b f u w w' post b', bank_expressible b -> sbnk_save b = Ok (f, u, w) -> sbnk_load order (f ++ post) u w' = Ok b' ->
  sbnk_save b' = Ok (f, u, match w' with Some l => strip_none l | None => [] end).
Proof.
  intros order b f u w w' post b' G S L. pose proof (good_insts_ok b G) as O. destruct (bank_good b G) as [H1 H2].
  rewrite (sbnk_reload_tail order b f u w w' post H1 H2 S) in L. apply ok_inj in L. subst b'. eapply resave; eassumption.
Qed.
Print Assumptions C54_resave.

(** the wave archive IDs lose exactly their trailing Nones *)
Theorem C54_wave_archive_ids : forall l, exists k, l = strip_none l ++ repeat None k /\
  (forall p, strip_none l = p ++ [None] -> False) /\ strip_none (strip_none l) = strip_none l.
Proof.
  induction l as [|x l (k & E & N & I)]; [exists 0%nat; split; [reflexivity|split; [intros [|] H; discriminate|reflexivity]]|].
  cbn [strip_none]. destruct (strip_none l) as [|y r] eqn:R.
  - destruct x as [x|].
    + exists k. split; [cbn [app] in *; rewrite <- E; reflexivity|]. split; [|reflexivity]. intros [|p0 p] H; [discriminate|]. injection H as _ H. destruct p; discriminate.
    + exists (S k). split; [cbn [app repeat] in *; rewrite <- E; reflexivity|]. split; [intros [|] H; discriminate|reflexivity].
  - exists k. split; [cbn [app] in *; rewrite <- E; reflexivity|]. split.
    + intros [|p0 p] H; [discriminate|]. injection H as _ H. apply (N p), H.
    + cbn [strip_none] in *. rewrite I. reflexivity.
Qed.
Print Assumptions C54_wave_archive_ids.

Definition demo_bank : sbnk :=
  sbnk_fromInstruments
    [Some {| iBody := Regional [(40, demo_note 1); (127, demo_note 2)]; iKey := 0; iMerge := 0 |};
     None;
     Some {| iBody := Single (demo_note 3); iKey := 9; iMerge := 0 |};
     Some {| iBody := Ranged 30 [demo_note 1; demo_note 2]; iKey := 0; iMerge := 0 |};
     Some {| iBody := Single (demo_note 3); iKey := 5; iMerge := 0 |};
     Some {| iBody := Single (demo_note 3); iKey := 4; iMerge := 7 |}] 5 (Some [Some 2; None; Some 3; None]).
Example C42_bank_ex : bank_expressible demo_bank /\ exists f, sbnk_save demo_bank = Ok (f, 5, [Some 2; None; Some 3]) /\ zlen f = 164 /\
  match sbnk_load [16; 1; 17] f 5 (Some [Some 2; None; Some 3]) with
  | Ok b => sbnk_save b = Ok (f, 5, [Some 2; None; Some 3]) /\
      map (option_map iMerge) (bInsts b) = [Some 0x82; None; Some 0x5E; Some 0x68; Some 0x5E; Some 0x54]
  | Err _ => False end.
Proof.
  split.
  - split; [reflexivity|]. intros i H. cbn in H. destruct H as [H|[H|[H|[H|[H|[H|[]]]]]]]; try discriminate H; injection H as <-;
      (split; [cbn; try exact I; try lia|eexists; vm_compute; reflexivity]).
    do 2 eexists. split; [reflexivity|]. intros x [<-|[]]; discriminate.
  - eexists. split; [vm_compute; reflexivity|]. split; [reflexivity|]. vm_compute. split; reflexivity.
Qed.

(** an instrument no table entry points to is found, kept after the one before it,
    and written out again (a sanity check of the model; the theorems above cover
    only banks without such instruments) *)
Example C54_inaccessible_ex :
  match sbnk_save {| bInsts := [Some {| iBody := Single (demo_note 3); iKey := 0; iMerge := 0 |}];
                     bInacc := [(Some 0, [{| iBody := Single (demo_note 4); iKey := 0; iMerge := 0 |}])]; bUnk := 0; bWars := [] |} with
  | Ok (f, u, w) =>
      match sbnk_load [1; 16; 17] f u (Some w) with
      | Ok b => map (fun p => (fst p, map iBody (snd p))) (bInacc b) = [(Some 0, [Single (demo_note 4)])] /\ sbnk_save b = Ok (f, u, w)
      | Err _ => False end
  | Err _ => False end.
Proof. vm_compute. split; reflexivity. Qed.

(** the same with an instrument of several notes at the very end of the file *)
Example C54_inaccessible_range_ex :
  match sbnk_save {| bInsts := [Some {| iBody := Single (demo_note 3); iKey := 0; iMerge := 0 |}];
                     bInacc := [(Some 0, [{| iBody := Ranged 40 [demo_note 4; demo_note 5]; iKey := 0; iMerge := 0 |}])]; bUnk := 0; bWars := [] |} with
  | Ok (f, u, w) =>
      zlen f = 64 + 10 + 26 /\
      match sbnk_load [1; 16; 17] f u (Some w) with
      | Ok b => map (fun p => (fst p, map iBody (snd p))) (bInacc b) = [(Some 0, [Ranged 40 [demo_note 4; demo_note 5]])] /\ sbnk_save b = Ok (f, u, w)
      | Err _ => False end
  | Err _ => False end.
Proof. vm_compute. repeat split. Qed.

(** ** C53: loading terminates on every input *)
Theorem C53_bank_load_total : forall order f u w e, sbnk_load order f u w = Err e ->
  e = ValueError \/ e = AssertionError \/ e = StructError \/ e = IndexError.
Proof. intros order f u w e H. pose proof (sbnk_load_raises order f u w) as R. rewrite H in R. exact R. Qed.
Print Assumptions C53_bank_load_total.
(** all four occur *)
Definition demo_file (n size : Z) (rest : bytes) : bytes :=
  asc "SBNK" ++ le 2 0xFEFF ++ le 2 0x100 ++ le 4 size ++ le 2 16 ++ le 2 1 ++ asc "DATA" ++ zeros 36 ++ le 4 n ++ rest.
Example C53_ex : sbnk_load [1; 16; 17] [] 0 None = Err ValueError /\
  sbnk_load [1; 16; 17] (asc "SBNK") 0 None = Err StructError /\
  sbnk_load [1; 16; 17] (asc "SBNK" ++ le 2 0xFEFF ++ le 2 0x100 ++ zeros 60) 0 None = Err AssertionError /\
  sbnk_load [1; 16; 17] (demo_file 0 92 [0; 1; 0; 2]) 0 None = Err IndexError /\
  (exists b, sbnk_load [1; 16; 17] (demo_file 0 64 [0; 1; 0; 2]) 0 None = Ok b).
Proof. repeat split. eexists. vm_compute. reflexivity. Qed.

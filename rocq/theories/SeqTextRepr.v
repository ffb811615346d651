(** * Lemmas about the representations of sequence events *)
From Coq Require Import String.
From Verif Require Import PyBase PyLemmas SeqModel TextModel TextSpec TextLemmas SeqTextModel SeqTextSpec SeqTextLemmas.

Lemma cut_app c a r : ~ In c a -> cut c (a ++ c :: r) = Some (a, r).
Proof. induction a as [|d a IH]; intros N; cbn [app cut]; [rewrite Z.eqb_refl; reflexivity|]. destruct (Z.eqb_spec d c); [exfalso; apply N; left; assumption|]. rewrite IH by (intros I; apply N; right; exact I). reflexivity. Qed.
Lemma hexnumber_in s n : hexnumber s = Some n -> In 120 s.
Proof.
  unfold hexnumber. intros H.
  destruct s as [|a s]; [discriminate H|]. destruct a as [|p|p]; try discriminate H. do 6 (destruct p as [p|p|]; try discriminate H).
  - destruct s as [|b s]; [discriminate H|]. destruct b as [|p|p]; try discriminate H. do 6 (destruct p as [p|p|]; try discriminate H).
    destruct s as [|b s]; [discriminate H|]. destruct b as [|p|p]; try discriminate H. do 7 (destruct p as [p|p|]; try discriminate H). right. right. left. reflexivity.
  - destruct s as [|b s]; [discriminate H|]. destruct b as [|p|p]; try discriminate H. do 7 (destruct p as [p|p|]; try discriminate H). right. left. reflexivity.
Qed.
Lemma integer_str n : integer (str_int n) = Some n.
Proof.
  unfold integer. destruct (str_int_cons n) as (c & r & E & C).
  assert (B : forall x y, (x = 84 \/ x = 70) -> beq (str_int n) (x :: y) = false) by (intros x y X; apply beq_neq; rewrite E; intros [= -> _]; unfold numchar in C; lia).
  texts. rewrite !B by tauto. destruct (hexnumber (str_int n)) eqn:H; [|apply number_str]. exfalso. apply hexnumber_in in H. revert H. apply not_in_num; lia.
Qed.
Lemma hex_head n : exists c r, hex n = c :: r /\ (c = 45 \/ c = 48).
Proof. unfold hex, hex_nat. destruct (n <? 0); eexists _, _; split; try reflexivity; [left|right]; reflexivity. Qed.
Lemma integer_hex n : integer (hex n) = Some n.
Proof.
  unfold integer. destruct (hex_head n) as (c & r & E & C).
  assert (B : forall x y, (x = 84 \/ x = 70) -> beq (hex n) (x :: y) = false) by (intros x y X; apply beq_neq; rewrite E; intros [= -> _]; lia).
  texts. rewrite !B by tauto. rewrite hexnumber_hex. reflexivity.
Qed.
Lemma no_comma n : ~ In 44 (str_int n).
Proof. apply not_in_num; lia. Qed.
Lemma no_comma_hex n : ~ In 44 (hex n).
Proof. apply not_in_hex. unfold hexchar. lia. Qed.
Lemma strip_num n : strip_space (str_int n) = str_int n.
Proof. destruct (str_int_cons n) as (c & r & -> & C). apply numchar_cases in C. cbn [In] in C. repeat (destruct C as [<-|C]); try contradiction; reflexivity. Qed.
Lemma strip_hex n : strip_space (hex n) = hex n.
Proof. destruct (hex_head n) as (c & r & -> & [-> | ->]); reflexivity. Qed.
(** the texts that stand for the numbers *)
Definition spells (s : text) (n : Z) : Prop := s <> [] /\ ~ In 44 s /\ strip_space s = s /\ integer s = Some n.
Lemma spells_str n : spells (str_int n) n.
Proof. split; [destruct (str_int_cons n) as (c & r & -> & C); discriminate|]. split; [apply no_comma|]. split; [apply strip_num|apply integer_str]. Qed.
Lemma spells_hex n : spells (hex n) n.
Proof. split; [destruct (hex_head n) as (c & r & -> & C); discriminate|]. split; [apply no_comma_hex|]. split; [apply strip_hex|apply integer_hex]. Qed.
Lemma split_joined l : Forall (fun w => ~ In 44 w /\ strip_space w = w) l -> l <> [] -> map strip_space (split 44 (joined [44; 32] l)) = l.
Proof.
  intros F N. induction F as [|w l [W S] F IH]; [contradiction|]. destruct l as [|v l]; [cbn [joined]; rewrite split_none by exact W; cbn [map]; rewrite S; reflexivity|].
  change (joined [44; 32] (w :: v :: l)) with (w ++ 44 :: 32 :: joined [44; 32] (v :: l)). rewrite split_cons by exact W. cbn [map]. rewrite S. f_equal. specialize (IH ltac:(discriminate)). change (split 44 (32 :: joined [44; 32] (v :: l))) with (match split 44 (joined [44; 32] (v :: l)) with [] => [[32]] | p :: q => (32 :: p) :: q end).
  destruct (split 44 (joined [44; 32] (v :: l))) as [|p q] eqn:E; [discriminate IH|]. cbn [map]. cbn [map] in IH. cbn [strip_space].
  assert (Q : strip_space p = p).
  { destruct l as [|u l]; [cbn [joined] in E; apply Forall_cons_iff in F as [[V SV] _]; rewrite split_none in E by exact V; injection E as <- <-; exact SV|].
    change (joined [44; 32] (v :: u :: l)) with (v ++ 44 :: 32 :: joined [44; 32] (u :: l)) in E. apply Forall_cons_iff in F as [[V SV] _]. rewrite split_cons in E by exact V. injection E as <- <-. exact SV. }
  rewrite Q in IH. exact IH.
Qed.
Lemma integers_joined l ns : Forall2 spells l ns -> integers (joined [44; 32] l) = Some ns.
Proof.
  intros F. unfold integers, arguments. destruct F as [|s n l ns S F]; [reflexivity|].
  assert (G : Forall2 spells (s :: l) (n :: ns)) by (constructor; assumption). clear F. assert (NE : joined [44; 32] (s :: l) <> []) by (destruct S as (S & _); destruct s; [contradiction|]; destruct l; cbn [joined app]; discriminate).
  replace (match joined [44; 32] (s :: l) with [] => [] | _ :: _ => map strip_space (split 44 (joined [44; 32] (s :: l))) end) with (map strip_space (split 44 (joined [44; 32] (s :: l)))) by (destruct (joined [44; 32] (s :: l)); [contradiction|reflexivity]).
  rewrite split_joined; [|clear S NE; induction G as [|? ? ? ? (A & B & C & D)]; constructor; tauto|discriminate].
  clear S NE. induction G as [|a b l' ns' (A & B & C & D) G IH]; [reflexivity|]. cbn [map all_some]. rewrite D, IH. reflexivity.
Qed.
Lemma spells_all l : Forall2 spells (map str_int l) l.
Proof. induction l as [|x l IH]; constructor; [apply spells_str|exact IH]. Qed.
Lemma eval_call name args ns : ~ In 40 name -> Forall2 spells args ns ->
  beq name (asc "RawDataSequenceEvent") = false -> beq name (asc "DefineTracksSequenceEvent") = false -> beq name (asc "RandomSequenceEvent") = false ->
  eval_event (name ++ asc "(" ++ joined (asc ", ") args ++ asc ")") = construct name ns.
Proof.
  intros N F B1 B2 B3. unfold eval_event. change (asc "(") with [40]. cbn [app]. rewrite cut_app by exact N. cbn [obind fst snd]. change (asc ")") with [41]. rewrite before_last_app. cbn [obind]. rewrite B1, B2, B3.
  change (asc ", ") with [44; 32]. rewrite (integers_joined _ _ F). reflexivity.
Qed.
Lemma eval_call' s name args ns : s = name ++ asc "(" ++ joined (asc ", ") args ++ asc ")" -> forallb (fun c => negb (c =? 40)) name = true -> Forall2 spells args ns ->
  beq name (asc "RawDataSequenceEvent") = false -> beq name (asc "DefineTracksSequenceEvent") = false -> beq name (asc "RandomSequenceEvent") = false ->
  eval_event s = construct name ns.
Proof. intros -> N. apply eval_call. intros I. rewrite forallb_forall in N. specialize (N 40 I). discriminate N. Qed.

Lemma velocity_bits v (flag : bool) : 0 <= v < 128 -> Z.lor v (if flag then 0x80 else 0) mod 128 = v /\ (Z.lor v (if flag then 0x80 else 0) / 128 mod 2 =? 1) = flag.
Proof.
  intros V. assert (E : Z.lor v (if flag then 0x80 else 0) = v + (if flag then 128 else 0)).
  { destruct flag; [|rewrite Z.lor_0_r; lia]. rewrite Z.add_nocarry_lxor, Z.lxor_lor; try reflexivity;
    (apply Z.bits_inj_0; intros n; rewrite Z.land_spec; change 128 with (2 ^ 7); rewrite Z.pow2_bits_eqb by lia; destruct (Z.eqb_spec 7 n) as [<-|]; [|apply andb_false_r]; rewrite andb_true_r; apply Z.bits_above_log2; [lia|]; destruct (Z.eq_dec v 0) as [->|]; [reflexivity|]; apply Z.log2_lt_pow2; lia). }
  rewrite E. destruct flag.
  - split; [symmetry; apply Z.mod_unique with (q := 1); lia|]. replace ((v + 128) / 128) with 1; [reflexivity|]. apply Z.div_unique with (r := v); lia.
  - rewrite Z.add_0_r. split; [apply Z.mod_small; lia|]. rewrite Z.div_small by lia. reflexivity.
Qed.
Ltac spell := repeat first [apply Forall2_nil | apply Forall2_cons; [first [apply spells_str | apply spells_hex]|]].
Ltac flatten := cbn [joined]; texts; cbn [app]; repeat (rewrite <- app_assoc; cbn [app]); reflexivity.
Ltac call nm l := etransitivity; [eapply (eval_call' _ (asc nm) l); [flatten|reflexivity|spell|reflexivity|reflexivity|reflexivity]|].
Lemma eval_raw d : is_bytes d -> eval_event (asc "RawDataSequenceEvent(" ++ repr_bytes d ++ asc ")") = Some (Raw d).
Proof.
  intros B. change (asc "RawDataSequenceEvent(") with (asc "RawDataSequenceEvent" ++ [40]). rewrite <- app_assoc. cbn [app]. unfold eval_event. rewrite cut_app by (vm_compute; intuition discriminate). cbn [obind fst snd].
  change (asc ")") with [41]. rewrite before_last_app. cbn [obind]. change (beq (asc "RawDataSequenceEvent") (asc "RawDataSequenceEvent")) with true. cbv iota. rewrite literal_repr by exact B. reflexivity.
Qed.
Lemma eval_tracks l : eval_event (asc "DefineTracksSequenceEvent(" ++ (match l with [] => asc "set()" | _ => asc "{" ++ joined (asc ", ") (map str_int l) ++ asc "}" end) ++ asc ")") = Some (DefTracks l).
Proof.
  destruct l as [|x l]; [reflexivity|]. change (asc "DefineTracksSequenceEvent(") with (asc "DefineTracksSequenceEvent" ++ [40]). rewrite <- app_assoc. unfold eval_event. cbn [app]. rewrite cut_app by (vm_compute; intuition discriminate). cbn [obind fst snd].
  change (asc ")") with [41]. rewrite before_last_app. cbn [obind]. change (beq (asc "DefineTracksSequenceEvent") (asc "RawDataSequenceEvent")) with false. change (beq (asc "DefineTracksSequenceEvent") (asc "DefineTracksSequenceEvent")) with true. cbv iota.
  unfold eval_set. change (asc "{") with [123]. cbn [app]. replace (beq _ (asc "set()")) with false by (symmetry; apply beq_neq; intros [=]). cbn [after Z.eqb Pos.eqb obind]. change (asc "}") with [125]. rewrite before_last_app. cbn [obind].
  change (asc ", ") with [44; 32]. rewrite (integers_joined _ _ (spells_all (x :: l))). reflexivity.
Qed.
Lemma not_in_nums c l : ~ numchar c -> c <> 44 -> c <> 32 -> ~ In c (joined [44; 32] (map str_int l)).
Proof.
  intros C A B. induction l as [|x l IH]; [intros []|]. assert (X : ~ In c (str_int x)) by (intros I; pose proof (str_int_chars x) as F; rewrite Forall_forall in F; exact (C (F c I))). destruct l as [|y l]; [exact X|].
  change (joined [44; 32] (map str_int (x :: y :: l))) with (str_int x ++ 44 :: 32 :: joined [44; 32] (map str_int (y :: l))). intros I. apply in_app_iff in I as [I|[I|[I|I]]]; [tauto|lia|lia|tauto].
Qed.
Lemma eval_random_ok t args a b : eval_event (asc "RandomSequenceEvent(" ++ hex t ++ asc ", [" ++ joined (asc ", ") (map str_int args) ++ asc "], " ++ str_int a ++ asc ", " ++ str_int b ++ asc ")") = Some (Random t args a b).
Proof.
  replace (asc "RandomSequenceEvent(" ++ hex t ++ asc ", [" ++ joined (asc ", ") (map str_int args) ++ asc "], " ++ str_int a ++ asc ", " ++ str_int b ++ asc ")")
    with (asc "RandomSequenceEvent" ++ 40 :: (((hex t ++ [44; 32]) ++ 91 :: joined [44; 32] (map str_int args) ++ 93 :: [44; 32] ++ str_int a ++ [44; 32] ++ str_int b) ++ [41])) by (texts; cbn [app]; rewrite <- !app_assoc; cbn [app]; rewrite <- !app_assoc; cbn [app]; rewrite <- !app_assoc; reflexivity).
  unfold eval_event. rewrite cut_app by (vm_compute; intuition discriminate). cbn [obind fst snd]. rewrite before_last_app. cbn [obind].
  change (beq (asc "RandomSequenceEvent") (asc "RawDataSequenceEvent")) with false. change (beq (asc "RandomSequenceEvent") (asc "DefineTracksSequenceEvent")) with false. change (beq (asc "RandomSequenceEvent") (asc "RandomSequenceEvent")) with true. cbv iota.
  unfold eval_random. rewrite cut_app; [|intros I; apply in_app_iff in I as [I|[I|[I|[]]]]; [revert I; apply not_in_hex; unfold hexchar; lia|lia|lia]]. cbn [obind fst snd].
  rewrite cut_app by (apply not_in_nums; unfold numchar; lia). cbn [obind fst snd].
  assert (A1 : arguments (hex t ++ [44; 32]) = [hex t; []]).
  { unfold arguments. destruct (hex t ++ [44; 32]) eqn:E; [destruct (hex t); discriminate E|]. rewrite <- E. change [44; 32] with (44 :: [32]). rewrite split_cons by apply no_comma_hex. cbn [split Z.eqb Pos.eqb map]. rewrite strip_hex. reflexivity. }
  assert (A2 : arguments ([44; 32] ++ str_int a ++ [44; 32] ++ str_int b) = [[]; str_int a; str_int b]).
  { unfold arguments. cbn [app]. change (split 44 (44 :: 32 :: str_int a ++ 44 :: 32 :: str_int b)) with ([] :: split 44 (32 :: str_int a ++ 44 :: 32 :: str_int b)).
    replace (32 :: str_int a ++ 44 :: 32 :: str_int b) with ((32 :: str_int a) ++ 44 :: 32 :: str_int b) by reflexivity.
    rewrite split_cons by (intros [I|I]; [lia|revert I; apply no_comma]). rewrite split_none by (intros [I|I]; [lia|revert I; apply no_comma]). reflexivity. }
  rewrite A1, A2, (integers_joined _ _ (spells_all args)), integer_hex, !integer_str. reflexivity.
Qed.
Lemma truth_spells v : spells (if v =? 0 then asc "False" else if v =? 1 then asc "True" else str_int v) v.
Proof.
  destruct (Z.eqb_spec v 0) as [->|]; [|destruct (Z.eqb_spec v 1) as [->|]; [|apply spells_str]]; (split; [discriminate|]; split; [vm_compute; intuition discriminate|]; split; reflexivity).
Qed.
Lemma eval_plain ids heap k e : proper e -> plain e -> evaluable e -> exists s, ev_repr ids heap (S k) e = Ok s /\ eval_event s = Some e.
Proof.
  intros P L V. destruct e as [t v flag d|d|b i|n r|r|r|t args a b|t v u|t v x|t v|t v|t|l|d]; try contradiction; cbn [ev_repr]; (eexists; split; [reflexivity|]); cbn [proper evaluable] in P, V.
  - call "NoteSequenceEvent"%string [str_int t; str_int (Z.lor v (if flag then 0x80 else 0)); str_int d]. destruct (velocity_bits v flag V) as [E F].
    change (Some (Note t (Z.lor v (if flag then 128 else 0) mod 128) (Z.lor v (if flag then 128 else 0) / 128 mod 2 =? 1) d) = Some (Note t v flag d)). rewrite E, F. reflexivity.
  - call "RestSequenceEvent"%string [str_int d]. reflexivity.
  - call "InstrumentSwitchSequenceEvent"%string [str_int b; str_int i]. reflexivity.
  - apply eval_random_ok.
  - destruct u as [u|]; [call "FromVariableSequenceEvent"%string [hex t; str_int v; str_int u]|call "FromVariableSequenceEvent"%string [hex t; str_int v]]; reflexivity.
  - assert (K : In t [0xB0; 0xB1; 0xB2; 0xB3; 0xB4; 0xB5; 0xB6; 0xB7; 0xB8; 0xB9; 0xBA; 0xBB; 0xBC; 0xBD]) by (unfold is_arith in P; cbn [In]; lia).
    rewrite (eval_call' _ (arith_class t) [str_int v; str_int x] [v; x]); try (cbn [In] in K; repeat (destruct K as [<-|K]); try contradiction; reflexivity); spell.
    flatten.
  - destruct P as (P & _ & _). destruct V as [V1 V2].
    assert (K : In t [0xC8; 0xCE] \/ In t [0xC0; 0xC1; 0xC2; 0xC3; 0xC4; 0xC5; 0xC6; 0xC9; 0xCA; 0xCB; 0xCD; 0xCF; 0xD0; 0xD1; 0xD2; 0xD3; 0xD4; 0xD5; 0xD6; 0xE0]) by (unfold is_byte1 in P; cbn [In]; lia).
    assert (S : spells (byte_value t v) v).
    { destruct K as [K|K]; cbn [In] in K; repeat (destruct K as [<-|K]); try contradiction; first [apply truth_spells|apply spells_str]. }
    rewrite (eval_call' _ (byte_class t) [byte_value t v] [v]); try (destruct K as [K|K]; cbn [In] in K; repeat (destruct K as [<-|K]); try contradiction; reflexivity). repeat constructor; apply S.
  - assert (K : In t [0xE1; 0xE3]) by (unfold is_word1 in P; cbn [In]; lia). cbn [In] in K. repeat (destruct K as [<-|K]); try contradiction.
    + call "TempoSequenceEvent"%string [str_int v]. reflexivity.
    + call "SweepPitchSequenceEvent"%string [str_int v]. reflexivity.
  - assert (K : In t [0xA2; 0xFC; 0xFD; 0xFF]) by (unfold is_bare in P; cbn [In]; lia). cbn [In] in K. repeat (destruct K as [<-|K]); try contradiction; reflexivity.
  - apply eval_tracks.
  - apply eval_raw. exact P.
Qed.

(** ** how deep the representation goes *)
Lemma repr_depth ids heap : forall k e, (ends heap k e -> exists s, ev_repr ids heap (S k) e = Ok s) /\ (~ ends heap k e -> ev_repr ids heap (S k) e = Err RecursionError).
Proof.
  assert (D : forall k e n, dest e = [Some n] -> ev_repr ids heap (S k) e = (s <- ev_repr ids heap k (heap n) ;; ev_repr ids heap (S k) e)).
  { intros k e n E. destruct e; cbn [dest] in E; try discriminate E; injection E as ->; cbn [ev_repr]; destruct (ev_repr ids heap k (heap n)); reflexivity. }
  induction k as [|k IH]; intros e.
  - assert (C : (exists n, dest e = [Some n]) \/ (forall n, dest e <> [Some n])) by (destruct e as [| | |? [n|]|[n|]|[n|]| | | | | | | |]; cbn [dest]; first [left; exists n; reflexivity|right; discriminate]).
    destruct C as [[n C]|C]; [split; [cbn [ends]; rewrite C; contradiction|intros _; rewrite (D 0%nat e n C); reflexivity]|].
    split; [intros _; destruct e as [| | |? [n|]|[n|]|[n|]| | | | | | | |]; cbn [dest] in C; try (exfalso; exact (C n eq_refl)); cbn [ev_repr bind]; eexists; reflexivity|].
    intros N. exfalso. apply N. cbn [ends]. destruct (dest e) as [|[m|] [|]] eqn:E; try exact I. exfalso. exact (C m eq_refl).
  - assert (C : (exists n, dest e = [Some n]) \/ (forall n, dest e <> [Some n])) by (destruct e as [| | |? [n|]|[n|]|[n|]| | | | | | | |]; cbn [dest]; first [left; exists n; reflexivity|right; discriminate]).
    destruct C as [[n C]|C].
    + cbn [ends]. rewrite C. destruct (IH (heap n)) as [I1 I2]. split; intros H.
      * destruct (I1 H) as [s S]. destruct e; cbn [dest] in C; try discriminate C; injection C as ->; cbn [ev_repr]; cbn [ev_repr] in S; rewrite S; cbn [bind]; eexists; reflexivity.
      * rewrite (D (S k) e n C), (I2 H). reflexivity.
    + split; [intros _; destruct e as [| | |? [n|]|[n|]|[n|]| | | | | | | |]; cbn [dest] in C; try (exfalso; exact (C n eq_refl)); cbn [ev_repr bind]; eexists; reflexivity|].
      intros N. exfalso. apply N. cbn [ends]. destruct (dest e) as [|[m|] [|]] eqn:E; try exact I. exfalso. exact (C m eq_refl).
Qed.
Lemma ends_dec heap : forall k e, ends heap k e \/ ~ ends heap k e.
Proof. induction k as [|k IH]; intros e; cbn [ends]; destruct (dest e) as [|[m|] [|? ?]]; try (left; exact I); [right; intros []|apply IH]. Qed.

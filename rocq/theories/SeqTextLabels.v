(** * Lemmas about labels in printed lists *)
From Coq Require Import String.
From Verif Require Import PyBase PyLemmas SeqModel TextModel TextSpec TextLemmas SeqTextModel SeqTextSpec SeqTextLemmas.

Lemma position_index events n : position n (map fst events) = index_of 0 events (Some n).
Proof.
  assert (G : forall events i, index_of i events (Some n) = option_map (Z.add i) (position n (map fst events))).
  { clear events. induction events as [|[m e] events IH]; intros i; [reflexivity|]. cbn [index_of map fst position]. destruct (m =? n); [cbn [option_map]; f_equal; lia|]. rewrite IH. destruct (position n (map fst events)); cbn [option_map]; [f_equal; lia|reflexivity]. }
  rewrite G. destruct (position n (map fst events)); reflexivity.
Qed.
Lemma name_at_add names i j t : name_at (add_name names i t) j =
  if j =? i then Some (match name_at names i with Some s => s ++ asc ", " ++ t | None => t end) else name_at names j.
Proof.
  induction names as [|[k s] names IH]; cbn [add_name name_at].
  - destruct (Z.eqb_spec i j), (Z.eqb_spec j i); try lia; reflexivity.
  - destruct (Z.eqb_spec k i) as [->|K]; cbn [name_at].
    + destruct (Z.eqb_spec i j), (Z.eqb_spec j i); try lia; reflexivity.
    + rewrite IH. destruct (Z.eqb_spec k j), (Z.eqb_spec j i); try lia; reflexivity.
Qed.
(** names without the colon *)
Fixpoint commas (l : list text) : text := match l with [] => [] | [x] => x | x :: r => x ++ asc ", " ++ commas r end.
Lemma commas_snoc l t : l <> [] -> commas (l ++ [t]) = commas l ++ asc ", " ++ t.
Proof. intros N. induction l as [|x l IH]; [contradiction|]. destruct l as [|y l]; [reflexivity|]. cbn [app commas] in *. rewrite IH by discriminate. rewrite <- !app_assoc. reflexivity. Qed.
Lemma label_commas l : l <> [] -> label_of l = commas l ++ asc ":".
Proof. intros N. induction l as [|x l IH]; [contradiction|]. destruct l as [|y l]; [reflexivity|]. cbn [label_of commas] in *. rewrite IH by discriminate. rewrite <- !app_assoc. reflexivity. Qed.
Definition name_spec (events : events_t) (labels : list (option text * ref)) (i : Z) : option text :=
  match names_at events labels i (str_int i) with [] => None | l => Some (commas l) end.
Definition len_of (o : option text) : Z := match o with Some t => zlen t | None => 0 end.
Definition inv (events : events_t) (prefix : text) (labels : list (option text * ref)) (st : list text * list text * Z * list (Z * text)) : Prop :=
  let '(W, lines, mx, names) := st in
  W = [] /\ lines = unset_lines prefix labels /\ (forall i, name_at names i = name_spec events labels i) /\ (forall i, len_of (name_spec events labels i) <= mx) /\ 0 <= mx /\ (mx = 0 \/ exists i, mx = len_of (name_spec events labels i)).
Lemma names_at_snoc events labels p i s : names_at events (labels ++ [p]) i s = names_at events labels i s ++ names_at events [p] i s.
Proof. unfold names_at. apply flat_map_app. Qed.
Lemma label_step_inv ids heap depth events prefix labels p st : inv events prefix labels st -> (forall n, snd p = Some n -> In n (map fst events)) ->
  exists st', label_step ids heap depth events prefix st p = Ok st' /\ inv events prefix (labels ++ [p]) st'.
Proof.
  destruct st as [[[W lines] mx] names]. intros (-> & -> & N & M & M0 & MA) C. destruct p as [name r]. cbn [snd] in C. cbn [label_step].
  destruct r as [n|].
  - destruct (index_in events n (C n eq_refl)) as (i & I). rewrite I. eexists. split; [reflexivity|]. cbn [inv].
    assert (S : forall j, name_spec events (labels ++ [(name, Some n)]) j = if j =? i then Some (match name_spec events labels i with Some s => s ++ asc ", " ++ (match name with Some t => t | None => str_int i end) | None => match name with Some t => t | None => str_int i end end) else name_spec events labels j).
    { intros j. unfold name_spec. rewrite names_at_snoc. unfold names_at at 2. cbn [flat_map snd fst]. rewrite position_index, I. destruct (Z.eqb_spec j i) as [Y|Y]; [subst j; rewrite Z.eqb_refl|replace (i =? j) with false by lia].
      - cbn [app]. destruct (names_at events labels i (str_int i)) as [|a l] eqn:E; [reflexivity|]. rewrite <- commas_snoc by discriminate. destruct ((a :: l) ++ [_]) eqn:E2; [discriminate E2|]. rewrite <- E2. reflexivity.
      - rewrite !app_nil_r. reflexivity. }
    split; [reflexivity|]. split; [unfold unset_lines; rewrite flat_map_app; cbn; rewrite !app_nil_r; reflexivity|].
    assert (NA : forall j, name_at (add_name names i match name with Some t => t | None => str_int i end) j = name_spec events (labels ++ [(name, Some n)]) j) by (intros j; rewrite name_at_add, S, !N; reflexivity).
    split; [exact NA|]. rewrite NA. fold (len_of (name_spec events (labels ++ [(name, Some n)]) i)).
    split; [intros j; rewrite (S j); destruct (Z.eqb_spec j i) as [->|X]; [specialize (S i); rewrite Z.eqb_refl in S; rewrite <- S; lia|specialize (M j); lia]|]. split; [lia|].
    destruct (Z.max_spec mx (len_of (name_spec events (labels ++ [(name, Some n)]) i))) as [[L ->]|[L ->]]; [right; exists i; reflexivity|]. destruct MA as [->|(j & ->)]; [left; reflexivity|]. right.
    destruct (Z.eq_dec j i) as [->|X]; [exists i; pose proof (M i); specialize (S i); rewrite Z.eqb_refl in S; rewrite S in L |- *; destruct (name_spec events labels i) eqn:E; cbn [len_of] in *; rewrite ?zlen_app in *|exists j; rewrite S; replace (j =? i) with false by lia; reflexivity].
    + pose proof (zlen_nonneg (match name with Some t => t | None => str_int i end)). change (zlen (asc ", ")) with 2 in *. lia.
    + pose proof (zlen_nonneg (match name with Some t => t | None => str_int i end)). lia.
  - cbn [index_of]. assert (E : index_of 0 events None = None) by (destruct events; reflexivity). rewrite E. eexists. split; [reflexivity|]. cbn [inv].
    assert (S : forall j, name_spec events (labels ++ [(name, None)]) j = name_spec events labels j) by (intros j; unfold name_spec; rewrite names_at_snoc; unfold names_at at 2; cbn [flat_map snd]; rewrite !app_nil_r; reflexivity).
    split; [reflexivity|]. split; [unfold unset_lines; rewrite flat_map_app; cbn [flat_map snd fst]; rewrite app_nil_r; reflexivity|]. split; [intros i; rewrite S; apply N|]. split; [intros i; rewrite S; apply M|]. split; [exact M0|].
    destruct MA as [->|(j & ->)]; [left; reflexivity|right; exists j; rewrite S; reflexivity].
Qed.
Lemma labels_inv ids heap depth events prefix : forall labels done st, inv events prefix done st -> labels_closed events labels ->
  exists st', foldM (label_step ids heap depth events prefix) st labels = Ok st' /\ inv events prefix (done ++ labels) st'.
Proof.
  induction labels as [|p labels IH]; intros done st H C; cbn [foldM]; [rewrite app_nil_r; exists st; split; [reflexivity|exact H]|].
  destruct (label_step_inv ids heap depth events prefix done p st H) as (st1 & -> & H1); [intros n E; apply (C (fst p) n); left; rewrite <- E; destruct p; reflexivity|]. cbn [bind].
  destruct (IH (done ++ [p]) st1 H1 (fun name n I => C name n (or_intror I))) as (st' & E & H'). exists st'. split; [exact E|]. rewrite <- app_assoc in H'. exact H'.
Qed.

(** ** the column *)
Lemma pieces_column prefix w : 0 < w -> forall fuel label, label <> [] -> (length label <= fuel)%nat ->
  exists s k, pad_last w (pieces fuel w label) <> [] /\ joined (10 :: prefix) (pad_last w (pieces fuel w label)) = s /\ in_column prefix w label s k.
Proof.
  intros W. induction fuel as [|fuel IH]; intros label N F; [destruct label; [contradiction|cbn in F; lia]|].
  assert (P : pieces (S fuel) w label = slice label 0 w :: pieces fuel w (slice_from label w)) by (destruct label; [contradiction|reflexivity]). rewrite P. clear P.
  destruct (Z.leb_spec (zlen label) w) as [L|L].
  - assert (A : slice label 0 w = label) by (apply slice_hit_all; lia). assert (B : slice_from label w = []).
    { unfold slice_from, slice, clamp. rewrite skipn_all2; [apply firstn_nil|]. destruct (Z.ltb_spec w 0); [lia|]. unfold zlen in *. lia. }
    rewrite A, B. exists (label ++ rep 32 (w - zlen label)), 0%nat. replace (pieces fuel w []) with (@nil text) by (destruct fuel; reflexivity). cbn [pad_last joined]. split; [discriminate|]. split; [reflexivity|]. cbn [in_column]. split; [exact L|reflexivity].
  - set (a := slice label 0 w). set (b := slice_from label w).
    assert (AB : label = a ++ b /\ zlen a = w /\ b <> []).
    { assert (E1 : a = firstn (Z.to_nat w) label) by (unfold a; rewrite <- (firstn_skipn (Z.to_nat w) label) at 1; apply slice_hit; [reflexivity|unfold zlen in *; rewrite firstn_length; lia]).
      assert (E2 : b = skipn (Z.to_nat w) label).
      { unfold b, slice_from, slice, clamp. destruct (Z.ltb_spec w 0); [lia|]. destruct (Z.ltb_spec (zlen label) 0); [lia|]. replace (Z.min w (zlen label)) with w by lia. apply firstn_all2. rewrite skipn_length. unfold zlen in *. lia. }
      rewrite E1, E2. split; [symmetry; apply firstn_skipn|]. split; [unfold zlen in *; rewrite firstn_length; lia|]. intros X. apply (f_equal (@length Z)) in X. rewrite skipn_length in X. unfold zlen in *. cbn in X. lia. }
    destruct AB as (E & Wa & Nb). destruct (IH b Nb) as (s & k & NE & J & I); [rewrite E, app_length in F; unfold zlen in Wa; lia|].
    exists (a ++ 10 :: prefix ++ s), (S k). destruct (pieces fuel w b) as [|x q] eqn:Q; [exfalso; apply NE; reflexivity|]. change (pad_last w (a :: x :: q)) with (a :: pad_last w (x :: q)). destruct (pad_last w (x :: q)) as [|y z] eqn:Y; [contradiction|].
    split; [discriminate|]. split; [rewrite <- J; reflexivity|]. cbn [in_column]. exists a, b, s. split; [exact E|]. split; [exact Wa|]. split; [exact Nb|]. split; [reflexivity|exact I].
Qed.
Lemma label_column prefix w names i : 0 < w -> exists k, in_column prefix w (match name_at names i with Some t => t ++ asc ":" | None => [] end) (label_text prefix w names i) k.
Proof.
  intros W. unfold label_text. destruct (name_at names i) as [t|].
  - assert (N : t ++ asc ":" <> []) by (destruct t; discriminate). destruct (pieces_column prefix w W (length (t ++ asc ":")) (t ++ asc ":") N (le_n _)) as (s & k & NE & J & I). exists k. set (l := pad_last w (pieces (length (t ++ asc ":")) w (t ++ asc ":"))) in *.
    destruct l as [|x l]; [contradiction|]. cbv zeta. change (in_column prefix w (t ++ asc ":") (joined (10 :: prefix) (x :: l)) k). rewrite J. exact I.
  - exists 0%nat. cbn [length pieces pad_last in_column]. change (zlen (@nil Z)) with 0. split; [lia|]. rewrite Z.sub_0_r. reflexivity.
Qed.

(** ** the printed list *)
Lemma drop_comma_app a b : b <> [] -> drop_comma (a ++ b) = a ++ drop_comma b.
Proof. intros N. induction a as [|x a IH]; [reflexivity|]. cbn [app drop_comma]. rewrite IH. destruct (a ++ b) eqn:E; [destruct a; [cbn in E; contradiction|discriminate E]|reflexivity]. Qed.
Lemma drop_comma_nth prefix w mx names : forall ets i k et, nth_error ets k = Some et ->
  nth_error (drop_comma (lines_of prefix mx w names i ets)) k = Some (prefix ++ label_text prefix mx names (i + Z.of_nat k) ++ asc "  [" ++ fmt_width (i + Z.of_nat k) w ++ asc "] " ++ et ++ (if Nat.eqb (S k) (length ets) then [] else asc ",")).
Proof.
  induction ets as [|e ets IH]; intros i k et H; [destruct k; discriminate H|]. destruct ets as [|e2 ets].
  - destruct k as [|k]; [|destruct k; discriminate H]. injection H as <-. cbn [lines_of drop_comma nth_error length Nat.eqb]. f_equal. rewrite Z.add_0_r, app_nil_r.
    replace (prefix ++ label_text prefix mx names i ++ asc "  [" ++ fmt_width i w ++ asc "] " ++ e ++ asc ",") with ((prefix ++ label_text prefix mx names i ++ asc "  [" ++ fmt_width i w ++ asc "] " ++ e) ++ [44]) by (rewrite <- !app_assoc; reflexivity).
    apply slice_to_end; reflexivity.
  - change (drop_comma (lines_of prefix mx w names i (e :: e2 :: ets))) with ((prefix ++ label_text prefix mx names i ++ asc "  [" ++ fmt_width i w ++ asc "] " ++ e ++ asc ",") :: drop_comma (lines_of prefix mx w names (i + 1) (e2 :: ets))).
    destruct k as [|k]; cbn [nth_error] in *; [injection H as <-; rewrite Z.add_0_r; reflexivity|]. rewrite (IH (i + 1) k et H). replace (i + 1 + Z.of_nat k) with (i + Z.of_nat (S k)) by lia. reflexivity.
Qed.
Lemma drop_comma_len l : length (drop_comma l) = length l.
Proof. induction l as [|x l IH]; [reflexivity|]. cbn [drop_comma]. destruct l; [reflexivity|]. cbn [length] in *. rewrite IH. reflexivity. Qed.
Lemma lines_of_len prefix mx w names : forall ets i, length (lines_of prefix mx w names i ets) = length ets.
Proof. induction ets as [|e ets IH]; intros i; [reflexivity|]. cbn [lines_of length]. rewrite IH. reflexivity. Qed.
Lemma name_label events labels i t : name_spec events labels i = t -> label_of (names_at events labels i (str_int i)) = match t with Some t => t ++ asc ":" | None => [] end.
Proof. intros <-. unfold name_spec. destruct (names_at events labels i (str_int i)) as [|a l] eqn:E; [reflexivity|]. apply label_commas. discriminate. Qed.
Lemma F2_nth {A B} (R : A -> B -> Prop) l r j x : Forall2 R l r -> nth_error l j = Some x -> exists y, nth_error r j = Some y /\ R x y.
Proof. intros F. revert j. induction F as [|a b l r H F IH]; intros [|j]; cbn [nth_error]; try discriminate; [intros [= <-]; exists b; split; [reflexivity|exact H]|apply IH]. Qed.
Lemma print_labels ids heap depth events labels prefix : events <> [] -> closed events -> labels_closed events labels ->
  exists w L, width_of events labels str_int w /\ length L = length events /\
    printSequenceEventList ids heap depth events labels prefix = Ok (join_lines (unset_lines prefix labels ++ L)) /\
    forall k p, nth_error events k = Some p -> exists col et j, in_column prefix w (label_of (names_at events labels (Z.of_nat k) (str_int (Z.of_nat k)))) col j /\ line_text events (snd p) et /\
      nth_error L k = Some (prefix ++ col ++ asc "  [" ++ fmt_width (Z.of_nat k) (zlen (str_int (zlen events - 1))) ++ asc "] " ++ et ++ (if Nat.eqb (S k) (length events) then [] else asc ",")).
Proof.
  intros N C LC. unfold printSequenceEventList. destruct (labels_inv ids heap depth events prefix labels [] ([], [], 0, [])) as ([[[W lines] mx] names] & -> & I).
  { cbn [inv]. split; [reflexivity|]. split; [reflexivity|]. split; [reflexivity|]. split; [intros i; cbn; lia|]. split; [lia|]. left. reflexivity. }
  { exact LC. }
  cbn [app] in I. destruct I as (-> & -> & NS & M & M0 & MA). cbn [bind]. cbv zeta iota. set (w := Z.min mx 48 + 1).
  destruct (print_events_ok ids heap depth events prefix w (zlen (str_int (zlen events - 1))) names events C 0) as (L & H). rewrite H. cbn [bind fst snd app].
  destruct (print_events_inv _ _ _ _ _ _ _ _ _ _ _ _ H) as (ets & F & -> & _). set (nw := zlen (str_int (zlen events - 1))) in *.
  assert (LE : length ets = length events) by (clear - F; induction F; [reflexivity|]; cbn [length]; rewrite IHF; reflexivity).
  exists w, (drop_comma (lines_of prefix w nw names 0 ets)).
  split; [|split; [rewrite drop_comma_len, lines_of_len; exact LE|split]].
  - unfold width_of, w. split; [lia|]. split.
    + intros i. pose proof (M i) as Mi. rewrite (name_label _ _ _ _ eq_refl). destruct (name_spec events labels i) as [t|]; cbn [len_of] in Mi; [rewrite zlen_app; change (zlen (asc ":")) with 1; lia|change (zlen (@nil Z)) with 0; lia].
    + destruct MA as [->|(i & E)]; [left; reflexivity|]. destruct (Z.eq_dec mx 0) as [->|]; [left; reflexivity|]. right. exists i. rewrite (name_label _ _ _ _ eq_refl). destruct (name_spec events labels i) as [t|]; cbn [len_of] in E; [|lia]. rewrite zlen_app. change (zlen (asc ":")) with 1. lia.
  - destruct events as [|p0 events]; [contradiction|]. rewrite drop_comma_app; [reflexivity|]. destruct ets; [discriminate LE|discriminate].
  - intros k p K. assert (E : exists et, nth_error ets k = Some et /\ line_text events (snd p) et).
    { destruct (F2_nth _ _ _ _ _ F K) as (et & E & T). exists et. split; [exact E|exact T]. }
    destruct E as (et & E & T). destruct (label_column prefix w names (Z.of_nat k)) as (j & J); [unfold w; lia|]. exists (label_text prefix w names (Z.of_nat k)), et, j. split; [rewrite (name_label events labels (Z.of_nat k) _ eq_refl), <- NS; exact J|]. split; [exact T|].
    etransitivity; [exact (drop_comma_nth prefix nw w names ets 0 k et E)|]. rewrite LE. reflexivity.
Qed.

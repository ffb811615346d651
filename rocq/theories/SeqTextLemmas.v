(** * Lemmas about printed sequence events *)
From Coq Require Import String.
From Verif Require Import PyBase PyLemmas SeqModel TextModel TextSpec TextLemmas SeqTextModel SeqTextSpec.

Ltac texts := repeat match goal with |- context [asc ?s] => let v := eval vm_compute in (asc s) in change (asc s) with v end.
Ltac texts_in H := repeat match type of H with context [asc ?s] => let v := eval vm_compute in (asc s) in change (asc s) with v in H end.
Lemma ok_inj {A} (a b : A) : Ok a = Ok b -> a = b.
Proof. congruence. Qed.
(** ** numbers *)
Definition numchar (c : Z) : Prop := c = 45 \/ 48 <= c < 58.
Lemma str_nat_digits n : 0 <= n -> Forall (fun c => 48 <= c < 58) (str_nat n).
Proof. intros N. apply digits_chars. exact N. Qed.
Lemma digits_cons k n : exists c r, digits (S k) n = c :: r.
Proof. cbn [digits]. destruct (n <? 10); [eexists _, _; reflexivity|]. destruct (digits k (n / 10)); eexists _, _; reflexivity. Qed.
Lemma str_nat_cons n : 0 <= n -> exists c r, str_nat n = c :: r /\ 48 <= c < 58.
Proof. intros N. destruct (digits_cons (Z.to_nat (Z.log2 n)) n) as (c & r & E). exists c, r. split; [exact E|]. pose proof (str_nat_digits n N) as D. unfold str_nat in *. rewrite E in D. apply Forall_cons_iff in D. apply D. Qed.
Lemma numeral_str n : 0 <= n -> numeral (str_nat n) = Some n.
Proof.
  intros N. destruct (str_nat_cons n N) as (c & r & E & _). pose proof (str_nat_digits n N) as D. pose proof (str_nat_value n N) as V. unfold numeral. rewrite E in *. rewrite V.
  replace (forallb digit (c :: r)) with true; [reflexivity|]. symmetry. apply forallb_forall. intros x X. rewrite Forall_forall in D. specialize (D x X). unfold digit. lia.
Qed.
Lemma number_str n : number (str_int n) = Some n.
Proof.
  unfold str_int. destruct (Z.ltb_spec n 0).
  - cbn [number]. rewrite numeral_str by lia. cbn [option_map]. f_equal. lia.
  - transitivity (numeral (str_nat n)); [|apply numeral_str; lia]. destruct (str_nat_cons n ltac:(lia)) as (c & r & E & C). rewrite E. unfold number. destruct c as [|p|p]; try reflexivity. do 6 (destruct p as [p|p|]; try reflexivity). lia.
Qed.
Lemma str_int_chars n : Forall numchar (str_int n).
Proof.
  unfold str_int. destruct (Z.ltb_spec n 0).
  - constructor; [left; reflexivity|]. eapply Forall_impl; [|apply str_nat_digits; lia]. intros; right; assumption.
  - eapply Forall_impl; [|apply str_nat_digits; lia]. intros; right; assumption.
Qed.
Lemma str_int_cons n : exists c r, str_int n = c :: r /\ numchar c.
Proof.
  pose proof (str_int_chars n) as C. destruct (str_int n) as [|c r] eqn:E; [|exists c, r; split; [reflexivity|]; apply Forall_cons_iff in C; apply C].
  exfalso. unfold str_int in E. destruct (Z.ltb_spec n 0); [discriminate E|]. destruct (str_nat_cons n ltac:(lia)) as (? & ? & F & _). congruence.
Qed.

(** ** hexadecimal numbers *)
Lemma hexval_digit d : 0 <= d < 16 -> hexval (hex_digit d) = Some d.
Proof. intros D. assert (K : d = 0 \/ d = 1 \/ d = 2 \/ d = 3 \/ d = 4 \/ d = 5 \/ d = 6 \/ d = 7 \/ d = 8 \/ d = 9 \/ d = 10 \/ d = 11 \/ d = 12 \/ d = 13 \/ d = 14 \/ d = 15) by lia. repeat (destruct K as [->|K]; [reflexivity|]). subst d. reflexivity. Qed.
Lemma hexes_app s : forall v t, hexes v (s ++ t) = obind (hexes v s) (fun w => hexes w t).
Proof. induction s as [|c s IH]; intros v t; cbn [app hexes obind]; [reflexivity|]. destruct (hexval c); [apply IH|reflexivity]. Qed.
Lemma hexes_digits k : forall n, 0 <= n < 16 ^ Z.of_nat k -> hexes 0 (hexdigits k n) = Some n.
Proof.
  induction k as [|k IH]; intros n N; [change (16 ^ Z.of_nat 0) with 1 in N; replace n with 0 by lia; reflexivity|]. cbn [hexdigits].
  destruct (Z.ltb_spec n 16); [cbn [hexes]; rewrite hexval_digit by lia; f_equal; lia|]. rewrite Nat2Z.inj_succ, Z.pow_succ_r in N by lia.
  rewrite hexes_app, IH by (split; [apply Z.div_pos; lia|apply Z.div_lt_upper_bound; lia]). cbn [obind hexes]. rewrite hexval_digit by (apply Z.mod_pos_bound; lia). f_equal. pose proof (Z_div_mod_eq_full n 16). lia.
Qed.
Lemma hexnumber_hex n : hexnumber (hex n) = Some n.
Proof.
  assert (F : forall m, 0 <= m -> hexes 0 (hexdigits (S (Z.to_nat (Z.log2 m))) m) = Some m).
  { intros m M. apply hexes_digits. split; [exact M|]. destruct (Z.eq_dec m 0) as [->|NZ]; [vm_compute; reflexivity|]. pose proof (Z.log2_nonneg m). rewrite Nat2Z.inj_succ, Z2Nat.id by lia. pose proof (Z.log2_spec m ltac:(lia)) as [_ U].
    eapply Z.lt_le_trans; [exact U|]. apply Z.pow_le_mono_l. lia. }
  unfold hex, hex_nat. destruct (Z.ltb_spec n 0); texts; cbn [app]; unfold hexnumber.
  - rewrite F by lia. cbn [option_map]. f_equal. lia.
  - apply F. lia.
Qed.
Definition hexchar (c : Z) : Prop := c = 45 \/ c = 120 \/ 48 <= c < 58 \/ 97 <= c < 103.
Lemma hexdigits_chars k : forall n, 0 <= n -> Forall hexchar (hexdigits k n).
Proof.
  assert (D : forall d, 0 <= d < 16 -> hexchar (hex_digit d)) by (intros d D; unfold hexchar, hex_digit; destruct (Z.ltb_spec d 10); lia).
  induction k as [|k IH]; intros n N; cbn [hexdigits]; [constructor|]. destruct (Z.ltb_spec n 16); [apply Forall_cons; [apply D; lia|apply Forall_nil]|]. apply Forall_app. split; [apply IH, Z.div_pos; lia|apply Forall_cons; [apply D, Z.mod_pos_bound; lia|apply Forall_nil]].
Qed.
Lemma hex_chars n : Forall hexchar (hex n).
Proof.
  assert (F : forall m, 0 <= m -> Forall hexchar (hex_nat m)) by (intros m M; unfold hex_nat; apply Forall_app; split; [apply Forall_cons; [unfold hexchar; cbn; lia|apply Forall_cons; [unfold hexchar; cbn; lia|apply Forall_nil]]|apply hexdigits_chars; exact M]).
  unfold hex. destruct (Z.ltb_spec n 0); [constructor; [left; reflexivity|]|]; apply F; lia.
Qed.

(** ** splitting *)
Lemma split_none sep w : ~ In sep w -> split sep w = [w].
Proof. induction w as [|c w IH]; intros N; cbn [split]; [reflexivity|]. destruct (Z.eqb_spec c sep); [exfalso; apply N; left; assumption|]. rewrite IH; [reflexivity|]. intros I. apply N. right. exact I. Qed.
Lemma split_cons sep w r : ~ In sep w -> split sep (w ++ sep :: r) = w :: split sep r.
Proof.
  induction w as [|c w IH]; intros N; cbn [app split]; [rewrite Z.eqb_refl; reflexivity|]. destruct (Z.eqb_spec c sep); [exfalso; apply N; left; assumption|]. rewrite IH; [reflexivity|]. intros I. apply N. right. exact I.
Qed.
Lemma after_app p s : after p (p ++ s) = Some s.
Proof. induction p as [|a p IH]; cbn [app after]; [destruct s; reflexivity|]. rewrite Z.eqb_refl. exact IH. Qed.
Lemma before_last_app c s : before_last c (s ++ [c]) = Some s.
Proof. induction s as [|d s IH]; cbn [app before_last]; [rewrite Z.eqb_refl; reflexivity|]. rewrite IH. destruct (s ++ [c]) eqn:E; [destruct s; discriminate E|]. reflexivity. Qed.
Lemma not_in_num c n : c <> 45 -> ~ 48 <= c < 58 -> ~ In c (str_int n).
Proof. intros A B I. pose proof (str_int_chars n) as F. rewrite Forall_forall in F. destruct (F c I); lia. Qed.
Lemma not_in_hex c n : ~ hexchar c -> ~ In c (hex n).
Proof. intros A I. pose proof (hex_chars n) as F. rewrite Forall_forall in F. exact (A (F c I)). Qed.

(** ** names of notes *)
Lemma note_shape t n : noteName t = Ok n -> helmholtz n = Some t /\ exists l r, n = l :: r /\ (65 <= l <= 71 \/ 97 <= l <= 103) /\ Forall (fun c => c = 39 \/ c = 885 \/ c = 9839) r.
Proof.
  intros H. destruct (note_back t) as (s & E & B). assert (s = n) by congruence. subst s. split; [exact B|]. clear B E. rewrite noteName_closed in H. cbv zeta in H. set (o := (t - 60) / 12) in H. set (m := (t - 60) mod 12) in H.
  assert (M : 0 <= m < 12) by (apply Z.mod_pos_bound; lia). clearbody o m.
  assert (R : forall c k, c = 39 \/ c = 885 -> Forall (fun c => c = 39 \/ c = 885 \/ c = 9839) (rep c k)) by (intros c k C; unfold rep; apply Forall_forall; intros x X; apply repeat_spec in X; subst x; tauto).
  assert (K : m = 0 \/ m = 1 \/ m = 2 \/ m = 3 \/ m = 4 \/ m = 5 \/ m = 6 \/ m = 7 \/ m = 8 \/ m = 9 \/ m = 10 \/ m = 11) by lia.
  assert (G : forall l, 97 <= l <= 103 -> exists l', (if o <? -1 then upper [l] else [l]) = [l'] /\ (65 <= l' <= 71 \/ 97 <= l' <= 103)).
  { intros l L. destruct (o <? -1); [|exists l; split; [reflexivity|lia]]. unfold upper. cbn [map]. replace ((97 <=? l) && (l <=? 122)) with true by lia. eexists. split; [reflexivity|lia]. }
  assert (MK : Forall (fun c => c = 39 \/ c = 885 \/ c = 9839) (if 0 <=? o then rep 39 (o + 1) else rep 885 (- o - 2))) by (destruct (0 <=? o); apply R; tauto).
  set (mk := if 0 <=? o then _ else _) in *. clearbody mk.
  clear R. apply bind_ok in H as (l & Hl & H). apply bind_ok in H as (s & Hs & H). apply ok_inj in H. subst n.
  assert (L : 97 <= l <= 103) by (repeat (destruct K as [->|K]); try subst m; vm_compute in Hl; injection Hl as <-; lia).
  assert (S : strip1 s = [] \/ strip1 s = [9839]) by (repeat (destruct K as [->|K]); try subst m; vm_compute in Hs; injection Hs as <-; vm_compute; tauto).
  destruct (G l L) as (l' & E & L'). exists l', (strip1 s ++ mk). split; [exact (f_equal (fun x => x ++ strip1 s ++ mk) E)|]. split; [exact L'|]. destruct S as [-> | ->]; [exact MK|]. constructor; [tauto|exact MK].
Qed.

(** ** bytes literals *)
Lemma quoted_all : Forall (fun b => (b = 39 \/ forall rest, lit_quoted 39 (repr_byte b ++ rest) = keep b (lit_quoted 39 rest)) /\ (b = 34 \/ forall rest, lit_quoted 34 (repr_byte b ++ rest) = keep b (lit_quoted 34 rest))) (range_z 0 256).
Proof. cbv [range_z Z.add Pos.add Pos.succ Pos.add_carry]. repeat (apply Forall_cons; [split; first [left; reflexivity|right; intros rest; reflexivity]|]). apply Forall_nil. Qed.
Lemma lit_quoted_byte q b rest : q = 39 \/ q = 34 -> is_byte b -> lit_quoted q (quoted_byte q b ++ rest) = keep b (lit_quoted q rest).
Proof.
  intros Q B. unfold quoted_byte. destruct (Z.eqb_spec b q) as [->|N]; [destruct Q as [-> | ->]; reflexivity|].
  pose proof (proj1 (Forall_forall _ _) quoted_all b (proj2 (in_range_z 0 256 b) B)) as [E1 E2]. destruct Q as [-> | ->]; [destruct E1 as [E|E]|destruct E2 as [E|E]]; try contradiction; apply E.
Qed.
Lemma lit_quoted_all q d : q = 39 \/ q = 34 -> is_bytes d -> lit_quoted q (flat_map (quoted_byte q) d ++ [q]) = Some d.
Proof.
  intros Q. induction d as [|b d IH]; intros B; [destruct Q as [-> | ->]; reflexivity|]. apply Forall_cons_iff in B as [Bb B]. cbn [flat_map]. rewrite <- app_assoc, lit_quoted_byte, IH by assumption. unfold keep. cbn [option_map]. unfold is_byte in Bb. rewrite Z.mod_small by lia. reflexivity.
Qed.
Lemma quote_cases d : quote_of d = 39 \/ quote_of d = 34.
Proof. unfold quote_of. destruct (_ && _); tauto. Qed.
Lemma literal_repr d : is_bytes d -> literal (repr_bytes d) = Some d.
Proof.
  intros B. unfold repr_bytes. texts. cbn [app literal]. replace ((98 =? 98) && ((quote_of d =? 39) || (quote_of d =? 34))) with true by (destruct (quote_cases d) as [-> | ->]; reflexivity).
  apply lit_quoted_all; [apply quote_cases|exact B].
Qed.

(** ** one event *)
Definition read_body (s : list Z) : option ev :=
  match find_text s fixed with
  | Some e => Some e
  | None => match after (asc "raw data ") s with
            | Some d => option_map Raw (literal d)
            | None => read_words (split 32 s)
            end
  end.
Lemma read_event_body b : read_event (asc "<" ++ b ++ asc ">") = read_body b.
Proof. unfold read_event. rewrite after_app. cbn [obind]. texts. rewrite before_last_app. reflexivity. Qed.
Lemma joined_words l : Forall (fun w => ~ In 32 w) l -> l <> [] -> split 32 (joined [32] l) = l.
Proof.
  intros F N. induction F as [|w l W F IH]; [contradiction|]. destruct l as [|v l]; cbn [joined]; [apply split_none; exact W|]. cbn [app]. rewrite split_cons by exact W. f_equal. apply IH. discriminate.
Qed.
Ltac rd := unfold read_body, fixed, find_text, beq; texts; cbn [list_eqb app Z.eqb Pos.eqb andb after split].
Ltac rdw := unfold read_words, find_text, one_word, two_words, beq; texts; cbn [list_eqb app Z.eqb Pos.eqb andb after split obind].
Lemma no_space n : ~ In 32 (str_int n).
Proof. apply not_in_num; lia. Qed.
Lemma no_space_hex n : ~ In 32 (hex n).
Proof. apply not_in_hex. unfold hexchar. lia. Qed.
#[local] Hint Resolve no_space no_space_hex : seqtext.
Lemma no_space_app a b : ~ In 32 a -> ~ In 32 b -> ~ In 32 (a ++ b).
Proof. intros A B I. apply in_app_iff in I. tauto. Qed.
Lemma read_rest d : read_body (asc "rest " ++ str_int d) = Some (Rest d).
Proof. rd. rewrite split_none by apply no_space. rdw. rewrite number_str. reflexivity. Qed.
Lemma read_word t v : is_word1 t = true -> read_body ((if t =? 0xE1 then asc "tempo " else asc "sweep pitch ") ++ str_int v) = Some (Word1 t v).
Proof.
  intros T. assert (K : t = 0xE1 \/ t = 0xE3) by (unfold is_word1 in T; lia). destruct K as [-> | ->]; cbn [Z.eqb Pos.eqb]; rd; rewrite split_none by apply no_space; rdw; rewrite number_str; reflexivity.
Qed.
Lemma read_instr_ok b i : read_body (asc "instrument " ++ str_int b ++ asc "/" ++ str_int i) = Some (Instr b i).
Proof.
  rd. rewrite split_none by (apply no_space_app; [apply no_space|intros [E|E]; [discriminate E|exact (no_space i E)]]). rdw. unfold read_instr. rewrite split_cons by (apply not_in_num; lia). rewrite split_none by (apply not_in_num; lia). rewrite !number_str. reflexivity.
Qed.
Lemma read_fromvar t v u : read_body (asc "from variable " ++ hex t ++ asc " " ++ str_int v ++ (match u with Some x => asc " " ++ str_int x | None => [] end)) = Some (FromVar t v u).
Proof.
  rd. rewrite split_cons by apply no_space_hex. destruct u as [u|].
  - texts. cbn [app]. rewrite split_cons by apply no_space. rewrite split_none by apply no_space. rdw. rewrite hexnumber_hex, !number_str. reflexivity.
  - rewrite app_nil_r, split_none by apply no_space. rdw. rewrite hexnumber_hex, !number_str. reflexivity.
Qed.
Lemma read_note_ok t v (flag : bool) d n : noteName t = Ok n ->
  read_body (n ++ asc " velocity=" ++ str_int v ++ asc " duration=" ++ str_int d ++ (if flag then asc " unknown-flag" else [])) = Some (Note t v flag d).
Proof.
  intros H. destruct (note_shape t n H) as (B & l & r & E & L & R).
  assert (NS : ~ In 32 n) by (subst n; intros [I|I]; [lia|]; rewrite Forall_forall in R; specialize (R 32 I); lia).
  assert (S : exists c x, n ++ asc " velocity=" ++ str_int v ++ asc " duration=" ++ str_int d ++ (if flag then asc " unknown-flag" else []) = l :: c :: x /\ (c = 32 \/ c = 39 \/ c = 885 \/ c = 9839)).
  { rewrite E. destruct r as [|c r]; texts; cbn [app]; eexists _, _; (split; [reflexivity|]); [tauto|]. apply Forall_cons_iff in R. tauto. }
  destruct S as (c & x & S & C). unfold read_body.
  assert (F : find_text (n ++ asc " velocity=" ++ str_int v ++ asc " duration=" ++ str_int d ++ (if flag then asc " unknown-flag" else [])) fixed = None).
  { rewrite S. unfold find_text, fixed, beq. texts. cbn [list_eqb].
    repeat match goal with |- context [?k =? l] => replace (k =? l) with false by lia; cbn [andb] | |- context [?k =? c] => replace (k =? c) with false by lia; rewrite ?andb_false_r; cbn [andb] end. reflexivity. }
  rewrite F. assert (A : after (asc "raw data ") (n ++ asc " velocity=" ++ str_int v ++ asc " duration=" ++ str_int d ++ (if flag then asc " unknown-flag" else [])) = None).
  { rewrite S. texts. cbn [after]. replace (114 =? l) with false by lia. reflexivity. }
  rewrite A. clear F A S C x c. texts. cbn [app]. rewrite split_cons by exact NS. cbn [split Z.eqb Pos.eqb].
  rewrite split_cons by apply no_space. cbn [split Z.eqb Pos.eqb].
  assert (W : split 32 (str_int d ++ (if flag then [32; 117; 110; 107; 110; 111; 119; 110; 45; 102; 108; 97; 103] else [])) = str_int d :: (if flag then [asc "unknown-flag"] else [])).
  { destruct flag; [rewrite split_cons by apply no_space; reflexivity|rewrite app_nil_r; apply split_none, no_space]. }
  rewrite W. subst n.
  assert (X : forall k p, 104 <= k \/ k = 40 \/ (k = 100 /\ exists q, p = 101 :: q) -> beq (l :: r) (k :: p) = false).
  { intros k p K. apply beq_neq. intros [= -> ->]. destruct K as [K|[K|(-> & q & ->)]]; try lia. apply Forall_cons_iff in R. lia. }
  unfold read_words. texts. rewrite !X by (first [left; lia|right; left; reflexivity|right; right; split; [reflexivity|eexists; reflexivity]]).
  destruct flag.
  - replace (beq _ [118; 97; 114; 105; 97; 98; 108; 101]) with false by reflexivity. replace (beq _ [116; 114; 97; 99; 107]) with false by reflexivity. unfold read_note. rewrite B. texts. cbn [obind after Z.eqb Pos.eqb]. rewrite !number_str. reflexivity.
  - cbn [after Z.eqb Pos.eqb]. unfold read_note. rewrite B. texts. cbn [obind after Z.eqb Pos.eqb]. rewrite !number_str. reflexivity.
Qed.
Lemma read_arith_ok t v x : is_arith t = true -> read_body (asc "(var " ++ str_int v ++ asc ") " ++ symbol t ++ asc " " ++ str_int x) = Some (Arith t v x).
Proof.
  intros T. assert (O : find_text (symbol t) operators = Some t /\ ~ In 32 (symbol t)).
  { assert (K : t = 0xB0 \/ t = 0xB1 \/ t = 0xB2 \/ t = 0xB3 \/ t = 0xB4 \/ t = 0xB5 \/ t = 0xB6 \/ t = 0xB7 \/ t = 0xB8 \/ t = 0xB9 \/ t = 0xBA \/ t = 0xBB \/ t = 0xBC \/ t = 0xBD) by (unfold is_arith in T; lia).
    repeat (destruct K as [->|K]); try subst t; (split; [vm_compute; reflexivity|]); vm_compute; intros I; repeat (destruct I as [I|I]; [discriminate I|]); exact I. }
  destruct O as [O NS]. rd. replace (str_int v ++ 41 :: 32 :: symbol t ++ 32 :: str_int x) with ((str_int v ++ [41]) ++ 32 :: symbol t ++ 32 :: str_int x) by (rewrite <- app_assoc; reflexivity).
  rewrite split_cons by (apply no_space_app; [apply no_space|intros [E|[]]; discriminate E]). rewrite split_cons by exact NS. rewrite split_none by apply no_space.
  rdw. unfold read_arith. rewrite before_last_app. cbn [obind]. rewrite number_str. cbn [obind]. rewrite O. cbn [obind]. rewrite number_str. reflexivity.
Qed.
Lemma all_numbers l : all_some (map number (map str_int l)) = Some l.
Proof. induction l as [|x l IH]; [reflexivity|]. cbn [map all_some]. rewrite number_str. cbn [obind]. rewrite IH. reflexivity. Qed.
Lemma read_random_ok t args a b : read_body (asc "random " ++ hex t ++ asc " " ++ joined (asc " ") (map str_int args) ++ (match args with [] => [] | _ => asc " " end) ++ asc "(" ++ str_int a ++ asc ", " ++ str_int b ++ asc ")") = Some (Random t args a b).
Proof.
  rd. rewrite split_cons by apply no_space_hex.
  assert (W : split 32 (joined [32] (map str_int args) ++ (match args with [] => [] | _ => [32] end) ++ 40 :: str_int a ++ 44 :: 32 :: str_int b ++ [41]) = map str_int args ++ [40 :: str_int a ++ [44]; str_int b ++ [41]]).
  { assert (T : split 32 (40 :: str_int a ++ 44 :: 32 :: str_int b ++ [41]) = [40 :: str_int a ++ [44]; str_int b ++ [41]]).
    { replace (40 :: str_int a ++ 44 :: 32 :: str_int b ++ [41]) with ((40 :: str_int a ++ [44]) ++ 32 :: str_int b ++ [41]) by (cbn [app]; rewrite <- app_assoc; reflexivity).
      rewrite split_cons, split_none; [reflexivity| |]; [apply no_space_app; [apply no_space|intros [E|[]]; discriminate E]|intros [E|E]; [discriminate E|]; revert E; apply no_space_app; [apply no_space|intros [E|[]]; discriminate E]]. }
    destruct args as [|x args]; [exact T|]. revert x. induction args as [|y args IH]; intros x.
    - cbn [map joined app]. rewrite split_cons by apply no_space. rewrite T. reflexivity.
    - change (joined [32] (map str_int (x :: y :: args))) with (str_int x ++ 32 :: joined [32] (map str_int (y :: args))). rewrite <- app_assoc. cbn [app]. rewrite split_cons by apply no_space. etransitivity; [apply f_equal, (IH y)|]. reflexivity. }
  rewrite W. rdw. unfold read_random. rewrite rev_app_distr. cbn [rev app]. rewrite rev_involutive, hexnumber_hex, all_numbers. cbn [obind]. unfold pair_first, pair_second. texts. cbn [after Z.eqb Pos.eqb obind]. rewrite !before_last_app. cbn [obind]. rewrite !number_str. reflexivity.
Qed.
Lemma read_tracks l : read_body (asc "define tracks " ++ joined (asc " ") (map str_int l)) = Some (DefTracks l).
Proof.
  rd. destruct l as [|x l]; [reflexivity|]. rewrite joined_words; [|apply Forall_forall; intros w W; apply in_map_iff in W as (n & <- & _); apply no_space|discriminate].
  rdw. destruct (str_int_cons x) as (c & r & E & _). cbn [map]. pose proof (all_numbers (x :: l)) as A. cbn [map] in A. rewrite E in *. rewrite A. destruct (map str_int l); reflexivity.
Qed.
Lemma read_raw d : is_bytes d -> read_body (asc "raw data " ++ repr_bytes d) = Some (Raw d).
Proof.
  intros B. unfold read_body, fixed, find_text, beq. texts. cbn [list_eqb app Z.eqb Pos.eqb andb after]. rewrite literal_repr by exact B. destruct (repr_bytes d); reflexivity.
Qed.
Lemma is_byte1_cases t : is_byte1 t = true -> In t [0xC0; 0xC1; 0xC2; 0xC3; 0xC5; 0xC6; 0xCA; 0xCB; 0xCD; 0xCF; 0xD0; 0xD1; 0xD2; 0xD3; 0xD4; 0xD5; 0xD6; 0xE0] \/ In t [0xC4; 0xC7; 0xC8; 0xC9; 0xCC; 0xCE].
Proof. unfold is_byte1. intros T. cbn [In]. lia. Qed.
Lemma read_simple t v : In t [0xC0; 0xC1; 0xC2; 0xC3; 0xC5; 0xC6; 0xCA; 0xCB; 0xCD; 0xCF; 0xD0; 0xD1; 0xD2; 0xD3; 0xD4; 0xD5; 0xD6; 0xE0] -> read_body (shortName t ++ asc " " ++ str_int v) = Some (Byte1 t v).
Proof.
  intros I. cbn [In] in I. repeat (destruct I as [<-|I]); try contradiction; unfold shortName; cbn [Z.eqb Pos.eqb]; rd; rewrite split_none by apply no_space; rdw; rewrite number_str; reflexivity.
Qed.
Lemma on_number p v q : (forall c, numchar c -> forall r, find_text (p ++ c :: r) fixed = None /\ after (asc "raw data ") (p ++ c :: r) = None) -> split 32 (p ++ str_int v) = q -> read_body (p ++ str_int v) = read_words q.
Proof. intros H E. unfold read_body. rewrite E. destruct (str_int_cons v) as (c & r & -> & C). destruct (H c C r) as [-> ->]. reflexivity. Qed.
Lemma numchar_cases c : numchar c -> In c [45; 48; 49; 50; 51; 52; 53; 54; 55; 56; 57].
Proof. unfold numchar. cbn [In]. lia. Qed.
Lemma read_portamento v : read_body (asc "portamento " ++ str_int v) = Some (Byte1 0xC4 v).
Proof.
  rewrite (on_number _ _ [asc "portamento"; str_int v]).
  - rdw. rewrite number_str. reflexivity.
  - intros c C r. apply numchar_cases in C. cbn [In] in C. repeat (destruct C as [<-|C]); try contradiction; split; reflexivity.
  - texts. cbn [app split Z.eqb Pos.eqb]. rewrite split_none by apply no_space. reflexivity.
Qed.
Lemma read_tie v : read_body (asc "tie " ++ on_off v) = Some (Byte1 0xC8 v).
Proof.
  unfold on_off. destruct (Z.eqb_spec v 0) as [->|V0]; [reflexivity|]. destruct (Z.eqb_spec v 1) as [->|V1]; [reflexivity|]. rewrite (on_number _ _ [asc "tie"; str_int v]).
  - rdw. rewrite number_str. reflexivity.
  - intros c C r. apply numchar_cases in C. cbn [In] in C. repeat (destruct C as [<-|C]); try contradiction; split; reflexivity.
  - texts. cbn [app split Z.eqb Pos.eqb]. rewrite split_none by apply no_space. reflexivity.
Qed.
Lemma read_onoff v : v = 0 \/ v = 1 -> read_body (asc "portamento " ++ on_off v) = Some (Byte1 0xCE v).
Proof. intros [-> | ->]; reflexivity. Qed.
Lemma read_from v n : noteName v = Ok n -> read_body (asc "portamento from " ++ n) = Some (Byte1 0xC9 v).
Proof.
  intros H. destruct (note_shape v n H) as (B & l & r & E & L & R).
  assert (NS : ~ In 32 n) by (subst n; intros [I|I]; [lia|]; rewrite Forall_forall in R; specialize (R 32 I); lia).
  rd. rewrite split_none by exact NS. rdw. rewrite B. reflexivity.
Qed.
Lemma read_byte t v ids s : proper (Byte1 t v) -> ~ ambiguous (Byte1 t v) -> ev_str ids (Byte1 t v) = Ok s -> read_event s = Some (Byte1 t v).
Proof.
  intros (T & P7 & PC) A. cbn [ev_str]. destruct (is_byte1_cases t T) as [I|I].
  - pose proof (read_simple t v I) as R. intros H. assert (K : Ok (asc "<" ++ shortName t ++ asc " " ++ str_int v ++ asc ">") = Ok s) by (cbn [In] in I; repeat (destruct I as [<-|I]); try contradiction; exact H).
    apply ok_inj in K. subst s. rewrite <- R. rewrite <- read_event_body, <- !app_assoc. reflexivity.
  - cbn [In] in I. repeat (destruct I as [<-|I]); try contradiction; cbn [Z.eqb Pos.eqb]; intros H.
    + apply ok_inj in H. subst s. rewrite <- read_portamento, <- read_event_body. reflexivity.
    + apply ok_inj in H. subst s. destruct (P7 eq_refl) as [-> | ->]; reflexivity.
    + apply ok_inj in H. subst s. rewrite <- read_tie, <- read_event_body. reflexivity.
    + apply bind_ok in H as (n & N & H). apply ok_inj in H. subst s. rewrite <- (read_from v n N), <- read_event_body. reflexivity.
    + apply ok_inj in H. subst s. destruct (PC eq_refl) as [-> |[-> | ->]]; reflexivity.
    + apply ok_inj in H. subst s. assert (O : v = 0 \/ v = 1) by (destruct (Z.eq_dec v 0); [tauto|]; destruct (Z.eq_dec v 1); [tauto|]; exfalso; apply A; exists v; tauto). rewrite <- (read_onoff v O), <- read_event_body. reflexivity.
Qed.

(** sets *)
Lemma insert_in x y l : In y (insert_z x l) <-> y = x \/ In y l.
Proof.
  induction l as [|z l IH]; cbn [insert_z In]; [split; [intros [E|[]]; left; congruence|intros [->|[]]; left; reflexivity]|].
  destruct (x <? z); [cbn [In]; split; intros; intuition congruence|]. destruct (Z.eqb_spec x z) as [->|]; [cbn [In]; split; intros; intuition congruence|]. cbn [In]. rewrite IH. split; intros; intuition congruence.
Qed.
Lemma sorted_in y l : In y (sorted_set l) <-> In y l.
Proof. induction l as [|x l IH]; [reflexivity|]. cbn [sorted_set fold_right In]. fold (sorted_set l). rewrite insert_in, IH. split; intros; intuition congruence. Qed.
Lemma read_plain ids e s : proper e -> plain e -> ~ ambiguous e -> ev_str ids e = Ok s -> exists f, read_event s = Some f /\ same_event e f.
Proof.
  intros P Q A H. destruct e; try contradiction; try (eexists; split; [|reflexivity]).
  - cbn [ev_str] in H. apply bind_ok in H as (n & N & H). apply ok_inj in H. subst s. rewrite <- (read_note_ok _ velocity unknownFlag duration _ N), <- read_event_body, <- !app_assoc. reflexivity.
  - apply ok_inj in H. subst s. rewrite <- read_rest, <- read_event_body, <- !app_assoc. reflexivity.
  - apply ok_inj in H. subst s. rewrite <- read_instr_ok, <- read_event_body, <- !app_assoc. reflexivity.
  - apply ok_inj in H. subst s. rewrite <- read_random_ok, <- read_event_body, <- !app_assoc. reflexivity.
  - apply ok_inj in H. subst s. rewrite <- read_fromvar, <- read_event_body, <- !app_assoc. reflexivity.
  - apply ok_inj in H. subst s. rewrite <- (read_arith_ok _ _ _ P), <- read_event_body, <- !app_assoc. reflexivity.
  - exact (read_byte _ _ _ _ P A H).
  - apply ok_inj in H. subst s. rewrite <- (read_word _ value P), <- read_event_body, <- !app_assoc. destruct (type =? 0xE1); reflexivity.
  - apply ok_inj in H. subst s. cbn [proper] in P. assert (K : type = 0xA2 \/ type = 0xFC \/ type = 0xFD \/ type = 0xFF) by (unfold is_bare in P; lia). destruct K as [-> |[-> |[-> | ->]]]; reflexivity.
  - apply ok_inj in H. subst s. exists (DefTracks (sorted_set trackNumbers)). split; [|intros x; symmetry; apply sorted_in]. rewrite <- read_tracks, <- read_event_body, <- !app_assoc. reflexivity.
  - apply ok_inj in H. subst s. rewrite <- (read_raw _ P), <- read_event_body, <- !app_assoc. reflexivity.
Qed.

(** ** no line breaks *)
Definition flat (s : list Z) : Prop := ~ In 10 s.
Lemma flat_app a b : flat a -> flat b -> flat (a ++ b).
Proof. intros A B I. apply in_app_iff in I. unfold flat in *. tauto. Qed.
Lemma flat_num n : flat (str_int n).
Proof. apply not_in_num; lia. Qed.
Lemma flat_hex n : flat (hex n).
Proof. apply not_in_hex. unfold hexchar. lia. Qed.
Lemma flat_note t n : noteName t = Ok n -> flat n.
Proof. intros H. destruct (note_shape t n H) as (_ & l & r & -> & L & R). intros [I|I]; [lia|]. rewrite Forall_forall in R. specialize (R 10 I). lia. Qed.
Lemma flat_text s : existsb (Z.eqb 10) s = false -> flat s.
Proof. intros E I. assert (existsb (Z.eqb 10) s = true) by (apply existsb_exists; exists 10; split; [exact I|reflexivity]). congruence. Qed.
Lemma flat_joined sep l : flat sep -> Forall flat l -> flat (joined sep l).
Proof. intros S F. induction F as [|x l X F IH]; [exact (fun I => I)|]. destruct l as [|y l]; cbn [joined]; [exact X|]. apply flat_app; [exact X|]. apply flat_app; [exact S|exact IH]. Qed.
Lemma flat_nums l : Forall flat (map str_int l).
Proof. apply Forall_forall. intros x X. apply in_map_iff in X as (n & <- & _). apply flat_num. Qed.
Lemma repr_flat_all : Forall (fun b => flat (repr_byte b)) (range_z 0 256).
Proof. apply Forall_forall. intros b B. apply flat_text. revert b B. apply (proj1 (Forall_forall _ _)). cbv [range_z Z.add Pos.add Pos.succ Pos.add_carry]. repeat (apply Forall_cons; [vm_compute; reflexivity|]). apply Forall_nil. Qed.
Lemma flat_bytes d : is_bytes d -> flat (repr_bytes d).
Proof.
  intros B. unfold repr_bytes. apply flat_app; [apply flat_text; reflexivity|]. apply flat_app; [destruct (quote_cases d) as [-> | ->]; apply flat_text; reflexivity|]. apply flat_app; [|destruct (quote_cases d) as [-> | ->]; apply flat_text; reflexivity].
  intros I. apply in_flat_map in I as (b & Ib & I). unfold quoted_byte in I. destruct (b =? quote_of d); [revert I; destruct (quote_cases d) as [-> | ->]; apply flat_text; reflexivity|].
  unfold is_bytes in B. rewrite Forall_forall in B. exact (proj1 (Forall_forall _ _) repr_flat_all b (proj2 (in_range_z 0 256 b) (B b Ib)) I).
Qed.
Lemma flat_onoff v : flat (on_off v).
Proof. unfold on_off. destruct (v =? 0); [apply flat_text; reflexivity|]. destruct (v =? 1); [apply flat_text; reflexivity|apply flat_num]. Qed.
Lemma flat_symbol t : flat (symbol t).
Proof. unfold symbol. repeat match goal with |- context [if ?b then _ else _] => destruct b; [apply flat_text; reflexivity|] end. apply flat_text. reflexivity. Qed.
Lemma flat_short t : flat (shortName t).
Proof. unfold shortName. repeat match goal with |- context [if ?b then _ else _] => destruct b; [apply flat_text; reflexivity|] end. apply flat_text. reflexivity. Qed.
Ltac flats := repeat match goal with
  | |- flat (asc _) => apply flat_text; reflexivity
  | |- flat (str_int _) => apply flat_num
  | |- flat (hex _) => apply flat_hex
  | |- flat (on_off _) => apply flat_onoff
  | |- flat (symbol _) => apply flat_symbol
  | |- flat (shortName _) => apply flat_short
  | |- flat (joined _ _) => apply flat_joined; [|apply flat_nums]
  | |- flat [] => exact (fun I => I)
  | |- flat (_ ++ _) => apply flat_app
  | |- flat (if ?b then _ else _) => destruct b
  | |- flat (match ?b with _ => _ end) => destruct b
  end.
Lemma flat_str ids e s : proper e -> ev_str ids e = Ok s -> flat s.
Proof.
  intros P H. destruct e; cbn [ev_str] in H.
  all: repeat match type of H with (if ?b then _ else _) = _ => destruct b end.
  all: try (apply bind_ok in H as (n & N & H); pose proof (flat_note _ _ N)).
  all: apply ok_inj in H; subst s; flats; try assumption. apply flat_bytes. exact P.
Qed.

(** ** lines *)
Lemma index_points_gen events r : forall pre, (forall n, r = Some n -> ~ In n (map fst pre)) ->
  match index_of (zlen pre) events r with
  | Some i => zlen pre <= i /\ exists n, r = Some n /\ nth_error (map fst (pre ++ events)) (Z.to_nat i) = Some n /\ forall j, (j < Z.to_nat i)%nat -> nth_error (map fst (pre ++ events)) j <> Some n
  | None => forall n, r = Some n -> ~ In n (map fst (pre ++ events))
  end.
Proof.
  induction events as [|[m e] events IH]; intros pre N.
  - destruct r as [n|]; cbn [index_of]; [intros k K; rewrite app_nil_r; apply N; exact K|discriminate].
  - destruct r as [n|]; cbn [index_of]; [|discriminate]. destruct (Z.eqb_spec m n) as [->|X].
    + split; [lia|]. exists n. split; [reflexivity|]. unfold zlen. rewrite Nat2Z.id, map_app. cbn [map fst]. split; [rewrite nth_error_app2 by (rewrite map_length; lia); rewrite map_length, Nat.sub_diag; reflexivity|].
      intros j J E. rewrite nth_error_app1 in E by (rewrite map_length; exact J). apply nth_error_In in E. exact (N n eq_refl E).
    + specialize (IH (pre ++ [(m, e)])). rewrite <- app_assoc in IH. cbn [app] in IH. rewrite zlen_app in IH. change (zlen [(m, e)]) with 1 in IH.
      assert (N' : forall k, Some n = Some k -> ~ In k (map fst (pre ++ [(m, e)]))) by (intros k [= <-] I; rewrite map_app in I; apply in_app_iff in I as [I|[I|[]]]; [exact (N n eq_refl I)|exact (X I)]).
      specialize (IH N'). destruct (index_of (zlen pre + 1) events (Some n)); [|exact IH]. destruct IH as [L IH]. split; [lia|exact IH].
Qed.
Lemma index_points events r : points events r (index_of 0 events r).
Proof. pose proof (index_points_gen events r [] (fun n _ I => I)) as H. change (zlen (@nil (Z * ev))) with 0 in H. cbn [app] in H. exact H. Qed.
Lemma index_in events n : In n (map fst events) -> exists i, index_of 0 events (Some n) = Some i.
Proof. intros I. pose proof (index_points events (Some n)) as P. destruct (index_of 0 events (Some n)) as [i|]; [exists i; reflexivity|]. exfalso. exact (P n eq_refl I). Qed.

Definition place_text (k : ref) : text := match k with Some i => str_int i | None => asc "NOWHERE" end.
Lemma place_text_ok k : place (64 :: place_text k) = Some k.
Proof.
  unfold place. texts. cbn [after Z.eqb Pos.eqb obind]. destruct k as [i|]; [|reflexivity]. cbn [place_text]. destruct (str_int_cons i) as (c & r & E & C). pose proof (number_str i) as N. rewrite E in *.
  replace (beq (c :: r) _) with false; [|symmetry; apply beq_neq; intros [= -> _]; unfold numchar in C; lia]. rewrite N. reflexivity.
Qed.
Lemma place_chars k c : c = 32 \/ c = 10 -> ~ In c (64 :: place_text k).
Proof. intros C [I|I]; [lia|]. destruct k as [i|]; [revert I; apply not_in_num; lia|]. cbn in I. repeat (destruct I as [I|I]; [lia|]). exact I. Qed.
Lemma read_jump k : read_event (asc "<jump @" ++ place_text k ++ asc ">") = Some (Jump k).
Proof.
  change (asc "<jump @" ++ place_text k ++ asc ">") with (asc "<" ++ (asc "jump @" ++ place_text k) ++ asc ">"). rewrite read_event_body. rd. change (64 :: place_text k) with (64 :: place_text k).
  pose proof (split_none 32 (64 :: place_text k) (place_chars k 32 (or_introl eq_refl))) as S. cbn [split Z.eqb Pos.eqb] in S. rewrite S. rdw. rewrite place_text_ok. reflexivity.
Qed.
Lemma read_call k : read_event (asc "<call @" ++ place_text k ++ asc ">") = Some (Call k).
Proof.
  change (asc "<call @" ++ place_text k ++ asc ">") with (asc "<" ++ (asc "call @" ++ place_text k) ++ asc ">"). rewrite read_event_body. rd.
  pose proof (split_none 32 (64 :: place_text k) (place_chars k 32 (or_introl eq_refl))) as S. cbn [split Z.eqb Pos.eqb] in S. rewrite S. rdw. rewrite place_text_ok. reflexivity.
Qed.
Lemma read_begin n k : read_event (asc "<begin track " ++ str_int n ++ asc " @" ++ place_text k ++ asc ">") = Some (BeginTrack n k).
Proof.
  replace (asc "<begin track " ++ str_int n ++ asc " @" ++ place_text k ++ asc ">") with (asc "<" ++ (asc "begin track " ++ str_int n ++ asc " @" ++ place_text k) ++ asc ">") by (rewrite <- !app_assoc; reflexivity). rewrite read_event_body. rd.
  rewrite split_cons by apply no_space. pose proof (split_none 32 (64 :: place_text k) (place_chars k 32 (or_introl eq_refl))) as S. cbn [split Z.eqb Pos.eqb] in S |- *. rewrite S. rdw. rewrite number_str. cbn [obind]. rewrite place_text_ok. reflexivity.
Qed.

(** the text of the event on a line *)
Definition line_text (events : events_t) (e : ev) (s : text) : Prop :=
  match e with
  | Jump r => s = asc "<jump @" ++ place_text (index_of 0 events r) ++ asc ">"
  | Call r => s = asc "<call @" ++ place_text (index_of 0 events r) ++ asc ">"
  | BeginTrack n r => s = asc "<begin track " ++ str_int n ++ asc " @" ++ place_text (index_of 0 events r) ++ asc ">"
  | _ => forall ids, ev_str ids e = Ok s
  end.
Lemma flat_place k : flat (place_text k).
Proof. intros I. exact (place_chars k 10 (or_intror eq_refl) (or_intror I)). Qed.
Lemma line_text_ok events e s : proper e -> ~ ambiguous e -> line_text events e s -> flat s /\ exists f, read_event s = Some f /\ same_line events e f.
Proof.
  intros P A L. destruct e; cbn [line_text] in L.
  4, 5, 6: subst s; (split; [flats; apply flat_place|]); first [rewrite read_begin|rewrite read_jump|rewrite read_call]; eexists; (split; [reflexivity|]); cbn [same_line]; try (split; [reflexivity|]); apply index_points.
  all: specialize (L (fun _ => 0)); (split; [exact (flat_str _ _ _ P L)|]); destruct (read_plain _ _ _ P I A L) as (f & R & S); exists f; (split; [exact R|]); exact S.
Qed.
Lemma ev_str_total e : plain e -> exists s, forall ids, ev_str ids e = Ok s.
Proof.
  intros P. destruct e; try contradiction; cbn [ev_str].
  1: destruct (note_back type) as (n & -> & _). 7: destruct (note_back value) as (n & -> & _); destruct (type =? 0xC7); [|destruct (type =? 0xC8); [|destruct (type =? 0xC9); [|destruct (type =? 0xCC); [|destruct (type =? 0xCE)]]]].
  all: try (eexists; intros ids; cbn [bind]; reflexivity).
Qed.

Lemma read_event_end s f : read_event s = Some f -> exists y, s = y ++ [62].
Proof.
  unfold read_event. destruct (after (asc "<") s) as [r|] eqn:A; [|discriminate]. cbn [obind]. destruct (before_last 62 r) as [b|] eqn:B; [|discriminate]. intros _.
  assert (R : forall r b, before_last 62 r = Some b -> r = b ++ [62]).
  { clear. induction r as [|d r IH]; intros b; cbn [before_last]; [discriminate|]. destruct r as [|x r]; [destruct (Z.eqb_spec d 62); [intros [= <-]; subst d; reflexivity|discriminate]|].
    destruct (before_last 62 (x :: r)) as [y|]; [|discriminate]. cbn [option_map]. intros [= <-]. cbn [app]. f_equal. apply IH. reflexivity. }
  assert (S : forall p s r, after p s = Some r -> s = p ++ r).
  { clear. induction p as [|a p IH]; intros s r; cbn [after]; [destruct s; intros [= <-]; reflexivity|]. destruct s as [|c s]; [discriminate|]. destruct (Z.eqb_spec a c) as [->|]; [|discriminate]. intros H. cbn [app]. f_equal. apply IH. exact H. }
  apply S in A. apply R in B. subst r s. exists (asc "<" ++ b). rewrite <- app_assoc. reflexivity.
Qed.
Lemma before_last_other c d s : d <> c -> before_last c (s ++ [d]) = None.
Proof. intros N. induction s as [|x s IH]; cbn [app before_last]; [destruct (Z.eqb_spec d c); [contradiction|reflexivity]|]. rewrite IH. destruct (s ++ [d]) eqn:E; [destruct s; discriminate E|reflexivity]. Qed.

Definition line (prefix : text) (w i : Z) (et : text) : text := prefix ++ [32] ++ asc "  [" ++ fmt_width i w ++ asc "] " ++ et.
Lemma drop_fmt i w : drop_spaces (fmt_width i w) = str_int i.
Proof.
  unfold fmt_width, rep. induction (Z.to_nat (w - zlen (str_int i))) as [|k IH]; [|exact IH]. cbn [repeat app]. destruct (str_int_cons i) as (c & r & -> & C). unfold drop_spaces. apply numchar_cases in C. cbn [In] in C. repeat (destruct C as [<-|C]; [reflexivity|]). contradiction.
Qed.
Lemma fmt_chars i w c : c <> 32 -> c <> 45 -> ~ 48 <= c < 58 -> ~ In c (fmt_width i w).
Proof. intros A B C I. unfold fmt_width, rep in I. apply in_app_iff in I as [I|I]; [apply repeat_spec in I; congruence|exact (not_in_num c i B C I)]. Qed.
Lemma read_line_ok prefix w i et f (comma : bool) : read_event et = Some f -> read_line prefix (line prefix w i et ++ (if comma then asc "," else [])) = Some (i, f).
Proof.
  intros R. unfold read_line, line. replace ((prefix ++ [32] ++ asc "  [" ++ fmt_width i w ++ asc "] " ++ et) ++ (if comma then asc "," else [])) with ((prefix ++ asc "   [") ++ fmt_width i w ++ asc "] " ++ et ++ (if comma then asc "," else [])) by (rewrite <- !app_assoc; reflexivity).
  rewrite after_app. cbn [obind]. set (tl := et ++ _). texts. cbn [app]. rewrite split_cons by (apply fmt_chars; lia). rewrite drop_fmt, number_str. cbn [obind].
  replace (fmt_width i w ++ 93 :: 32 :: tl) with ((fmt_width i w ++ [93; 32]) ++ tl) by (rewrite <- app_assoc; reflexivity). rewrite after_app. cbn [obind]. unfold tl. destruct (read_event_end _ _ R) as (y & E).
  replace (match before_last 44 (et ++ (if comma then asc "," else [])) with Some x => x | None => et ++ (if comma then asc "," else []) end) with et; [rewrite R; reflexivity|].
  destruct comma; [texts; rewrite before_last_app; reflexivity|]. rewrite app_nil_r. rewrite E, before_last_other by lia. reflexivity.
Qed.
Lemma flat_line prefix w i et (comma : bool) : flat prefix -> flat et -> flat (line prefix w i et ++ (if comma then asc "," else [])).
Proof. intros P E. apply flat_app; [|flats]. unfold line. apply flat_app; [exact P|]. apply flat_app; [apply flat_text; reflexivity|]. apply flat_app; [flats|]. apply flat_app; [apply fmt_chars; lia|]. apply flat_app; [flats|exact E]. Qed.

(** ** the list *)
Fixpoint lines_of (prefix : text) (mx w : Z) (names : list (Z * text)) (i : Z) (ets : list text) : list text :=
  match ets with
  | [] => []
  | et :: r => (prefix ++ label_text prefix mx names i ++ asc "  [" ++ fmt_width i w ++ asc "] " ++ et ++ asc ",") :: lines_of prefix mx w names (i + 1) r
  end.
(** whether a destination is missing *)
Definition missing (events : events_t) (e : ev) : nat :=
  match dest e with [r] => match index_of 0 events r with Some _ => 0%nat | None => 1%nat end | _ => 0%nat end.
Lemma plain_text ids events e s : plain e -> ev_str ids e = Ok s -> line_text events e s.
Proof. intros P H. destruct (ev_str_total e P) as (s' & S). assert (s' = s) by (specialize (S ids); congruence). subst s'. destruct e; try contradiction; exact S. Qed.
Lemma print_event_inv ids heap depth events prefix mx w names i n e l W : print_event ids heap depth events prefix mx w names i n e = Ok (l, W) ->
  exists et, line_text events e et /\ l = prefix ++ label_text prefix mx names i ++ asc "  [" ++ fmt_width i w ++ asc "] " ++ et ++ asc "," /\
    length W = missing events e /\ Forall (fun x => exists y, x = prefix ++ asc "(WARNING: " ++ y ++ asc ") not in events list!)") W.
Proof.
  unfold print_event. intros H. apply bind_ok in H as ([et W'] & B & H). apply ok_inj in H. injection H as <- <-. cbn [fst snd]. exists et.
  assert (D : forall r d, dest_str ids heap depth events prefix n r = Ok d -> fst d = place_text (index_of 0 events r) /\ length (snd d) = (match index_of 0 events r with Some _ => 0%nat | None => 1%nat end) /\
    Forall (fun x => exists y, x = prefix ++ asc "(WARNING: " ++ y ++ asc ") not in events list!)") (snd d)).
  { intros r d. unfold dest_str. destruct (index_of 0 events r); [intros H; apply ok_inj in H; subst d; repeat split; constructor|]. intros H. apply bind_ok in H as (s & _ & H). apply bind_ok in H as (t & _ & H). apply ok_inj in H. subst d. split; [reflexivity|]. split; [reflexivity|].
    constructor; [|constructor]. exists (s ++ asc " (target of " ++ t). rewrite <- !app_assoc. reflexivity. }
  destruct e; try (apply bind_ok in B as (s & B & H); apply ok_inj in H; injection H as <- <-; split; [apply (plain_text ids); [exact I|exact B]|split; [reflexivity|split; [reflexivity|constructor]]]).
  all: apply bind_ok in B as (d & B & H); apply ok_inj in H; injection H as <- <-; destruct (D _ _ B) as (F & L & W); rewrite F; split; [reflexivity|split; [reflexivity|split; [exact L|exact W]]].
Qed.
Lemma print_event_ok ids heap depth events prefix mx w names i n e : (forall r, In r (dest e) -> exists m, r = Some m /\ In m (map fst events)) ->
  exists l, print_event ids heap depth events prefix mx w names i n e = Ok (l, []).
Proof.
  intros C. unfold print_event.
  assert (D : forall r, In r (dest e) -> exists i, dest_str ids heap depth events prefix n r = Ok (str_int i, [])) by (intros r R; destruct (C r R) as (m & -> & M); destruct (index_in events m M) as (k & K); exists k; unfold dest_str; rewrite K; reflexivity).
  destruct e; try (match goal with |- context [ev_str _ ?e] => destruct (ev_str_total e I) as (s & S) end; rewrite S; cbn [bind fst snd]; eexists; reflexivity).
  all: destruct (D _ (or_introl eq_refl)) as (k & ->); cbn [bind fst snd]; eexists; reflexivity.
Qed.
Lemma print_events_inv ids heap depth events prefix mx w names l : forall i W L, print_events ids heap depth events prefix mx w names i l = Ok (W, L) ->
  exists ets, Forall2 (fun p et => line_text events (snd p) et) l ets /\ L = lines_of prefix mx w names i ets /\ length W = fold_right plus 0%nat (map (fun p => missing events (snd p)) l) /\
    Forall (fun x => exists y, x = prefix ++ asc "(WARNING: " ++ y ++ asc ") not in events list!)") W.
Proof.
  induction l as [|[n e] l IH]; intros i W L H; cbn [print_events] in H; [apply ok_inj in H; injection H as <- <-; exists []; repeat split; constructor|].
  apply bind_ok in H as ([x W1] & A & H). apply bind_ok in H as ([W2 L2] & B & H). apply ok_inj in H. injection H as <- <-. destruct (IH _ _ _ B) as (ets & F & -> & N & G). destruct (print_event_inv _ _ _ _ _ _ _ _ _ _ _ _ _ A) as (et & T & -> & M & K).
  exists (et :: ets). split; [constructor; assumption|]. split; [reflexivity|]. split; [cbn [map fold_right snd]; rewrite app_length, M, N; reflexivity|]. cbn [fst snd]. apply Forall_app. split; assumption.
Qed.
Lemma print_events_ok ids heap depth events prefix mx w names l : (forall e r, In e (map snd l) -> In r (dest e) -> exists m, r = Some m /\ In m (map fst events)) ->
  forall i, exists L, print_events ids heap depth events prefix mx w names i l = Ok ([], L).
Proof.
  induction l as [|[n e] l IH]; intros C i; cbn [print_events]; [eexists; reflexivity|]. destruct (print_event_ok ids heap depth events prefix mx w names i n e) as (x & ->); [intros r R; exact (C e r (or_introl eq_refl) R)|]. cbn [bind fst snd].
  destruct (IH (fun e r I R => C e r (or_intror I) R) (i + 1)) as (L & ->). cbn [bind fst snd app]. eexists. reflexivity.
Qed.
Lemma label_none prefix mx i : 0 <= mx -> label_text prefix mx [] i = rep 32 mx.
Proof. intros M. unfold label_text. cbn [name_at length pieces pad_last]. reflexivity. Qed.
(** lines without labels *)
Fixpoint plain_lines (prefix : text) (w i : Z) (ets : list text) : list text :=
  match ets with
  | [] => []
  | [et] => [line prefix w i et ++ []]
  | et :: r => (line prefix w i et ++ asc ",") :: plain_lines prefix w (i + 1) r
  end.
Lemma drop_comma_lines prefix w : forall ets i, drop_comma (lines_of prefix 1 w [] i ets) = plain_lines prefix w i ets.
Proof.
  induction ets as [|et ets IH]; intros i; [reflexivity|]. cbn [lines_of]. rewrite label_none by lia. destruct ets as [|e2 ets].
  - cbn [lines_of drop_comma plain_lines]. f_equal. unfold line. rewrite app_nil_r. change (rep 32 1) with [32].
    replace (prefix ++ [32] ++ asc "  [" ++ fmt_width i w ++ asc "] " ++ et ++ asc ",") with ((prefix ++ [32] ++ asc "  [" ++ fmt_width i w ++ asc "] " ++ et) ++ [44]) by (rewrite <- !app_assoc; reflexivity).
    set (x := prefix ++ _). apply slice_to_end; reflexivity.
  - specialize (IH (i + 1)). cbn [lines_of] in IH. cbn [lines_of drop_comma plain_lines] in *. rewrite IH. f_equal. unfold line. rewrite <- !app_assoc. reflexivity.
Qed.
Lemma split_join L : Forall flat L -> L <> [] -> split 10 (join_lines L) = L.
Proof.
  intros F N. induction F as [|x l X F IH]; [contradiction|]. destruct l as [|y l]; cbn [join_lines]; [apply split_none; exact X|]. rewrite split_cons by exact X. f_equal. apply IH. discriminate.
Qed.
Lemma read_plain_lines events prefix w : forall ets l i, flat prefix -> Forall (fun p : Z * ev => proper (snd p) /\ ~ ambiguous (snd p)) l -> Forall2 (fun (p : Z * ev) et => line_text events (snd p) et) l ets ->
  Forall flat (plain_lines prefix w i ets) /\ exists R, all_some (map (read_line prefix) (plain_lines prefix w i ets)) = Some R /\ Forall2 (fun (p q : Z * ev) => same_line events (snd p) (snd q)) l R /\ map fst R = map (fun k => i + Z.of_nat k) (seq 0 (length l)).
Proof.
  intros ets l i P. revert ets i. induction l as [|[n e] l IH]; intros ets i Q F; [inversion F; subst; split; [constructor|]; exists []; repeat split; constructor|].
  destruct ets as [|et ets]; [inversion F|]. assert (T : line_text events e et) by (inversion F; assumption). assert (F' : Forall2 (fun (p : Z * ev) et => line_text events (snd p) et) l ets) by (inversion F; assumption). clear F. rename F' into F. apply Forall_cons_iff in Q as [(Q1 & Q2) Q]. cbn [snd] in *. destruct (line_text_ok events e et Q1 Q2 T) as (FL & f & R & S).
  destruct (IH ets (i + 1) Q F) as (FF & RR & A & B & C). destruct ets as [|e2 ets].
  - inversion F; subst l. cbn [plain_lines map all_some]. split; [constructor; [apply (flat_line prefix w i et false P FL)|constructor]|]. rewrite (read_line_ok prefix w i et f false R). cbn [obind]. exists [(i, f)]. split; [reflexivity|]. split; [constructor; [exact S|constructor]|]. cbn. f_equal. lia.
  - change (plain_lines prefix w i (et :: e2 :: ets)) with ((line prefix w i et ++ asc ",") :: plain_lines prefix w (i + 1) (e2 :: ets)). split; [constructor; [apply (flat_line prefix w i et true P FL)|exact FF]|].
    cbn [map all_some]. rewrite (read_line_ok prefix w i et f true R). cbn [obind]. change (map (read_line prefix) _) with (map (read_line prefix) (plain_lines prefix w (i + 1) (e2 :: ets))). rewrite A. cbn [obind]. exists ((i, f) :: RR). split; [reflexivity|]. split; [constructor; [exact S|exact B]|].
    cbn [map fst length seq]. f_equal; [lia|]. rewrite C, <- seq_shift, map_map. apply map_ext. intros k. lia.
Qed.
Lemma plain_lines_nonempty prefix w i ets : ets <> [] -> plain_lines prefix w i ets <> [].
Proof. destruct ets as [|a [|b r]]; [contradiction| |]; discriminate. Qed.
Lemma print_list_ok ids heap depth events prefix : events <> [] -> closed events ->
  exists ets, Forall2 (fun p et => line_text events (snd p) et) events ets /\
    printSequenceEventList ids heap depth events [] prefix = Ok (join_lines (plain_lines prefix (zlen (str_int (zlen events - 1))) 0 ets)).
Proof.
  intros N C. unfold printSequenceEventList. cbn [foldM bind]. cbv zeta iota. change (Z.min 0 48 + 1) with 1. destruct (print_events_ok ids heap depth events prefix 1 (zlen (str_int (zlen events - 1))) [] events C 0) as (L & H). rewrite H. cbn [bind fst snd app].
  destruct (print_events_inv _ _ _ _ _ _ _ _ _ _ _ _ H) as (ets & F & -> & _). exists ets. split; [exact F|]. destruct events as [|p events]; [contradiction|]. rewrite drop_comma_lines. reflexivity.
Qed.

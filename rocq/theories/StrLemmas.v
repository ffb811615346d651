(** * Lemmas about the short texts of objects *)
From Coq Require Import String Lia Sorted.
From Verif Require Import PyBase PyLemmas PyTac TextModel TextSpec TextLemmas SeqTextModel SeqTextSpec SeqTextLemmas ReprModel ReprLemmas BnText StrSpec.
From Verif Require SbnkModel CodeModel WaveModel BmgModel.

(** ** numbers in a text *)
Lemma digit_of c : digit c = true <-> 48 <= c < 58.
Proof. unfold digit. lia. Qed.
Lemma numbers_none t : forallb (fun c => negb (digit c)) t = true -> forall s, numbers_from None (t ++ s) = numbers_from None s.
Proof. induction t as [|c t IH]; intros H s; [reflexivity|]. cbn [forallb] in H. apply andb_true_iff in H as [C H]. cbn [numbers_from app]. apply negb_true_iff in C. rewrite C. apply IH, H. Qed.
Lemma numbers_run d : Forall (fun c => 48 <= c < 58) d -> forall v s, digit (hd 32 s) = false ->
  numbers_from (Some v) (d ++ s) = fold_left (fun v c => 10 * v + (c - 48)) d v :: numbers_from None s.
Proof.
  induction d as [|c d IH]; intros H v s E.
  - cbn [app fold_left]. destruct s as [|c s]; [reflexivity|]. cbn [hd] in E. cbn [numbers_from]. rewrite E. reflexivity.
  - inversion H; subst. cbn [app numbers_from fold_left]. rewrite (proj2 (digit_of c)) by assumption. apply IH; assumption.
Qed.
Lemma numbers_int n s : 0 <= n -> digit (hd 32 s) = false -> numbers_from None (str_int n ++ s) = n :: numbers_from None s.
Proof.
  intros N E. unfold str_int. replace (n <? 0) with false by lia. pose proof (str_nat_value n N) as V. pose proof (digits_chars (S (Z.to_nat (Z.log2 n))) n N) as F.
  unfold str_nat in *. destruct (digits _ n) as [|c d] eqn:D.
  - exfalso. cbn [digits] in D. destruct (n <? 10); [discriminate|]. destruct (app_eq_nil _ _ D). discriminate.
  - inversion F; subst. cbn [app numbers_from]. rewrite (proj2 (digit_of c)) by assumption. rewrite numbers_run by assumption. f_equal.
Qed.
Lemma numbers_ints (sep : text) l : forall s, Forall (Z.le 0) l -> digit (hd 32 s) = false -> sep <> [] -> forallb (fun c => negb (digit c)) sep = true ->
  numbers_from None (joined sep (map str_int l) ++ s) = l ++ numbers_from None s.
Proof.
  intros s H E N F. assert (X : forall r, digit (hd 32 (sep ++ r)) = false). { intro r. destruct sep as [|c t]; [contradiction|]. cbn [app hd forallb] in *. apply andb_true_iff in F as [F _]. apply negb_true_iff, F. }
  induction H as [|x l Hx H IH]; [reflexivity|]. destruct l as [|y l].
  - cbn [map joined app]. apply numbers_int; assumption.
  - cbn [map]. rewrite (eq_refl : joined sep (str_int x :: str_int y :: map str_int l) = str_int x ++ sep ++ joined sep (str_int y :: map str_int l)). rewrite <- !app_assoc.
    rewrite numbers_int; [|assumption|apply X]. rewrite numbers_none by exact F. change (str_int y :: map str_int l) with (map str_int (y :: l)). rewrite IH. reflexivity.
Qed.

Ltac numbered := unfold numbers; rewrite <- ?app_assoc; repeat first [rewrite numbers_int; [|lia|reflexivity] | rewrite numbers_none by reflexivity].

(** ** sets are printed in order *)
Lemma insert_sorted x l : StronglySorted Z.lt l -> StronglySorted Z.lt (insert_z x l).
Proof.
  induction 1 as [|y l S IH H]; cbn [insert_z]; [repeat constructor|]. destruct (x <? y) eqn:A.
  - constructor; [constructor; assumption|]. constructor; [lia|]. eapply Forall_impl; [|exact H]. cbn. lia.
  - destruct (x =? y) eqn:B; [constructor; assumption|]. constructor; [exact IH|]. apply Forall_forall. intros z Z1. apply insert_in in Z1 as [->|Z1]; [lia|]. rewrite Forall_forall in H. apply H, Z1.
Qed.
Lemma sorted_sorted l : StronglySorted Z.lt (sorted_set l).
Proof. induction l as [|x l IH]; [constructor|]. cbn [sorted_set fold_right]. apply insert_sorted, IH. Qed.

(** ** notes *)
Lemma note_str_total n : exists t, note_str n = Ok t.
Proof.
  unfold note_str. destruct (note_back (SbnkModel.nPitch n)) as (p & E & _). rewrite E. cbn [bind]. destruct (SbnkModel.nType n =? 2); [|destruct (SbnkModel.nType n =? 3); eexists; reflexivity].
  assert (B : 0 <= Z.land (SbnkModel.nWave n) 7 < 8) by (change 7 with (Z.ones 3); rewrite Z.land_ones by lia; apply Z.mod_pos_bound; lia).
  destruct (nth_error duty_cycles (Z.to_nat (Z.land (SbnkModel.nWave n) 7))) as [d|] eqn:N; [|apply nth_error_None in N; cbn in N; lia].
  rewrite (get_nth _ _ d) by (lia || exact N). cbn [bind]. eexists. reflexivity.
Qed.
Lemma duty_tenths k : 0 <= k < 8 -> exists d, get duty_cycles k = Ok d /\ tenths d = Some (125 * (k + 1) mod 1000).
Proof.
  intro K. assert (k = 0 \/ k = 1 \/ k = 2 \/ k = 3 \/ k = 4 \/ k = 5 \/ k = 6 \/ k = 7) as C by lia. repeat (destruct C as [->|C]; [eexists; split; reflexivity|]). subst. eexists; split; reflexivity.
Qed.
Lemma better_back k : 0 <= k <= 127 -> exists s, better_name k = Ok s /\ key_name s = Some k.
Proof.
  intro K. unfold better_name. destruct (Z.eqb_spec k 0) as [->|]; [eexists; split; reflexivity|]. destruct (Z.eqb_spec k 127) as [->|]; [eexists; split; reflexivity|].
  destruct (note_back k) as (s & E & H). exists s. split; [exact E|]. destruct (note_shape _ _ E) as (_ & l & r & -> & L & _). unfold key_name.
  destruct (beq (l :: r) (asc "min")) eqn:B; [exfalso; apply andb_true_iff in B as [B _]; cbn in B; lia|]. destruct (beq (l :: r) (asc "max")) eqn:B2; [exfalso; apply andb_true_iff in B2 as [B2 _]; cbn in B2; lia|]. exact H.
Qed.
Lemma better_total k : exists s, better_name k = Ok s.
Proof. unfold better_name. destruct (k =? 0); [eexists; reflexivity|]. destruct (k =? 127); [eexists; reflexivity|]. destruct (note_back k) as (s & E & _). eauto. Qed.
Lemma range_total l : forall p, exists ts, range_texts p l = Ok ts.
Proof.
  induction l as [|d l IH]; intro p; [eexists; reflexivity|]. cbn [range_texts]. destruct (note_back p) as (s & E & _). rewrite E. cbn [bind]. destruct (note_str_total d) as (t & T). rewrite T. cbn [bind].
  destruct (IH (p + 1)) as (ts & R). rewrite R. eexists. reflexivity.
Qed.
Lemma region_total l : forall p, exists ts, region_texts p l = Ok ts.
Proof.
  induction l as [|[q d] l IH]; intro p; [eexists; reflexivity|]. cbn [region_texts]. destruct (better_total p) as (s & E). rewrite E. cbn [bind]. destruct (better_total q) as (s2 & E2). rewrite E2. cbn [bind]. destruct (note_str_total d) as (t & T). rewrite T. cbn [bind].
  destruct (IH (q + 1)) as (ts & R). rewrite R. eexists. reflexivity.
Qed.
Lemma range_line l : forall p ts, range_texts p l = Ok ts -> forall i d, nth_error l i = Some d ->
  exists line n t, nth_error ts i = Some line /\ line = n ++ asc ": " ++ t /\ helmholtz n = Some (p + Z.of_nat i) /\ note_str d = Ok t.
Proof.
  induction l as [|d l IH]; intros p ts E i x N; [destruct i; discriminate|]. cbn [range_texts] in E. apply bind_ok in E as (n & E1 & E). apply bind_ok in E as (t & E2 & E). apply bind_ok in E as (r & E3 & E). apply SeqTextLemmas.ok_inj in E. subst ts.
  destruct i as [|i].
  - injection N as <-. exists (n ++ asc ": " ++ t), n, t. repeat split; [|exact E2]. rewrite Z.add_0_r. apply note_shape in E1. apply E1.
  - destruct (IH _ _ E3 i x N) as (line & m & u & A & B & C & D). exists line, m, u. repeat split; try assumption. rewrite C. f_equal. lia.
Qed.
(** the line of the first region that reaches up to a key *)
Lemma region_line l : forall lo ts, region_texts lo l = Ok ts -> Forall (fun r => 0 <= fst r <= 127) l -> forall k, 0 <= lo <= k -> forall p d, find (fun r => k <=? fst r) l = Some (p, d) ->
  exists line a b t u v, In line ts /\ line = a ++ asc "-" ++ b ++ asc ": " ++ t /\ key_name a = Some u /\ key_name b = Some v /\ u <= k <= v /\ v = p /\ note_str d = Ok t.
Proof.
  induction l as [|[q e] l IH]; intros lo ts E F k K p d H; [discriminate|]. cbn [region_texts] in E. apply bind_ok in E as (a & E1 & E). apply bind_ok in E as (b & E2 & E). apply bind_ok in E as (t & E3 & E). apply bind_ok in E as (r & E4 & E). apply SeqTextLemmas.ok_inj in E. subst ts.
  inversion F; subst. cbn [fst] in *. cbn [find fst] in H. destruct (k <=? q) eqn:Q.
  - injection H as -> ->. destruct (better_back lo) as (a' & A & KA); [lia|]. destruct (better_back p) as (b' & B & KB); [lia|]. rewrite E1 in A. injection A as <-. rewrite E2 in B. injection B as <-.
    exists (a ++ asc "-" ++ b ++ asc ": " ++ t), a, b, t, lo, p. repeat split; try assumption; try lia. left. reflexivity.
  - destruct (IH (q + 1) r E4 ltac:(assumption) k ltac:(lia) p d H) as (line & a1 & b1 & t1 & u & v & I & R). exists line, a1, b1, t1, u, v. split; [right; exact I|exact R].
Qed.

(** ** overlays and group entries *)
Lemma fmt_X_digits w n : 0 <= n -> Forall hexdig (fmt_X w n) /\ hexes 0 (fmt_X w n) = Some n.
Proof.
  intro H. unfold fmt_X, hex_up. replace (n <? 0) with false by lia. split.
  - apply Forall_app. split; [|apply hexdigits_up_ok, H]. unfold rep. apply Forall_forall. intros c I. apply repeat_spec in I. subst c. left. lia.
  - unfold rep. rewrite hexes_zeros. apply hexdigits_up_value. split; [lia|apply hex_fuel, H].
Qed.
Definition flag_tail (l : list text) : text := match joined (asc " ") l with [] => [] | _ => asc " " end ++ joined (asc " ") l ++ asc ">".
Lemma overlay_text o o' : 0 <= CodeModel.oRamAddress o -> 0 <= CodeModel.oRamAddress o' -> overlay_str o = overlay_str o' ->
  CodeModel.oRamAddress o = CodeModel.oRamAddress o' /\ CodeModel.oFileID o = CodeModel.oFileID o' /\
  CodeModel.flags_compressed (CodeModel.oFlags o) = CodeModel.flags_compressed (CodeModel.oFlags o') /\ CodeModel.flags_verifyHash (CodeModel.oFlags o) = CodeModel.flags_verifyHash (CodeModel.oFlags o').
Proof.
  set (tail := fun o => flag_tail ((if CodeModel.flags_compressed (CodeModel.oFlags o) then [asc "compressed"] else []) ++ (if CodeModel.flags_verifyHash (CodeModel.oFlags o) then [asc "verify-hash"] else []))).
  assert (S : forall o, overlay_str o = asc "<overlay at 0x" ++ fmt_X 8 (CodeModel.oRamAddress o) ++ 32 :: asc "file=" ++ str_int (CodeModel.oFileID o) ++ tail o).
  { intro x. unfold overlay_str, tail. destruct (CodeModel.flags_compressed _), (CodeModel.flags_verifyHash _); cbn [app joined]; rewrite <- ?app_assoc; reflexivity. }
  assert (T : forall o, exists c r, tail o = c :: r /\ ~ numchar c).
  { intro x. unfold tail. destruct (CodeModel.flags_compressed _), (CodeModel.flags_verifyHash _); first [exists 32; eexists; split; [reflexivity|unfold numchar; lia]|exists 62; eexists; split; [reflexivity|unfold numchar; lia]]. }
  intros P P' E. rewrite !S in E. apply app_inv_head in E. destruct (fmt_X_digits 8 _ P) as [F V], (fmt_X_digits 8 _ P') as [F' V'].
  assert (NS : ~ hexdig 32) by (unfold hexdig; lia). destruct (cut_at hexdig _ _ _ _ _ _ F F' NS NS E) as (A & _ & E2). rewrite A, V' in V. injection V as V. split; [congruence|].
  apply app_inv_head in E2. destruct (T o) as (c & r & T1 & N), (T o') as (c' & r' & T1' & N'). pose proof T1 as U. pose proof T1' as U'. rewrite T1, T1' in E2.
  destruct (cut_at numchar _ _ _ _ _ _ (str_int_chars _) (str_int_chars _) N N' E2) as (B & -> & ->). split; [pose proof (number_str (CodeModel.oFileID o)) as W; rewrite B, number_str in W; congruence|].
  rewrite <- U' in U. unfold tail in U. destruct (CodeModel.flags_compressed _), (CodeModel.flags_verifyHash _), (CodeModel.flags_compressed _), (CodeModel.flags_verifyHash _); vm_compute in U; try discriminate U; auto.
Qed.
Lemma group_text g h : 0 <= WaveModel.gType g < 4 -> 0 <= WaveModel.gType h < 4 -> group_str g = group_str h -> g = h.
Proof.
  set (tail := fun g => flag_tail ((if WaveModel.gLoadSSEQ g then [asc "load-sseq"] else []) ++ (if WaveModel.gSwarIds g then [asc "load-swars-by-swar-id"] else []) ++ (if WaveModel.gLoadSWAR g then [asc "load-swar"] else []) ++ (if WaveModel.gLoadSSAR g then [asc "load-ssar"] else []))).
  assert (S : forall g, group_str g = asc "<group-entry-" ++ nth (Z.to_nat (WaveModel.gType g)) lower_types (str_int (WaveModel.gType g)) ++ 32 :: str_int (WaveModel.gId g) ++ tail g) by (intro x; reflexivity).
  assert (T : forall g, exists c r, tail g = c :: r /\ ~ numchar c).
  { intro x. unfold tail. destruct (WaveModel.gLoadSSEQ x), (WaveModel.gSwarIds x), (WaveModel.gLoadSWAR x), (WaveModel.gLoadSSAR x); first [exists 32; eexists; split; [reflexivity|unfold numchar; lia]|exists 62; eexists; split; [reflexivity|unfold numchar; lia]]. }
  intros A B E. rewrite !S in E. apply app_inv_head in E.
  assert (N : WaveModel.gType g = WaveModel.gType h /\ str_int (WaveModel.gId g) ++ tail g = str_int (WaveModel.gId h) ++ tail h).
  { destruct g as [t i a1 a2 a3 a4], h as [u j b1 b2 b3 b4]. cbn [WaveModel.gType WaveModel.gId] in *. assert (t = 0 \/ t = 1 \/ t = 2 \/ t = 3) as C by lia. assert (u = 0 \/ u = 1 \/ u = 2 \/ u = 3) as D by lia.
    destruct C as [->|[->|[->| ->]]], D as [->|[->|[->| ->]]]; match type of E with ?x ++ _ = ?y ++ _ => let x' := eval vm_compute in x in let y' := eval vm_compute in y in change x with x' in E; change y with y' in E end;
      cbn [app] in E; first [discriminate E|injection E as E; split; [reflexivity|exact E]]. }
  destruct N as [N1 N2]. destruct (T g) as (c & r & T1 & M), (T h) as (c' & r' & T1' & M'). pose proof T1 as U. pose proof T1' as U'. rewrite T1, T1' in N2.
  destruct (cut_at numchar _ _ _ _ _ _ (str_int_chars _) (str_int_chars _) M M' N2) as (F & -> & ->).
  assert (WaveModel.gId g = WaveModel.gId h) as I by (pose proof (number_str (WaveModel.gId g)) as W; rewrite F, number_str in W; congruence).
  rewrite <- U' in U. unfold tail in U. destruct g as [t i a1 a2 a3 a4], h as [u j b1 b2 b3 b4]. cbn [WaveModel.gType WaveModel.gId WaveModel.gLoadSSEQ WaveModel.gSwarIds WaveModel.gLoadSWAR WaveModel.gLoadSSAR] in *. subst u j.
  clear - U. destruct a1, a2, a3, a4, b1, b2, b3, b4; first [reflexivity|vm_compute in U; discriminate U].
Qed.

(** ** messages *)
Lemma byte_digits b : is_byte b -> hex_fixed 2 b = [hex_digit (b / 16); hex_digit (b mod 16)].
Proof. intro H. cbn [hex_fixed app]. unfold is_byte in H. rewrite (Z.mod_small (b / 16)); [reflexivity|]. split; [apply Z.div_pos; lia|apply Z.div_lt_upper_bound; lia]. Qed.
Lemma hexed_chars d : is_bytes d -> Forall (fun c => c <> 93) (flat_map (hex_fixed 2) d).
Proof.
  intro H. induction H as [|b d B H IH]; [constructor|]. cbn [flat_map]. rewrite (byte_digits b B). unfold is_byte in B.
  assert (forall x, 0 <= x < 16 -> hex_digit x <> 93) as K by (intros x X; unfold hex_digit; destruct (x <? 10) eqn:Y; lia).
  constructor; [apply K; split; [apply Z.div_pos; lia|apply Z.div_lt_upper_bound; lia]|]. constructor; [apply K, Z.mod_pos_bound; lia|exact IH].
Qed.
Lemma hex_digit_inj x y : 0 <= x < 16 -> 0 <= y < 16 -> hex_digit x = hex_digit y -> x = y.
Proof. unfold hex_digit. destruct (x <? 10) eqn:A, (y <? 10) eqn:B; lia. Qed.
Lemma hexed_inj d : forall d', is_bytes d -> is_bytes d' -> flat_map (hex_fixed 2) d = flat_map (hex_fixed 2) d' -> d = d'.
Proof.
  induction d as [|b d IH]; intros [|b' d'] H H' E; [reflexivity| | |].
  - inversion H'; subst. cbn [flat_map] in E. rewrite (byte_digits b') in E by assumption. discriminate E.
  - inversion H; subst. cbn [flat_map] in E. rewrite (byte_digits b) in E by assumption. discriminate E.
  - inversion H as [|? ? B HD]; inversion H' as [|? ? B' HD']; subst. cbn [flat_map] in E. rewrite (byte_digits b B), (byte_digits b' B') in E. cbn [app] in E. injection E as E1 E2 E3. unfold is_byte in *.
    apply hex_digit_inj in E1; [|split; [apply Z.div_pos; lia|apply Z.div_lt_upper_bound; lia]|split; [apply Z.div_pos; lia|apply Z.div_lt_upper_bound; lia]].
    apply hex_digit_inj in E2; [|apply Z.mod_pos_bound; lia|apply Z.mod_pos_bound; lia]. f_equal; [|apply IH; assumption]. pose proof (Z.div_mod b 16 ltac:(lia)). pose proof (Z.div_mod b' 16 ltac:(lia)). lia.
Qed.
Lemma parts_text l : forall l', tellable l -> tellable l' ->
  flat_map (fun p => match p with BmgModel.Txt s => s | BmgModel.Esc t d => escape_str t d end) l = flat_map (fun p => match p with BmgModel.Txt s => s | BmgModel.Esc t d => escape_str t d end) l' -> l = l'.
Proof.
  set (f := fun p => match p with BmgModel.Txt s => s | BmgModel.Esc t d => escape_str t d end).
  assert (ESC : forall t d r, flat_map f (BmgModel.Esc t d :: r) = 91 :: str_int t ++ 58 :: flat_map (hex_fixed 2) d ++ 93 :: flat_map f r).
  { intros t d r. cbn [flat_map f]. unfold escape_str. rewrite <- !app_assoc. reflexivity. }
  assert (NEXT : forall s r, tellable (BmgModel.Txt s :: r) -> flat_map f r = [] \/ exists t, flat_map f r = 91 :: t).
  { intros s [|[s2|t d] r] H; [left; reflexivity|destruct H as (_ & _ & [] & _)|right; rewrite ESC; eexists; reflexivity]. }
  induction l as [|p l IH]; intros [|q l'] H H' E; [reflexivity| | |].
  - exfalso. destruct q as [s|t d]; [|rewrite ESC in E; discriminate E]. destruct H' as (N & _). cbn [flat_map f] in E. symmetry in E. apply app_eq_nil in E. tauto.
  - exfalso. destruct p as [s|t d]; [|rewrite ESC in E; discriminate E]. destruct H as (N & _). cbn [flat_map f] in E. apply app_eq_nil in E. tauto.
  - destruct p as [s|t d], q as [s'|t' d'].
    + pose proof (NEXT _ _ H) as X. pose proof (NEXT _ _ H') as X'. destruct H as (N & O & _ & H), H' as (N' & O' & _ & H'). cbn [flat_map f] in E.
      assert (s = s' /\ flat_map f l = flat_map f l') as [-> E2].
      { clear - E X X' O O'. revert s' E O'. induction s as [|c s IH]; intros [|c' s'] E O'; cbn [app] in E.
        - auto.
        - exfalso. destruct X as [X|[t X]]; rewrite X in E; [discriminate E|]. injection E as E _. apply O'. left. congruence.
        - exfalso. destruct X' as [X'|[t X']]; rewrite X' in E; [discriminate E|]. injection E as E _. apply O. left. congruence.
        - injection E as -> E. destruct (IH ltac:(intro; apply O; right; assumption) s' E ltac:(intro; apply O'; right; assumption)) as [-> ->]. auto. }
      f_equal. apply IH; assumption.
    + exfalso. destruct H as (N & O & _). rewrite ESC in E. destruct s as [|c s]; [contradiction|]. cbn [flat_map f app] in E. injection E as E _. apply O. left. exact E.
    + exfalso. destruct H' as (N & O & _). rewrite ESC in E. destruct s' as [|c s]; [contradiction|]. cbn [flat_map f app] in E. injection E as E _. apply O. left. congruence.
    + rewrite !ESC in E. injection E as E. destruct H as (D & H), H' as (D' & H'). apply cut_int in E as [-> E]; [|unfold numchar; lia].
      destruct (cut_at (fun c => c <> 93) _ _ _ _ _ _ (hexed_chars d D) (hexed_chars d' D') ltac:(tauto) ltac:(tauto) E) as (E1 & _ & E2). apply hexed_inj in E1; [|assumption|assumption]. subst d'. f_equal. apply IH; assumption.
Qed.

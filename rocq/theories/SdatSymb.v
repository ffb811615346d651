(** * The SYMB block of a saved sound archive, and reading it *)
From Coq Require Import String.
From Verif Require Import PyBase PyLemmas PyTac AtLemmas CommonModel CommonLemmas WaveModel SeqModel SsarModel SbnkModel SdatModel SdatFiles.

Definition nstr (s : name) : bytes := match s with Some s => s ++ [0] | None => [] end.
Definition strs (l : list name) : bytes := concat (map nstr l).
Fixpoint sym_vals (p : Z) (l : list name) : list (Z * bool) :=
  match l with [] => [] | s :: r => ((match s with Some _ => p | None => -1 end), true) :: sym_vals (p + zlen (nstr s)) r end.
Definition latin (s : name) : Prop := match s with Some s => is_bytes s | None => True end.

Lemma addSymbol_inv st s st' o : addSymbol st s = Ok (st', o) -> latin s /\ st' = st ++ nstr s /\ o = match s with Some _ => zlen st | None => -1 end.
Proof.
  destruct s as [s|]; cbn [addSymbol].
  - unfold encode_latin1. destruct (forallb byteb s) eqn:B; [|discriminate]. cbn [bind]. intros [= <- <-]. apply forallb_byteb in B. split; [exact B|]. split; reflexivity.
  - intros [= <- <-]. split; [exact I|]. split; [symmetry; apply app_nil_r|reflexivity].
Qed.
Lemma addSymbols_inv l : forall st st' vs, addSymbols st l = Ok (st', vs) -> Forall latin l /\ st' = st ++ strs l /\ vs = sym_vals (zlen st) l.
Proof.
  induction l as [|s l IH]; cbn [addSymbols]; intros st st' vs H.
  - injection H as <- <-. split; [constructor|]. split; [symmetry; apply app_nil_r|reflexivity].
  - apply bind_ok in H as ((st1 & o) & E & H). apply bind_ok in H as ((st2 & vs2) & E2 & H). injection H as <- <-.
    apply addSymbol_inv in E as (L & -> & ->). apply IH in E2 as (F & -> & ->). split; [constructor; assumption|]. split.
    + unfold strs. cbn [map concat]. symmetry. apply app_assoc.
    + cbn [sym_vals]. rewrite zlen_app. reflexivity.
Qed.

(** ** Nested lists *)
Definition nnames : Type := list (name * option (list name)).
Definition subs_of (e : option (list name)) : list name := match e with Some l => l | None => [] end.
Definition flat (l : nnames) : list name := flat_map (fun x => fst x :: subs_of (snd x)) l.
Fixpoint nmain (p off : Z) (l : nnames) : list (Z * bool) :=
  match l with
  | [] => []
  | (s, e) :: r => ((match s with Some _ => p | None => -1 end), true) :: (match e with Some _ => off | None => 0 end, false)
      :: nmain (p + zlen (nstr s) + zlen (strs (subs_of e))) (match e with Some l => off + 4 + 4 * zlen l | None => off end) r
  end.
Fixpoint nsubs (p : Z) (l : nnames) : list (Z * bool) :=
  match l with
  | [] => []
  | (s, e) :: r => match e with Some l => (zlen l, false) :: sym_vals (p + zlen (nstr s)) l | None => [] end
      ++ nsubs (p + zlen (nstr s) + zlen (strs (subs_of e))) r
  end.
Lemma strs_app a b : strs (a ++ b) = strs a ++ strs b.
Proof. unfold strs. rewrite map_app. apply concat_app. Qed.
Lemma strs_cons s l : strs (s :: l) = nstr s ++ strs l.
Proof. reflexivity. Qed.
Lemma flat_cons s e l : flat ((s, e) :: l) = s :: subs_of e ++ flat l.
Proof. reflexivity. Qed.
Lemma addNested_inv l : forall st off st' main subs, addNested st off l = Ok (st', main, subs) ->
  Forall latin (flat l) /\ st' = st ++ strs (flat l) /\ main = nmain (zlen st) off l /\ subs = nsubs (zlen st) l.
Proof.
  induction l as [|[s e] l IH]; cbn [addNested]; intros st off st' main subs H.
  - injection H as <- <- <-. split; [constructor|]. split; [symmetry; apply app_nil_r|split; reflexivity].
  - apply bind_ok in H as ((st1 & o) & E & H). apply addSymbol_inv in E as (L & -> & ->). rewrite flat_cons, strs_cons, strs_app. destruct e as [names|]; cbn [subs_of].
    + apply bind_ok in H as ((st2 & vs) & E & H). apply addSymbols_inv in E as (F & -> & ->). apply bind_ok in H as (((st3 & m) & sb) & E & H). injection H as <- <- <-.
      apply IH in E as (F2 & -> & -> & ->). cbn [nmain nsubs subs_of]. rewrite !zlen_app. split; [constructor; [exact L|apply Forall_app; split; assumption]|].
      split; [rewrite !app_assoc; reflexivity|]. split; reflexivity.
    + apply bind_ok in H as (((st3 & m) & sb) & E & H). injection H as <- <- <-. apply IH in E as (F2 & -> & -> & ->). cbn [nmain nsubs subs_of app].
      change (strs []) with (@nil Z). change (zlen (@nil Z)) with 0. rewrite !zlen_app, Z.add_0_r. split; [constructor; assumption|].
      split; [rewrite app_nil_l, app_assoc; reflexivity|]. split; reflexivity.
Qed.
Lemma anyNested_inv l : forall b, anyNested l = Ok b -> b = existsb is_some (flat l).
Proof.
  induction l as [|[s e] l IH]; cbn [anyNested]; intros b H; [injection H as <-; reflexivity|]. rewrite flat_cons. destruct s as [s|]; [injection H as <-; reflexivity|].
  destruct e as [e|]; [|discriminate]. apply bind_ok in H as (b' & E & H). injection H as <-. apply IH in E as ->. cbn [existsb is_some orb subs_of]. rewrite existsb_app. reflexivity.
Qed.

(** ** The state after each list *)
Definition grow (y : symb) (names : list name) (vs : list (Z * bool)) : symb :=
  {| ySt := ySt y ++ strs names; yVals := yVals y ++ vs; yHeads := yHeads y ++ [zlen (yVals y) * 4]; yAny := yAny y || existsb is_some names |}.
Lemma addFrom_inv y names y' : addSymbolsFrom y names = Ok y' -> Forall latin names /\ y' = grow y names ((zlen names, false) :: sym_vals (zlen (ySt y)) names).
Proof. unfold addSymbolsFrom. intros H. apply bind_ok in H as ((st & vs) & E & H). apply addSymbols_inv in E as (F & -> & ->). injection H as <-. split; [exact F|reflexivity]. Qed.
Definition nest_vals (y : symb) (l : nnames) : list (Z * bool) :=
  ((zlen l, false) :: nmain (zlen (ySt y)) (0x40 + zlen (yVals y) * 4 + (1 + 2 * zlen l) * 4) l) ++ nsubs (zlen (ySt y)) l.
Lemma addNest_inv y l y' : addSymbolsNested y l = Ok y' -> Forall latin (flat l) /\ y' = grow y (flat l) (nest_vals y l).
Proof.
  unfold addSymbolsNested. intros H. apply bind_ok in H as (b & B & H). apply anyNested_inv in B as ->. apply bind_ok in H as (((st & m) & sb) & E & H).
  apply addNested_inv in E as (F & -> & -> & ->). injection H as <-. split; [exact F|reflexivity].
Qed.

(** [vs], for the strings [ss], is the part of [y] that header word [i] points at *)
Record seg_in (y : symb) (i : nat) (a p : Z) (vs : list (Z * bool)) (ss : bytes) : Prop := {
  si_vals : at_ (yVals y) a vs; si_head : nth_error (yHeads y) i = Some (a * 4); si_st : at_ (ySt y) p ss }.
Lemma seg_grow y i a p vs ss names ws : seg_in y i a p vs ss -> seg_in (grow y names ws) i a p vs ss.
Proof.
  intros [V H S]. constructor; cbn [grow yVals yHeads ySt]; [apply at_ext; exact V| |apply at_ext; exact S].
  rewrite nth_error_app1; [exact H|]. apply nth_error_Some. congruence.
Qed.
Lemma seg_new y names ws : seg_in (grow y names ws) (length (yHeads y)) (zlen (yVals y)) (zlen (ySt y)) ws (strs names).
Proof.
  constructor; cbn [grow yVals yHeads ySt].
  - rewrite <- (app_nil_r ws) at 1. apply at_mid.
  - rewrite nth_error_app2, Nat.sub_diag by lia. reflexivity.
  - rewrite <- (app_nil_r (strs names)) at 1. apply at_mid.
Qed.

(** ** The bytes of the block *)
Definition sword (base : Z) (v : Z * bool) : Z := if fst v =? -1 then 0 else if snd v then fst v + base else fst v.
Definition tbl (base : Z) (vs : list (Z * bool)) : bytes := concat (map (fun v => le 4 (sword base v)) vs).
Definition words_ok (base : Z) (vs : list (Z * bool)) : Prop := Forall (fun v => 0 <= sword base v < 2 ^ 32) vs.
Definition ybase (y : symb) : Z := 0x40 + 4 * zlen (yVals y).
Definition ysize (y : symb) : Z := ybase y + zlen (ySt y).
Definition symb_bytes (y : symb) : bytes :=
  (asc "SYMB" ++ le 4 (ysize y + (- ysize y) mod 4)) ++ concat (map (fun v => le 4 (v + 0x40)) (yHeads y)) ++ zeros 0x18 ++ tbl (ybase y) (yVals y) ++ ySt y.
Lemma zlen_tbl base vs : zlen (tbl base vs) = 4 * zlen vs.
Proof. unfold tbl. rewrite (zlen_concat_map _ _ 4); [lia|]. intros v _. apply zlen_le. Qed.
Lemma tbl_app base a b : tbl base (a ++ b) = tbl base a ++ tbl base b.
Proof. unfold tbl. rewrite map_app. apply concat_app. Qed.
Lemma tbl_cons base v b : tbl base (v :: b) = le 4 (sword base v) ++ tbl base b.
Proof. reflexivity. Qed.
Lemma symb_block_inv pad y sb : symb_block pad y = Ok sb ->
  match sb with
  | None => yAny y = false
  | Some (b, n) => yAny y = true /\ b = symb_bytes y /\ n = (if pad then ysize y + (- ysize y) mod 4 else ysize y) /\
      words_ok (ybase y) (yVals y) /\ Forall (fun v => 0 <= v + 0x40 < 2 ^ 32) (yHeads y) /\ ysize y + (- ysize y) mod 4 < 2 ^ 32
  end.
Proof.
  unfold symb_block. destruct (yAny y); [|intros [= <-]; reflexivity]. intros H. apply bind_ok in H as (t & T & H).
  apply (mapM_inv _ (fun v => 0 <= sword (ybase y) v < 2 ^ 32) (fun v => le 4 (sword (ybase y) v))) in T as [F ->].
  2:{ intros v w. unfold symb_value, sword, ybase. destruct (fst v =? -1); [intros [= <-]; split; [lia|reflexivity]|]. intros W. apply pack_u_inv in W as [W ->].
      replace (fst v + (zlen (yVals y) * 4 + 64)) with (fst v + (0x40 + 4 * zlen (yVals y))) in * by lia. p256. split; [lia|reflexivity]. }
  fold (tbl (ybase y) (yVals y)) in H. rewrite zlen_tbl in H. fold (ybase y) (ysize y) in H. apply bind_ok in H as (hs & HS & H). apply pack_us_les in HS as [-> HS].
  apply bind_ok in H as (h & P & H). apply pack_u_inv in P as [P ->]. injection H as <-. split; [reflexivity|]. split.
  - unfold symb_bytes, les. rewrite map_map. reflexivity.
  - split; [reflexivity|]. split; [exact F|]. split; [|p256; lia]. unfold in_fields in HS. rewrite Forall_map in HS. exact HS.
Qed.

(** ** Reading names *)
Definition no_nul (s : name) : Prop := match s with Some s => ~ In 0 s | None => True end.
Definition upd_last (last q : Z) (l : list name) : Z := if existsb is_some l then q + zlen (strs l) else last.
Lemma strs_none l : existsb is_some l = false -> strs l = [].
Proof. induction l as [|[s|] l IH]; cbn [existsb is_some orb]; [reflexivity|discriminate|exact IH]. Qed.
Lemma upd_last_app last q a b : upd_last (upd_last last q a) (q + zlen (strs a)) b = upd_last last q (a ++ b).
Proof.
  assert (X : existsb is_some (a ++ b) = existsb is_some a || existsb is_some b) by apply existsb_app.
  unfold upd_last. rewrite X, strs_app, zlen_app. clear X. destruct (existsb is_some b) eqn:B; destruct (existsb is_some a) eqn:A; cbn [orb].
  - lia.
  - lia.
  - rewrite (strs_none b B). change (zlen (@nil Z)) with 0. lia.
  - reflexivity.
Qed.

Section Reading.
  Context (data : bytes) (block base : Z).
  Hypotheses (B0 : 0 <= block) (B1 : 0 < base).

  Lemma read_symbol_ok s p off last rest : at_ data off (le 4 (sword base (match s with Some _ => p | None => -1 end, true)) ++ rest) ->
    0 <= p -> p + base < 2 ^ 32 -> at_ data (block + base + p) (nstr s) -> no_nul s ->
    read_symbol data block off last = Ok (s, upd_last last (base + p) [s]).
  Proof.
    intros T P L S N. unfold read_symbol. destruct s as [s|]; unfold sword in T; cbn [fst snd] in T.
    - destruct (p =? -1) eqn:E; [lia|]. rewrite (at_unpack 4 _ _ _ _ off T) by (p256; lia). cbn [bind].
      destruct (p + base =? 0) eqn:Z; [lia|]. cbn [nstr] in S. replace (block + base + p) with (block + (p + base)) in S by lia.
      apply at_split in S as (a & c & -> & L'). rewrite <- L'. rewrite <- app_assoc. rewrite loadstr1 by (intros c' C ->; contradiction).
      unfold upd_last, strs. cbn [existsb is_some orb map concat nstr]. rewrite app_nil_r, zlen_app. change (zlen [0]) with 1. do 2 f_equal. lia.
    - change (-1 =? -1) with true in T. cbn iota in T. rewrite (at_unpack 4 _ _ _ _ off T) by (p256; lia). reflexivity.
  Qed.
  Lemma read_loop_ok l : forall p off last n, n = length l -> at_ data off (tbl base (sym_vals p l)) -> 0 <= p -> p + zlen (strs l) + base < 2 ^ 32 ->
    at_ data (block + base + p) (strs l) -> Forall no_nul l -> read_symbols_loop data block off last n = Ok (l, upd_last last (base + p) l).
  Proof.
    induction l as [|s l IH]; intros p off last n -> T P L S N; cbn [length read_symbols_loop]; [reflexivity|].
    cbn [sym_vals] in T. rewrite tbl_cons in T. rewrite strs_cons in S, L. rewrite zlen_app in L. inversion N; subst.
    pose proof (zlen_nonneg (nstr s)). pose proof (zlen_nonneg (strs l)). apply at_app in S as [S1 S2].
    rewrite (read_symbol_ok s p off last _ T) by (assumption || lia). cbn [bind]. apply (proj1 (at_app _ _ _ _)) in T as [_ T]. rewrite zlen_le in T.
    replace (block + base + p + zlen (nstr s)) with (block + base + (p + zlen (nstr s))) in S2 by lia.
    rewrite (IH (p + zlen (nstr s)) (off + 4) _ _ eq_refl T) by (assumption || lia). cbn [bind].
    replace (base + (p + zlen (nstr s))) with (base + p + zlen (strs [s])) by (unfold strs; cbn [map concat]; rewrite app_nil_r; lia). rewrite upd_last_app. reflexivity.
  Qed.
  Lemma read_symbols_ok l p o last : at_ data (block + o) (tbl base ((zlen l, false) :: sym_vals p l)) -> zlen l < 2 ^ 32 -> 0 <= p -> p + zlen (strs l) + base < 2 ^ 32 ->
    at_ data (block + base + p) (strs l) -> Forall no_nul l -> read_symbols data block o last = Ok (l, upd_last last (base + p) l).
  Proof.
    intros T C P L S N. unfold read_symbols. rewrite tbl_cons in T. pose proof (zlen_nonneg l). unfold sword in T at 1. cbn [fst snd] in T. destruct (zlen l =? -1) eqn:E; [lia|].
    rewrite (at_unpack 4 _ _ _ _ (block + o) T) by (p256; lia). cbn [bind]. apply (proj1 (at_app _ _ _ _)) in T as [_ T]. rewrite zlen_le in T.
    apply read_loop_ok; try assumption. unfold zlen. lia.
  Qed.

  Definition out_names (l : nnames) : list (name * list name) := map (fun x => (fst x, subs_of (snd x))) l.
  Lemma read_nested_ok l : forall p mo off last n, n = length l -> at_ data mo (tbl base (nmain p off l)) -> at_ data (block + off) (tbl base (nsubs p l)) ->
    0 < off -> words_ok base (nmain p off l ++ nsubs p l) -> 0 <= p -> p + zlen (strs (flat l)) + base < 2 ^ 32 ->
    at_ data (block + base + p) (strs (flat l)) -> Forall no_nul (flat l) ->
    read_nested_loop data block mo last n = Ok (out_names l, upd_last last (base + p) (flat l)).
  Proof.
    induction l as [|[s e] l IH]; intros p mo off last n -> T U O W P L S N; cbn [length read_nested_loop]; [reflexivity|].
    cbn [nmain nsubs] in T, U, W. rewrite flat_cons in S, L, N. rewrite strs_cons, strs_app in S, L. rewrite !zlen_app in L. inversion N as [|? ? N1 N2]; subst. apply Forall_app in N2 as [N2 N3].
    pose proof (zlen_nonneg (nstr s)). pose proof (zlen_nonneg (strs (subs_of e))). pose proof (zlen_nonneg (strs (flat l))).
    apply (proj1 (at_app _ _ _ _)) in S as [S1 S2]. apply (proj1 (at_app _ _ _ _)) in S2 as [S2 S3]. rewrite tbl_cons in T.
    rewrite (read_symbol_ok s p mo last _ T) by (assumption || lia). cbn [bind]. apply (proj1 (at_app _ _ _ _)) in T as [_ T]. rewrite zlen_le in T. rewrite tbl_cons in T.
    unfold words_ok in W. apply Forall_app in W as [W V]. inversion W as [|? ? _ W1]; subst. inversion W1 as [|? ? W2 W3]; subst.
    assert (WE : sword base (match e with Some _ => off | None => 0 end, false) = match e with Some _ => off | None => 0 end).
    { unfold sword. cbn [fst snd]. destruct e; [destruct (off =? -1) eqn:E; [lia|]|]; reflexivity. }
    rewrite WE in T, W2. rewrite (at_unpack 4 _ _ _ _ (mo + 4) T) by (p256; lia). cbn [bind]. apply (proj1 (at_app _ _ _ _)) in T as [_ T]. rewrite zlen_le in T.
    replace (mo + Z.of_nat 4 + Z.of_nat 4) with (mo + 8) in T by lia. apply Forall_app in V as [V V2].
    replace (block + base + p + zlen (nstr s)) with (block + base + (p + zlen (nstr s))) in S2, S3 by lia.
    replace (block + base + (p + zlen (nstr s)) + zlen (strs (subs_of e))) with (block + base + (p + zlen (nstr s) + zlen (strs (subs_of e)))) in S3 by lia.
    assert (LA : upd_last (upd_last (upd_last last (base + p) [s]) (base + (p + zlen (nstr s))) (subs_of e)) (base + (p + zlen (nstr s) + zlen (strs (subs_of e)))) (flat l)
      = upd_last last (base + p) (s :: subs_of e ++ flat l)).
    { replace (base + (p + zlen (nstr s) + zlen (strs (subs_of e)))) with (base + (p + zlen (nstr s)) + zlen (strs (subs_of e))) by lia. rewrite upd_last_app.
      replace (base + (p + zlen (nstr s))) with (base + p + zlen (strs [s])) by (unfold strs; cbn [map concat]; rewrite app_nil_r; lia). apply upd_last_app. }
    destruct e as [subs|]; cbn [subs_of] in *.
    - destruct (off =? 0) eqn:E; [lia|]. rewrite tbl_app in U. apply (proj1 (at_app _ _ _ _)) in U as [U1 U2]. pose proof (zlen_nonneg subs).
      inversion V as [|? ? V0 _]; subst. unfold sword in V0. cbn [fst snd] in V0. destruct (zlen subs =? -1) eqn:E2; [lia|].
      rewrite (read_symbols_ok subs (p + zlen (nstr s)) off _ U1) by (assumption || lia). cbn [bind].
      rewrite zlen_tbl, zlen_cons in U2. assert (SV : forall q, zlen (sym_vals q subs) = zlen subs) by (clear; induction subs as [|x r IH]; intros q; cbn [sym_vals]; rewrite ?zlen_cons, ?IH; reflexivity).
      rewrite SV in U2. replace (block + off + 4 * (1 + zlen subs)) with (block + (off + 4 + 4 * zlen subs)) in U2 by lia.
      rewrite (IH _ _ _ _ _ eq_refl T U2) by (first [assumption | lia | apply Forall_app; split; assumption]). cbn [bind].
      apply (f_equal (fun v => Ok (out_names ((s, Some subs) :: l), v))). exact LA.
    - change (0 =? 0) with true. cbn iota. cbn [bind]. rewrite app_nil_l in U.
      rewrite (IH _ _ _ _ _ eq_refl T U) by (first [assumption | lia | apply Forall_app; split; assumption]). cbn [bind].
      apply (f_equal (fun v => Ok (out_names ((s, None) :: l), v))). exact LA.
  Qed.
End Reading.

(** ** The names of an archive *)
Definition nested_names (s : sdat) : nnames := map (fun p => (fst p, subNames (snd p))) (dArchs s).
Definition name_lists (s : sdat) : list (list name) :=
  [map fst (dSeqs s); flat (nested_names s); map fst (dBanks s); map fst (dWars s); map fst (dPlayers s); map fst (dGroups s); map fst (dSPlayers s); map fst (dStrms s)].
Definition all_names (s : sdat) : list name := concat (name_lists s).
Definition before (s : sdat) (i : nat) : Z := zlen (strs (concat (firstn i (name_lists s)))).
Definition plain_in (y : symb) (i : nat) (p : Z) (names : list name) : Prop :=
  exists a, seg_in y i a p ((zlen names, false) :: sym_vals p names) (strs names).
Definition nested_in (y : symb) (i : nat) (p : Z) (l : nnames) : Prop :=
  exists a, seg_in y i a p (((zlen l, false) :: nmain p (0x40 + a * 4 + (1 + 2 * zlen l) * 4) l) ++ nsubs p l) (strs (flat l)).
Lemma plain_grow y i p l names ws : plain_in y i p l -> plain_in (grow y names ws) i p l.
Proof. intros (a & S). exists a. apply seg_grow. exact S. Qed.
Lemma nested_grow y i p l names ws : nested_in y i p l -> nested_in (grow y names ws) i p l.
Proof. intros (a & S). exists a. apply seg_grow. exact S. Qed.
Lemma plain_new y names y' : addSymbolsFrom y names = Ok y' -> Forall latin names /\ y' = grow y names ((zlen names, false) :: sym_vals (zlen (ySt y)) names) /\
  plain_in y' (length (yHeads y)) (zlen (ySt y)) names.
Proof. intros H. apply addFrom_inv in H as [F ->]. split; [exact F|]. split; [reflexivity|]. eexists. apply seg_new. Qed.
Lemma nested_new y l y' : addSymbolsNested y l = Ok y' -> Forall latin (flat l) /\ y' = grow y (flat l) (nest_vals y l) /\ nested_in y' (length (yHeads y)) (zlen (ySt y)) l.
Proof. intros H. apply addNest_inv in H as [F ->]. split; [exact F|]. split; [reflexivity|]. eexists. apply seg_new. Qed.

Record symbols_spec (s : sdat) (y : symb) : Prop := {
  ss_heads : length (yHeads y) = 8%nat; ss_st : ySt y = strs (all_names s); ss_any : yAny y = existsb is_some (all_names s); ss_latin : Forall latin (all_names s);
  ss_0 : plain_in y 0 (before s 0) (map fst (dSeqs s)); ss_1 : nested_in y 1 (before s 1) (nested_names s); ss_2 : plain_in y 2 (before s 2) (map fst (dBanks s));
  ss_3 : plain_in y 3 (before s 3) (map fst (dWars s)); ss_4 : plain_in y 4 (before s 4) (map fst (dPlayers s)); ss_5 : plain_in y 5 (before s 5) (map fst (dGroups s));
  ss_6 : plain_in y 6 (before s 6) (map fst (dSPlayers s)); ss_7 : plain_in y 7 (before s 7) (map fst (dStrms s)) }.

(** the state after the first [i] lists *)
Record state (s : sdat) (i : nat) (y : symb) : Prop := {
  st_heads : length (yHeads y) = i; st_st : ySt y = strs (concat (firstn i (name_lists s)));
  st_any : yAny y = existsb is_some (concat (firstn i (name_lists s))); st_latin : Forall latin (concat (firstn i (name_lists s))) }.
Lemma state_next s i y names ws : state s i y -> nth_error (name_lists s) i = Some names -> Forall latin names -> state s (S i) (grow y names ws).
Proof.
  intros [H S A L] N F. assert (E : firstn (Datatypes.S i) (name_lists s) = firstn i (name_lists s) ++ [names]).
  { clear - N. revert i N. induction (name_lists s) as [|x l IH]; intros [|i] N; try discriminate; [injection N as ->; reflexivity|]. cbn [firstn app]. f_equal. apply IH. exact N. }
  assert (C : concat (firstn (Datatypes.S i) (name_lists s)) = concat (firstn i (name_lists s)) ++ names) by (rewrite E, concat_app; cbn [concat]; rewrite app_nil_r; reflexivity).
  constructor; cbn [grow yHeads ySt yAny].
  - rewrite app_length, H. cbn [length]. lia.
  - rewrite C, strs_app, S. reflexivity.
  - rewrite A. rewrite C. symmetry. apply existsb_app.
  - rewrite C. apply Forall_app. split; assumption.
Qed.
Lemma state_before s i y : state s i y -> zlen (ySt y) = before s i.
Proof. intros [_ S _ _]. rewrite S. reflexivity. Qed.
Lemma symbols_inv s y : symbols s = Ok y -> symbols_spec s y.
Proof.
  unfold symbols. intros H. fold (nested_names s) in H.
  set (y0 := {| ySt := []; yVals := []; yHeads := []; yAny := false |}) in H. assert (T0 : state s 0 y0) by (constructor; try reflexivity; constructor).
  apply bind_ok in H as (y1 & E1 & H). apply plain_new in E1 as (F1 & G1 & P1). pose proof (state_next _ _ _ _ ((zlen (map fst (dSeqs s)), false) :: sym_vals (zlen (ySt y0)) (map fst (dSeqs s))) T0 eq_refl F1) as T1. rewrite <- G1 in T1.
  apply bind_ok in H as (y2 & E2 & H). apply nested_new in E2 as (F2 & G2 & P2). pose proof (state_next _ _ _ _ (nest_vals y1 (nested_names s)) T1 eq_refl F2) as T2. rewrite <- G2 in T2.
  Ltac stp F G P T T' H y y' E :=
    apply plain_new in E as (F & G & P);
    match type of G with _ = grow _ _ ?ws => pose proof (state_next _ _ _ _ ws T eq_refl F) as T' end; rewrite <- G in T'.
  apply bind_ok in H as (y3 & E3 & H). stp F3 G3 P3 T2 T3 H y2 y3 E3.
  apply bind_ok in H as (y4 & E4 & H). stp F4 G4 P4 T3 T4 H y3 y4 E4.
  apply bind_ok in H as (y5 & E5 & H). stp F5 G5 P5 T4 T5 H y4 y5 E5.
  apply bind_ok in H as (y6 & E6 & H). stp F6 G6 P6 T5 T6 H y5 y6 E6.
  apply bind_ok in H as (y7 & E7 & H). stp F7 G7 P7 T6 T7 H y6 y7 E7.
  stp F8 G8 P8 T7 T8 H y7 y8 H.
  rewrite (st_heads _ _ _ T0), (state_before _ _ _ T0) in P1. rewrite (st_heads _ _ _ T1), (state_before _ _ _ T1) in P2. rewrite (st_heads _ _ _ T2), (state_before _ _ _ T2) in P3.
  rewrite (st_heads _ _ _ T3), (state_before _ _ _ T3) in P4. rewrite (st_heads _ _ _ T4), (state_before _ _ _ T4) in P5. rewrite (st_heads _ _ _ T5), (state_before _ _ _ T5) in P6.
  rewrite (st_heads _ _ _ T6), (state_before _ _ _ T6) in P7. rewrite (st_heads _ _ _ T7), (state_before _ _ _ T7) in P8.
  destruct T8 as [A B C D]. constructor; try assumption;
    repeat match goal with
    | |- plain_in ?y _ _ _ => first [assumption | match goal with G : y = grow _ _ _ |- _ => rewrite G; apply plain_grow end]
    | |- nested_in ?y _ _ _ => first [assumption | match goal with G : y = grow _ _ _ |- _ => rewrite G; apply nested_grow end]
    end.
Qed.

(** ** Reading the block in a file *)
Section InFile.
  Context (data : bytes) (block : Z) (y : symb).
  Hypotheses (B0 : 0 <= block) (H8 : length (yHeads y) = 8%nat) (A : at_ data block (symb_bytes y)).
  Hypotheses (W : words_ok (ybase y) (yVals y)) (HW : Forall (fun v => 0 <= v + 0x40 < 2 ^ 32) (yHeads y)) (SZ : ysize y < 2 ^ 32).

  Lemma symb_at : at_ data block (asc "SYMB") /\ (exists v, unpack_u 4 data (block + 4) = Ok v) /\ at_ data (block + 8) (concat (map (fun v => le 4 (v + 0x40)) (yHeads y))) /\
    at_ data (block + 0x40) (tbl (ybase y) (yVals y)) /\ at_ data (block + ybase y) (ySt y).
  Proof.
    unfold symb_bytes in A. rewrite <- !app_assoc in A. apply (proj1 (at_app _ _ _ _)) in A as [A1 A2]. apply (proj1 (at_app _ _ _ _)) in A2 as [A2 A3].
    rewrite zlen_le in A3. change (zlen (asc "SYMB")) with 4 in *. apply (proj1 (at_app _ _ _ _)) in A3 as [A3 A4]. apply (proj1 (at_app _ _ _ _)) in A4 as [A4 A5].
    apply (proj1 (at_app _ _ _ _)) in A5 as [A5 A6]. rewrite (zlen_concat_map _ _ 4) in A5, A6 by (intros; apply zlen_le). rewrite zlen_tbl in A6.
    change (zlen (zeros 24)) with 24 in *. assert (zlen (yHeads y) = 8) as L by (unfold zlen; lia). rewrite L in *.
    split; [exact A1|]. split.
    { apply at_split in A2 as (u & w & -> & U). eexists. rewrite <- U. rewrite unpack_u_skip by lia. rewrite Z.sub_diag. unfold unpack_u, unpack_e.
      rewrite rd_hit by (try reflexivity; apply zlen_le). reflexivity. }
    split; [replace (block + 8) with (block + 4 + Z.of_nat 4) by lia; exact A3|].
    split; [replace (block + 64) with (block + 4 + Z.of_nat 4 + 8 * 4 + 24) by lia; exact A5|]. unfold ybase. replace (block + (64 + 4 * zlen (yVals y))) with (block + 4 + Z.of_nat 4 + 8 * 4 + 24 + 4 * zlen (yVals y)) by lia. exact A6.
  Qed.
  Lemma heads_read : mapM (fun i => unpack_u 4 data (block + 8 + 4 * i)) (range_z 0 8) = Ok (map (fun v => v + 0x40) (yHeads y)).
  Proof.
    destruct symb_at as (_ & _ & HD & _). rewrite <- H8. apply mapM_table.
    intros a x b E. rewrite E in HD, HW. destruct (concat_at (fun v => le 4 (v + 0x40)) 4 a x b) as (C1 & C2 & _); [intros; apply zlen_le|]. rewrite C1 in HD.
    apply (proj1 (at_app _ _ _ _)) in HD as [_ HD]. rewrite C2 in HD. apply (proj1 (at_app _ _ _ _)) in HD as [HD _].
    apply Forall_app in HW as [_ HW']. inversion HW'; subst. eapply at_u; [exact HD|p256; lia|lia].
  Qed.
  Lemma head_nth i h : nth_error (yHeads y) i = Some h -> nth i (map (fun v => v + 0x40) (yHeads y)) 0 = h + 0x40.
  Proof. intros N. apply nth_error_nth. rewrite nth_error_map, N. reflexivity. Qed.

  Lemma seg_read i a p vs ss : seg_in y i a p vs ss -> nth i (map (fun v => v + 0x40) (yHeads y)) 0 = 0x40 + a * 4 /\
    at_ data (block + (0x40 + a * 4)) (tbl (ybase y) vs) /\ at_ data (block + ybase y + p) ss /\ words_ok (ybase y) vs /\ 0 <= a /\ 0 <= p /\ p + zlen ss + ybase y < 2 ^ 32.
  Proof.
    intros [V N S]. destruct symb_at as (_ & _ & _ & T & ST). split; [rewrite (head_nth _ _ N); lia|]. split; [|split; [|split]].
    - apply at_split in V as (u & w & E & U). rewrite E in T. rewrite !tbl_app in T. apply (proj1 (at_app _ _ _ _)) in T as [_ T]. apply (proj1 (at_app _ _ _ _)) in T as [T _].
      rewrite zlen_tbl, U in T. replace (block + (64 + a * 4)) with (block + 64 + 4 * a) by lia. exact T.
    - apply at_split in S as (u & w & E & U). rewrite E in ST. apply (proj1 (at_app _ _ _ _)) in ST as [_ ST]. apply (proj1 (at_app _ _ _ _)) in ST as [ST _]. rewrite U in ST. exact ST.
    - apply at_split in V as (u & w & E & _). unfold words_ok in *. rewrite E in W. apply Forall_app in W as [_ W']. apply Forall_app in W' as [W' _]. exact W'.
    - destruct V as (V & _ & _). destruct S as (P & Q & _). unfold ysize in SZ. split; [exact V|]. split; [exact P|lia].
  Qed.
  Lemma plain_read i p names last : plain_in y i p names -> Forall no_nul names ->
    read_symbols data block (nth i (map (fun v => v + 0x40) (yHeads y)) 0) last = Ok (names, upd_last last (ybase y + p) names).
  Proof.
    intros (a & S) N. apply seg_read in S as (-> & T & ST & WV & A0 & P & L). pose proof (zlen_nonneg (yVals y)). inversion WV as [|? ? W0 _]; subst. unfold sword in W0. cbn [fst snd] in W0.
    pose proof (zlen_nonneg names). destruct (zlen names =? -1) eqn:E; [lia|]. apply read_symbols_ok; try assumption; unfold ybase in *; lia.
  Qed.
  Lemma zlen_nmain l : forall p o, zlen (nmain p o l) = 2 * zlen l.
  Proof. induction l as [|[s e] l IH]; intros p o; cbn [nmain]; [reflexivity|]. rewrite !zlen_cons, IH. lia. Qed.
  Lemma nested_read i p l last : nested_in y i p l -> Forall no_nul (flat l) ->
    read_nested data block (nth i (map (fun v => v + 0x40) (yHeads y)) 0) last = Ok (out_names l, upd_last last (ybase y + p) (flat l)).
  Proof.
    intros (a & S) N. apply seg_read in S as (-> & T & ST & WV & A0 & P & L). pose proof (zlen_nonneg (yVals y)). pose proof (zlen_nonneg l). unfold read_nested.
    rewrite tbl_app, tbl_cons in T. apply (proj1 (at_app _ _ _ _)) in T as [T U]. unfold words_ok in WV. cbn [app] in WV. inversion WV as [|? ? W0 W1]; subst.
    assert (SW : sword (ybase y) (zlen l, false) = zlen l) by (unfold sword; cbn [fst snd]; destruct (zlen l =? -1) eqn:E; [lia|reflexivity]). rewrite SW in W0, T, U.
    rewrite (at_unpack 4 _ _ _ _ (block + (64 + a * 4)) T) by (p256; lia). cbn [bind]. apply (proj1 (at_app _ _ _ _)) in T as [_ T]. rewrite zlen_le in T.
    rewrite zlen_app, zlen_le, zlen_tbl, zlen_nmain in U.
    apply (read_nested_ok data block (ybase y)) with (off := 0x40 + a * 4 + (1 + 2 * zlen l) * 4); try assumption; try (unfold ybase in *; lia).
    - unfold zlen. lia.
    - replace (block + (64 + a * 4 + (1 + 2 * zlen l) * 4)) with (block + (64 + a * 4) + (Z.of_nat 4 + 4 * (2 * zlen l))) by lia. exact U.
  Qed.
End InFile.

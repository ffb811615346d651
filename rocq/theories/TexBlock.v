From Coq Require Import String Sorted.
From Verif Require Import PyBase PyLemmas PyTac CodeLemmas AtLemmas CommonModel InfoBlockLemmas ColorModel ColorLemmas Gfx2DLemmas WaveModel WaveLemmas SeqTotal SbnkModel SbnkBank TexModel TexLemmas.

(** ** textures *)
Definition named {A} (n : option bytes * A) : bytes := match fst n with Some b => b | None => [] end.
Definition name_good {A} (n : option bytes * A) : Prop := zlen (named n) <= 16 /\ (named n = [] \/ last (named n) 0 <> 0).
Definition tex_good (t : texture) : Prop :=
  0 <= txFmt t < 8 /\ 0 <= txMode t < 4 /\ zlen (txD1 t) = txW t * txH t * bpp1 (txFmt t) / 8 /\ zlen (txD2 t) = txW t * txH t * bpp2 (txFmt t) / 8.
Definition param (t : texture) : Z := match tex_params t with Ok v => v | Err _ => 0 end.
Definition plain (t : texture) : bytes := if txFmt t =? 5 then [] else txD1 t.
Definition comp1 (t : texture) : bytes := if txFmt t =? 5 then txD1 t else [].
Definition comp2 (t : texture) : bytes := if txFmt t =? 5 then txD2 t else [].
Definition all (f : texture -> bytes) (ts : list (option bytes * texture)) : bytes := concat (map (fun p => f (snd p)) ts).
Definition tent (p : option bytes * texture) (off : Z) : infoEntry :=
  {| ieName := fst p; ieUnk00 := tx00 (snd p); ieUnk02 := tx02 (snd p);
     ieData := le 2 (off / 8) ++ le 2 (param (snd p)) ++ le 4 (tx04 (snd p)) |}.
Definition fits (p : option bytes * texture) (off : Z) : Prop :=
  0 <= off / 8 < 65536 /\ 0 <= tx04 (snd p) < 4294967296 /\ tex_params (snd p) = Ok (param (snd p)) /\ 0 <= param (snd p) < 65536.
Fixpoint tents (a b : Z) (ts : list (option bytes * texture)) : list (option bytes * texture * Z) :=
  match ts with
  | [] => []
  | p :: r => (p, if txFmt (snd p) =? 5 then b else a) :: tents (a + zlen (plain (snd p))) (b + zlen (comp1 (snd p))) r
  end.
Definition entries_of (l : list (option bytes * texture * Z)) : list infoEntry := map (fun x => tent (fst x) (snd x)) l.
Lemma all_cons f p ts : all f (p :: ts) = f (snd p) ++ all f ts.
Proof. reflexivity. Qed.
Lemma save_texture_inv st p st' : save_texture st p = Ok st' ->
  let '(es, td, c1, c2) := st in
  let off := if txFmt (snd p) =? 5 then zlen c1 else zlen td in
  fits p off /\ st' = (es ++ [tent p off], td ++ plain (snd p), c1 ++ comp1 (snd p), c2 ++ comp2 (snd p)).
Proof.
  destruct st as [[[es td] c1] c2]. unfold save_texture, tex_save. intros H. apply bind_ok in H as (q & Hq & H). apply bind_ok in Hq as (pv & Hp & E). injection E as <-.
  apply bind_ok in H as ([[[off td'] c1'] c2'] & Ho & H). apply bind_ok in H as (e & He & H). inv_pack He. injection H as <-. rewrite Z.shiftr_div_pow2 in * by lia. change (2 ^ 3) with 8 in *.
  assert (PP : param (snd p) = pv) by (unfold param; rewrite Hp; reflexivity).
  unfold plain, comp1, comp2. revert Ho. destruct (txFmt (snd p) =? 5).
  - destruct (_ =? _); [|discriminate]. intros [= <- <- <- <-]. split; [unfold fits; rewrite PP; repeat split; try lia; assumption|]. rewrite !app_nil_r. unfold tent. rewrite PP. reflexivity.
  - intros [= <- <- <- <-]. split; [unfold fits; rewrite PP; repeat split; try lia; assumption|]. rewrite !app_nil_r. unfold tent. rewrite PP. reflexivity.
Qed.
Lemma save_textures_inv : forall ts es td c1 c2 r, foldM save_texture (es, td, c1, c2) ts = Ok r ->
  Forall (fun x => fits (fst x) (snd x)) (tents (zlen td) (zlen c1) ts) /\
  r = (es ++ entries_of (tents (zlen td) (zlen c1) ts), td ++ all plain ts, c1 ++ all comp1 ts, c2 ++ all comp2 ts).
Proof.
  induction ts as [|p ts IH]; intros es td c1 c2 r H; cbn [foldM tents] in *.
  - injection H as <-. split; [constructor|]. unfold all. cbn [map concat entries_of]. rewrite !app_nil_r. reflexivity.
  - apply bind_ok in H as (st & H1 & H). apply save_texture_inv in H1 as [F ->]. apply IH in H as [F2 ->]. rewrite !zlen_app in *. split; [constructor; assumption|].
    unfold entries_of. cbn [map]. rewrite !all_cons, <- !app_assoc. reflexivity.
Qed.
Lemma tents_fst : forall ts a b, map fst (tents a b ts) = ts.
Proof. induction ts as [|p ts IH]; intros a b; cbn [tents map]; [reflexivity|]. rewrite IH. reflexivity. Qed.

Definition loaded_name {A} (p : option bytes * A) : option bytes * A := (Some (named p), snd p).
(** sizes *)
Lemma tex_size t : tex_good t -> tex_params t = Ok (param t) -> exists k, 0 <= k /\ txW t * txH t = 64 * k.
Proof.
  intros G P. apply params_inv in P as (a & b & Ha & Hb & -> & ->). exists (2 ^ a * 2 ^ b). assert (0 < 2 ^ a) by (apply Z.pow_pos_nonneg; lia). assert (0 < 2 ^ b) by (apply Z.pow_pos_nonneg; lia). nia.
Qed.
Lemma sizes t : tex_good t -> tex_params t = Ok (param t) -> zlen (plain t) mod 8 = 0 /\ zlen (comp1 t) mod 8 = 0 /\ zlen (comp1 t) = 2 * zlen (comp2 t).
Proof.
  intros G P. destruct (tex_size t G P) as (k & K0 & K). destruct G as (F & M & L1 & L2). rewrite K in L1, L2. unfold plain, comp1, comp2. destruct (txFmt t =? 5) eqn:E.
  - assert (E5 : txFmt t = 5) by lia. rewrite E5 in *. change (bpp1 5) with 2 in L1. change (bpp2 5) with 1 in L2. replace (64 * k * 2 / 8) with (k * 2 * 8) in L1 by (symmetry; replace (64 * k * 2) with (k * 2 * 8 * 8) by lia; apply Z.div_mul; lia).
    replace (64 * k * 1 / 8) with (k * 8) in L2 by (symmetry; replace (64 * k * 1) with (k * 8 * 8) by lia; apply Z.div_mul; lia).
    rewrite L1, L2. split; [reflexivity|]. split; [apply Z.mod_mul; lia|lia].
  - split; [|split; reflexivity]. rewrite L1. replace (64 * k * bpp1 (txFmt t)) with (k * bpp1 (txFmt t) * 8 * 8) by lia. rewrite Z.div_mul by lia. apply Z.mod_mul. lia.
Qed.
Lemma tex_rebuild t : tex_good t -> tex_params t = Ok (param t) -> tex_new (tx00 t) (tx02 t) (param t) (tx04 t) (txD1 t) (txD2 t) = t.
Proof.
  intros (F & M & _ & _) P. destruct (params_inv _ _ P) as (a & b & Ha & Hb & EW & EH).
  destruct (params_ok_all (tx00 t) (tx02 t) (txRepS t) (txRepT t) (txMirS t) (txMirT t) a b (txFmt t) (txC0 t) (txMode t) (tx04 t) (txD1 t) (txD2 t) Ha Hb F M) as [P1 P2].
  assert (T : tex_fromFlags (tx00 t) (tx02 t) (txRepS t) (txRepT t) (txMirS t) (txMirT t) (8 * 2 ^ a) (8 * 2 ^ b) (txFmt t) (txC0 t) (txMode t) (tx04 t) (txD1 t) (txD2 t) = t).
  { unfold tex_fromFlags. rewrite <- EW, <- EH. destruct t; reflexivity. }
  rewrite T in P1, P2. rewrite P in P1. injection P1 as ->. exact P2.
Qed.
Lemma tex_new_fields u0 u2 p u4 d1 d2 d1' d2' : let t := tex_new u0 u2 p u4 d1 d2 in let t' := tex_new u0 u2 p u4 d1' d2' in txW t = txW t' /\ txH t = txH t' /\ txFmt t = txFmt t'.
Proof. repeat split. Qed.

Lemma read_texture_ok data A C1 C2 p off : tex_good (snd p) -> fits p off -> off mod 8 = 0 ->
  (if txFmt (snd p) =? 5 then at_ data (C1 + off) (txD1 (snd p)) /\ at_ data (C2 + off / 2) (txD2 (snd p)) else at_ data (A + off) (txD1 (snd p))) ->
  read_texture data A C1 C2 (loaded (tent p off)) = Ok (loaded_name p).
Proof.
  intros G (F1 & F2 & F3 & F4) M H. unfold read_texture, loaded, tent. cbn [ieData ieUnk00 ieUnk02 ieName name_of].
  replace (zlen _ =? 8) with true by (rewrite !zlen_app, !zlen_le; reflexivity). cbn [guard bind]. rdalls. cbv zeta.
  set (t := snd p) in *. pose proof (tex_rebuild t G F3) as R.
  assert (E1 : txW (tex_new (tx00 t) (tx02 t) (param t) (tx04 t) [] []) = txW t) by exact (f_equal txW R).
  assert (E2 : txH (tex_new (tx00 t) (tx02 t) (param t) (tx04 t) [] []) = txH t) by exact (f_equal txH R).
  assert (E3 : txFmt (tex_new (tx00 t) (tx02 t) (param t) (tx04 t) [] []) = txFmt t) by exact (f_equal txFmt R).
  rewrite E1, E2, E3. assert (O : off / 8 * 8 = off) by (clear - M; lia). rewrite O. destruct G as (GF & GM & L1 & L2).
  rewrite <- L1. destruct (txFmt t =? 5) eqn:E5.
  - destruct H as [H1 H2]. rewrite <- L2. rewrite (at_slice _ _ _ _ H1), (at_slice _ _ _ _ H2) by reflexivity. rewrite R. reflexivity.
  - replace (off + A) with (A + off) by lia. rewrite (at_slice _ _ _ _ H) by reflexivity. 
    assert (D : txD2 t = []). { apply zlen_0. rewrite L2. unfold bpp2. rewrite E5, Z.mul_0_r. reflexivity. }
    rewrite <- D, R. reflexivity.
Qed.
Lemma read_textures_ok data A C1 C2 : forall ts a b, Forall (fun p => tex_good (snd p)) ts -> Forall (fun x => fits (fst x) (snd x)) (tents a b ts) ->
  a mod 8 = 0 -> b mod 8 = 0 -> at_ data (A + a) (all plain ts) -> at_ data (C1 + b) (all comp1 ts) -> at_ data (C2 + b / 2) (all comp2 ts) ->
  mapM (read_texture data A C1 C2) (map loaded (entries_of (tents a b ts))) = Ok (map loaded_name ts).
Proof.
  induction ts as [|p ts IH]; intros a b G F Ma Mb H1 H2 H3; cbn [tents entries_of map mapM] in *; [reflexivity|].
  inversion G as [|? ? G1 G2]; subst. inversion F as [|? ? F1 F2]; subst. cbn [fst snd] in *. rewrite all_cons in *. apply at_app in H1 as [H1a H1b]. apply at_app in H2 as [H2a H2b]. apply at_app in H3 as [H3a H3b].
  assert (P : tex_params (snd p) = Ok (param (snd p))) by apply F1. destruct (sizes _ G1 P) as (S1 & S2 & S3).
  rewrite read_texture_ok; [|assumption|assumption|destruct (_ =? 5); assumption|].
  2:{ unfold plain, comp1, comp2 in *. destruct (txFmt (snd p) =? 5); [split; assumption|assumption]. }
  cbn [bind]. fold (entries_of (tents (a + zlen (plain (snd p))) (b + zlen (comp1 (snd p))) ts)). rewrite (IH (a + zlen (plain (snd p))) (b + zlen (comp1 (snd p)))); [reflexivity|assumption|assumption|clear - Ma S1; lia|clear - Mb S2; lia| | |].
  - rewrite Z.add_assoc. exact H1b.
  - rewrite Z.add_assoc. exact H2b.
  - replace (C2 + (b + zlen (comp1 (snd p))) / 2) with (C2 + b / 2 + zlen (comp2 (snd p))); [exact H3b|]. rewrite S3. clear - Mb. lia.
Qed.

(** ** palettes *)
Definition pbytes (p : palette) : bytes := match savePalette (plColors p) with Ok d => d | Err _ => [] end.
Definition pent (p : option bytes * palette) (off : Z) : infoEntry :=
  {| ieName := fst p; ieUnk00 := pl00 (snd p); ieUnk02 := pl02 (snd p); ieData := le 2 (off / 8) ++ le 2 (plH02 (snd p)) |}.
Definition pfits (p : option bytes * palette) (off : Z) : Prop :=
  0 <= off / 8 < 65536 /\ 0 <= plH02 (snd p) < 65536 /\ savePalette (plColors (snd p)) = Ok (pbytes (snd p)) /\ zlen (pbytes (snd p)) mod 8 = 0.
Fixpoint pents (a : Z) (ps : list (option bytes * palette)) : list (option bytes * palette * Z) :=
  match ps with [] => [] | p :: r => (p, a) :: pents (a + zlen (pbytes (snd p))) r end.
Definition pentries (l : list (option bytes * palette * Z)) : list infoEntry := map (fun x => pent (fst x) (snd x)) l.
Definition pall (ps : list (option bytes * palette)) : bytes := concat (map (fun p => pbytes (snd p)) ps).
Lemma save_palettes_inv : forall ps es d r, foldM save_palette (es, d) ps = Ok r ->
  Forall (fun x => pfits (fst x) (snd x)) (pents (zlen d) ps) /\ r = (es ++ pentries (pents (zlen d) ps), d ++ pall ps).
Proof.
  induction ps as [|p ps IH]; intros es d r H; cbn [foldM pents] in *.
  - injection H as <-. split; [constructor|]. unfold pall, pentries. cbn [map concat]. rewrite !app_nil_r. reflexivity.
  - apply bind_ok in H as (st & H1 & H). unfold save_palette, pal_save in H1. apply bind_ok in H1 as (q & Hq & H1). apply bind_ok in Hq as (dd & Hd & E). injection E as <-.
    apply bind_ok in H1 as ([] & Hg & H1). apply guard_ok in Hg. apply bind_ok in H1 as (e & He & H1). cbn [fst snd] in *. inv_pack He. injection H1 as <-. rewrite Z.shiftr_div_pow2 in * by lia. change (2 ^ 3) with 8 in *.
    assert (PB : pbytes (snd p) = dd) by (unfold pbytes; rewrite Hd; reflexivity).
    apply IH in H as [F2 ->]. rewrite zlen_app in *. rewrite <- PB in *. split.
    + constructor; [|exact F2]. unfold pfits. cbn [fst snd]. repeat split; try lia. exact Hd.
    + unfold pentries, pall. cbn [map concat fst snd]. rewrite <- !app_assoc. reflexivity.
Qed.
Definition tuple_of (p : option bytes * palette) : ptuple := (Some (named p), pl00 (snd p), pl02 (snd p), plH02 (snd p)).
Lemma read_pts_ok PD : forall ps a, a mod 8 = 0 -> Forall (fun x => pfits (fst x) (snd x)) (pents a ps) ->
  mapM (read_pt PD) (map loaded (pentries (pents a ps))) = Ok (map (fun x => (tuple_of (fst x), snd x + PD)) (pents a ps)).
Proof.
  induction ps as [|p ps IH]; intros a M F; cbn [pents pentries map mapM] in *; [reflexivity|]. inversion F as [|? ? F1 F2]; subst. cbn [fst snd] in *. destruct F1 as (F1a & F1b & F1c & F1d).
  assert (R : read_pt PD (loaded (pent p a)) = Ok (tuple_of p, a + PD)).
  { unfold read_pt, loaded, pent. cbn [ieData ieUnk00 ieUnk02 ieName name_of]. replace (zlen _ =? 4) with true by (rewrite !zlen_app, !zlen_le; reflexivity). cbn [guard bind]. rdalls.
    replace (a / 8 * 8) with a by (clear - M; lia). reflexivity. }
  rewrite R. cbn [bind].
  fold (pentries (pents (a + zlen (pbytes (snd p))) ps)). rewrite IH; [|clear - M F1d; lia|assumption]. cbn [bind]. reflexivity.
Qed.
Lemma pt_eqb_eq a b : pt_eqb a b = true <-> a = b.
Proof.
  destruct a as [[[n x] y] z], b as [[[n' x'] y'] z']. unfold pt_eqb. rewrite !andb_true_iff, !Z.eqb_eq. assert (O : obeq n n' = true <-> n = n').
  { destruct n as [n|], n' as [n'|]; cbn [obeq]; try (split; intros; congruence). rewrite beq_eq. split; intros; congruence. }
  rewrite O. split; [intros (((-> & ->) & ->) & ->); reflexivity|intros [= -> -> -> ->]; auto].
Qed.
Lemma pt_offset_ok pts p : NoDup (map fst pts) -> In p pts -> pt_offset pts (fst p) = Ok (snd p).
Proof.
  intros N I. unfold pt_offset. destruct (find _ (rev pts)) as [q|] eqn:E.
  - apply find_some in E as [Hq Eq]. apply in_rev in Hq. apply pt_eqb_eq in Eq. f_equal. f_equal.
    clear - N I Hq Eq. induction pts as [|x pts IH]; [destruct I|]. cbn [map] in N. inversion N as [|? ? N1 N2]; subst.
    destruct I as [->|I], Hq as [->|Hq]; [reflexivity| | |apply IH; assumption].
    + exfalso. apply N1. rewrite <- Eq. apply in_map, Hq.
    + exfalso. apply N1. rewrite Eq. apply in_map, I.
  - exfalso. apply in_rev in I. pose proof (find_none _ _ E _ I) as C. cbn beta in C. assert (T : pt_eqb (fst p) (fst p) = true) by (apply pt_eqb_eq; reflexivity). congruence.
Qed.
(** only the last palettes may be empty *)
Definition empties_last (ps : list (option bytes * palette)) : Prop :=
  forall l1 p l2, ps = l1 ++ p :: l2 -> plColors (snd p) = [] -> Forall (fun q => plColors (snd q) = []) l2.
Fixpoint offs (a : Z) (ps : list (option bytes * palette)) : list Z :=
  match ps with [] => [a] | p :: r => a :: offs (a + zlen (pbytes (snd p))) r end.
Lemma offs_eq PD : forall ps a, map snd (map (fun x => (tuple_of (fst x), snd x + PD)) (pents a ps)) ++ [PD + (a + zlen (pall ps))] = offs (a + PD) ps.
Proof.
  induction ps as [|p ps IH]; intros a; cbn [pents map app offs].
  - unfold pall. cbn [map concat]. change (zlen []) with 0. f_equal. lia.
  - cbn [snd fst]. f_equal. specialize (IH (a + zlen (pbytes (snd p)))). unfold pall in *. cbn [map concat]. rewrite zlen_app. rewrite Z.add_assoc in IH |- *. rewrite Z.add_assoc. rewrite Z.add_assoc in IH. rewrite IH. f_equal. lia.
Qed.
Lemma offs_ge : forall ps a x, In x (offs a ps) -> a <= x.
Proof.
  induction ps as [|p ps IH]; intros a x H; cbn [offs] in H; [destruct H as [->|[]]; lia|]. destruct H as [->|H]; [lia|]. apply IH in H. pose proof (zlen_nonneg (pbytes (snd p))). lia.
Qed.
Lemma offs_sorted : forall ps a, StronglySorted Z.le (offs a ps).
Proof.
  induction ps as [|p ps IH]; intros a; cbn [offs]; constructor; try constructor; [apply IH|]. apply Forall_forall. intros x H. apply offs_ge in H. pose proof (zlen_nonneg (pbytes (snd p))). lia.
Qed.
Lemma sort_id l : StronglySorted Z.le l -> sort_by (fun x => x) l = l.
Proof.
  induction 1 as [|x l S IH F]; [reflexivity|]. cbn [sort_by fold_right]. fold (sort_by (fun x : Z => x) l). rewrite IH. destruct l as [|y l]; [reflexivity|]. inversion F; subst. cbn [insert_by]. replace (x <=? y) with true by lia. reflexivity.
Qed.
Lemma list_index_shift x : forall l i, list_index x l (1 + i) = match list_index x l i with Ok j => Ok (1 + j) | Err e => Err e end.
Proof. induction l as [|y l IH]; intros i; cbn [list_index]; [reflexivity|]. destruct (y =? x); [reflexivity|]. replace (1 + i + 1) with (1 + (i + 1)) by lia. apply IH. Qed.
Lemma list_index_pos x : forall l i j, list_index x l i = Ok j -> i <= j.
Proof. induction l as [|y l IH]; intros i j; cbn [list_index]; [discriminate|]. destruct (y =? x); [intros [= <-]; lia|]. intros H. apply IH in H. lia. Qed.
Lemma empty_pal p : plColors p = [] -> pbytes p = [].
Proof. unfold pbytes. intros ->. reflexivity. Qed.
Lemma pal_nonempty p : Forall valid51 (plColors p) -> plColors p <> [] -> 0 < zlen (pbytes p).
Proof.
  intros V N. destruct (palette_load_save _ V) as (d & E & _ & L). unfold pbytes. rewrite E, L. destruct (plColors p); [congruence|]. rewrite zlen_cons. pose proof (zlen_nonneg l). lia.
Qed.
Lemma all_empty : forall ps a, Forall (fun q => plColors (snd q) = []) ps -> forall x, In x (pents a ps) -> snd x = a /\ pbytes (snd (fst x)) = [].
Proof.
  induction ps as [|p ps IH]; intros a F x H; [destruct H|]. inversion F as [|? ? F1 F2]; subst. apply empty_pal in F1. cbn [pents] in H. destruct H as [<-|H]; [split; [reflexivity|exact F1]|].
  rewrite F1 in H. change (zlen []) with 0 in H. rewrite Z.add_0_r in H. apply IH; assumption.
Qed.
Lemma pents_ge : forall ps a x, In x (pents a ps) -> a <= snd x.
Proof. induction ps as [|p ps IH]; intros a x H; cbn [pents] in H; [destruct H|]. destruct H as [<-|H]; [cbn; lia|]. apply IH in H. pose proof (zlen_nonneg (pbytes (snd p))). lia. Qed.
Lemma offs_get0 ps a : get (offs a ps) 0 = Ok a.
Proof. destruct ps; reflexivity. Qed.
Lemma get_cons {A} (x : A) l i : 0 <= i -> get (x :: l) (i + 1) = get l i.
Proof. intros H. change (x :: l) with ([x] ++ l). rewrite get_skip by (rewrite zlen_cons; change (zlen []) with 0; lia). f_equal. rewrite zlen_cons. change (zlen []) with 0. lia. Qed.
Lemma next_offset : forall ps a PD, empties_last ps -> Forall (fun p => Forall valid51 (plColors (snd p))) ps -> forall x, In x (pents a ps) ->
  exists j, list_index (snd x + PD) (offs (a + PD) ps) 0 = Ok j /\ get (offs (a + PD) ps) (j + 1) = Ok (snd x + PD + zlen (pbytes (snd (fst x)))).
Proof.
  induction ps as [|p ps IH]; intros a PD E V x H; cbn [pents] in H; [destruct H|]. inversion V as [|? ? V1 V2]; subst. cbn [offs list_index].
  assert (E' : empties_last ps) by (intros l1 q l2 Eq; apply (E (p :: l1) q l2); rewrite Eq; reflexivity).
  destruct H as [<-|H].
  - cbn [fst snd]. rewrite Z.eqb_refl. exists 0. split; [reflexivity|]. rewrite get_cons by lia. rewrite offs_get0. reflexivity.
  - destruct (plColors (snd p)) as [|c cs] eqn:EC.
    + pose proof (E [] p ps eq_refl EC) as AE. apply empty_pal in EC. rewrite EC in *. change (zlen []) with 0 in *. rewrite Z.add_0_r in *. destruct (all_empty _ _ AE _ H) as [-> ->]. rewrite Z.eqb_refl. exists 0. split; [reflexivity|].
      rewrite get_cons by lia. change (zlen []) with 0. rewrite !Z.add_0_r. apply offs_get0.
    + pose proof (pal_nonempty (snd p)) as NE. rewrite EC in NE. specialize (NE V1 ltac:(discriminate)). pose proof (pents_ge _ _ _ H) as G.
      replace (a + PD =? snd x + PD) with false by lia. replace (a + PD + zlen (pbytes (snd p))) with (a + zlen (pbytes (snd p)) + PD) by lia.
      destruct (IH (a + zlen (pbytes (snd p))) PD E' V2 x H) as (j & J1 & J2). exists (1 + j). pose proof (list_index_pos _ _ _ _ J1). split.
      * change (0 + 1) with (1 + 0). rewrite list_index_shift, J1. reflexivity.
      * rewrite get_cons by lia. replace (1 + j) with (j + 1) by lia. exact J2.
Qed.
Lemma at_pents data PD : forall ps a, at_ data (PD + a) (pall ps) -> forall x, In x (pents a ps) -> at_ data (PD + snd x) (pbytes (snd (fst x))).
Proof.
  induction ps as [|p ps IH]; intros a H x Hx; cbn [pents] in Hx; [destruct Hx|]. unfold pall in H. cbn [map concat] in H. apply at_app in H as [H1 H2].
  destruct Hx as [<-|Hx]; [exact H1|]. apply (IH (a + zlen (pbytes (snd p)))); [|exact Hx]. rewrite Z.add_assoc. exact H2.
Qed.
Lemma pents_fst : forall ps a, map fst (pents a ps) = ps.
Proof. induction ps as [|p ps IH]; intros a; cbn [pents map]; [reflexivity|]. rewrite IH. reflexivity. Qed.
Lemma mapM_all {A B} (f : A -> res B) (g : A -> B) l : (forall x, In x l -> f x = Ok (g x)) -> mapM f l = Ok (map g l).
Proof. apply mapM_map. Qed.
Lemma read_palettes_ok data PD ps : empties_last ps -> Forall (fun p => Forall valid51 (plColors (snd p))) ps -> NoDup (map tuple_of ps) ->
  at_ data PD (pall ps) ->
  let pts := map (fun x => (tuple_of (fst x), snd x + PD)) (pents 0 ps) in
  mapM (read_palette data pts (offs PD ps)) pts = Ok (map loaded_name ps).
Proof.
  intros E V N H. cbv zeta. set (pts := map _ (pents 0 ps)).
  assert (N' : NoDup (map fst pts)). { unfold pts. rewrite map_map. cbn [fst]. rewrite <- (map_map fst tuple_of), pents_fst. exact N. }
  rewrite (mapM_all _ (fun p : ptuple * Z => let '(n, a, b, c) := fst p in (n, {| pl00 := a; pl02 := b; plH02 := c; plColors := match loadPalette (slice data (snd p) (match list_index (snd p) (offs PD ps) 0 with Ok j => match get (offs PD ps) (j + 1) with Ok v => v | _ => 0 end | _ => 0 end)) with Ok l => l | _ => [] end |}))).
  - f_equal. unfold pts. rewrite map_map. transitivity (map (@loaded_name palette) (map fst (pents 0 ps))); [|rewrite pents_fst; reflexivity]. rewrite map_map. apply map_ext_in. intros x Hx. cbn [fst snd tuple_of].
    destruct (next_offset ps 0 PD E V x Hx) as (j & J1 & J2). rewrite Z.add_0_l in *. rewrite J1, J2.
    pose proof (at_pents data PD ps 0 ltac:(rewrite Z.add_0_r; exact H) x Hx) as A. rewrite (Z.add_comm (snd x)). rewrite (at_slice _ _ _ _ A) by reflexivity.
    assert (VX : Forall valid51 (plColors (snd (fst x)))). { rewrite Forall_forall in V. apply V. rewrite <- (pents_fst ps 0). apply in_map, Hx. }
    destruct (palette_load_save _ VX) as (d & S & L & _). unfold pbytes. rewrite S, L. unfold loaded_name. destruct (snd (fst x)); reflexivity.
  - intros q Hq. unfold read_palette. rewrite (pt_offset_ok pts q N' Hq). cbn [bind]. unfold pts in Hq. apply in_map_iff in Hq as (x & <- & Hx). cbn [fst snd tuple_of].
    destruct (next_offset ps 0 PD E V x Hx) as (j & J1 & J2). rewrite Z.add_0_l in *. rewrite J1. cbn [bind]. rewrite J2. cbn [bind]. unfold pal_new.
    pose proof (at_pents data PD ps 0 ltac:(rewrite Z.add_0_r; exact H) x Hx) as A. rewrite (Z.add_comm (snd x)). rewrite (at_slice _ _ _ _ A) by reflexivity.
    assert (VX : Forall valid51 (plColors (snd (fst x)))). { rewrite Forall_forall in V. apply V. rewrite <- (pents_fst ps 0). apply in_map, Hx. }
    destruct (palette_load_save _ VX) as (d & S & L & _). unfold pbytes. rewrite S, L. reflexivity.
Qed.

(** ** the block *)
Definition tex0_good (x : tex0) : Prop :=
  Forall (fun p => tex_good (snd p) /\ name_good p) (xTextures x) /\
  Forall (fun p => Forall valid51 (plColors (snd p)) /\ name_good p) (xPalettes x) /\
  NoDup (map tuple_of (xPalettes x)) /\ empties_last (xPalettes x).
Definition tex0_loaded (x : tex0) : tex0 :=
  {| x08 := x08 x; x10 := x10 x; x18 := x18 x; x20 := x20 x; x2C := x2C x; x32 := x32 x;
     xTextures := map loaded_name (xTextures x); xPalettes := map loaded_name (xPalettes x) |}.
Lemma ent_names ts a b : Forall (fun p => name_good p) ts -> Forall name_fits (entries_of (tents a b ts)).
Proof. revert a b. induction ts as [|p ts IH]; intros a b F; cbn [tents entries_of map]; constructor; inversion F; subst; [assumption|apply IH; assumption]. Qed.
Lemma pent_names ps a : Forall (fun p => name_good p) ps -> Forall name_fits (pentries (pents a ps)).
Proof. revert a. induction ps as [|p ps IH]; intros a F; cbn [pents pentries map]; constructor; inversion F; subst; [assumption|apply IH; assumption]. Qed.
Lemma pall_mod : forall ps a, Forall (fun x => pfits (fst x) (snd x)) (pents a ps) -> zlen (pall ps) mod 8 = 0.
Proof.
  induction ps as [|p ps IH]; intros a F; [reflexivity|]. cbn [pents] in F. inversion F as [|? ? F1 F2]; subst. apply IH in F2. destruct F1 as (_ & _ & _ & M). cbn [fst snd] in M.
  unfold pall in *. cbn [map concat]. rewrite zlen_app. clear - F2 M. lia.
Qed.
Lemma loadInfo_at data off b entries each : at_ data off b -> saveInfoBlock entries each = Ok b -> Forall name_fits entries -> loadInfoBlock data off (Some each) = Ok (map loaded entries).
Proof. intros A S N. apply at_split in A as (x & y & -> & <-). apply (loadInfo_roundtrip entries each); auto. Qed.
Lemma tex0_roundtrip x f post : tex0_good x -> saveTEX0 x = Ok f -> readTEX0 (f ++ post) = Ok (tex0_loaded x) /\ prefixb (asc "TEX0") (f ++ post) = true.
Proof.
  intros (GT & GP & ND & EL) H. unfold saveTEX0 in H. apply bind_ok in H as ([[[es td] c1] c2] & HT & H). apply save_textures_inv in HT as [FT E]. injection E as -> -> -> ->. cbn [app] in *.
  change (zlen []) with 0 in *. apply bind_ok in H as (tb & HTB & H). apply bind_ok in H as ([pe pd] & HP & H). apply save_palettes_inv in HP as [FP E]. injection E as -> ->. cbn [app] in *. change (zlen []) with 0 in *.
  apply bind_ok in H as (pb & HPB & H). apply bind_ok in H as (h & Hh & H). apply ok_inj in H. subst f.
  pose proof (Forall_impl _ (fun p q => proj1 q) GT) as GT1. pose proof (Forall_impl _ (fun p q => proj2 q) GT) as GT2. pose proof (Forall_impl _ (fun p q => proj1 q) GP) as GP1. pose proof (Forall_impl _ (fun p q => proj2 q) GP) as GP2.
  cbv beta in *. pose proof (pall_mod _ _ FP) as PM.
  set (TD := all plain (xTextures x)) in *. set (C1 := all comp1 (xTextures x)) in *. set (C2 := all comp2 (xTextures x)) in *. set (PD := pall (xPalettes x)) in *.
  set (ES := entries_of _) in *. set (PE := pentries _) in *.
  inv_pack Hh. rewrite !Z.shiftr_div_pow2 in * by lia. change (2 ^ 3) with 8 in *.
  match goal with |- readTEX0 ?d = _ /\ _ => set (data := d) end.
  assert (PX : prefixb (asc "TEX0") data = true) by (unfold data; rewrite <- !app_assoc; apply prefixb_app).
  split; [|exact PX].
  pose proof (at_whole _ post : at_ data 0 _) as B. clearbody data. at_all.
  assert (ATB : at_ data 60 tb) by assumption. assert (APB : at_ data (60 + zlen tb) pb) by assumption.
  assert (ATD : at_ data (60 + zlen tb + zlen pb) TD) by assumption. assert (AC1 : at_ data (60 + zlen tb + zlen pb + zlen TD) C1) by assumption.
  assert (AC2 : at_ data (60 + zlen tb + zlen pb + zlen TD + zlen C1) C2) by assumption. assert (APD : at_ data (60 + zlen tb + zlen pb + zlen TD + zlen C1 + zlen C2) PD) by assumption.
  unfold readTEX0. rewrite PX. cbn [guard bind]. repeat rdat.
  rewrite (loadInfo_at _ _ _ _ _ ATB HTB) by (apply ent_names; assumption). cbn [bind].
  unfold ES. rewrite read_textures_ok; [|assumption|assumption|reflexivity|reflexivity|rewrite Z.add_0_r; exact ATD|rewrite Z.add_0_r; exact AC1|rewrite Z.add_0_r; exact AC2]. cbn [bind].
  rewrite (loadInfo_at _ _ _ _ _ APB HPB) by (apply pent_names; assumption). cbn [bind].
  unfold PE. rewrite read_pts_ok by (reflexivity || assumption). cbn [bind].
  set (pdo := 60 + zlen tb + zlen pb + zlen TD + zlen C1 + zlen C2) in *.
  replace (zlen PD / 8 * 8) with (0 + zlen PD) by (clear - PM; lia). unfold PD. rewrite offs_eq, sort_id by apply offs_sorted. rewrite Z.add_0_l.
  rewrite read_palettes_ok by assumption. reflexivity.
Qed.
Lemma nsbtx_roundtrip x f post : tex0_good x -> nsbtx_save x = Ok f -> nsbtx_load (f ++ post) = Ok (tex0_loaded x).
Proof.
  intros G H. unfold nsbtx_save in H. apply bind_ok in H as (t & Ht & H). apply bind_ok in H as (h & Hh & H). apply ok_inj in H. subst f. apply std_pack_inv in Hh as (V1 & V2 & V3 & ->).
  destruct (tex0_roundtrip x t post G Ht) as [R P]. unfold nsbtx_load. rewrite <- !app_assoc.
  replace (prefixb (asc "BTX0") _) with true by (unfold std_bytes; rewrite <- !app_assoc, prefixb_app; reflexivity). cbn [guard bind].
  rewrite std_unpack_hit by (reflexivity || lia). cbn [bind hVersion hBlocks Z.eqb Pos.eqb guard].
  pose proof (zlen_std (asc "BTX0") 1 (0x14 + zlen t) 1) as LS. change (zlen (asc "BTX0") + 12) with 16 in LS.
  rewrite app_assoc, slice_from_skip by (rewrite zlen_app, LS; reflexivity). rewrite P. cbn [guard bind]. exact R.
Qed.
(** where everything is in a saved block *)
Definition field (f : bytes) (n o : Z) : Z := unle (slice f o (o + n)).
Lemma tex0_layout x f : saveTEX0 x = Ok f ->
  let T := all plain (xTextures x) in let C1 := all comp1 (xTextures x) in let C2 := all comp2 (xTextures x) in let P := pall (xPalettes x) in
  at_ f 0 (asc "TEX0") /\ field f 4 4 = zlen f /\
  at_ f (field f 4 0x14) T /\ field f 2 0x0C = zlen T / 8 /\
  at_ f (field f 4 0x24) C1 /\ field f 2 0x1C = zlen C1 / 8 /\
  at_ f (field f 4 0x28) C2 /\
  at_ f (field f 4 0x38) P /\ 8 * field f 2 0x30 = zlen P /\ field f 4 0x38 + zlen P = zlen f /\
  Forall (fun p => savePalette (plColors (snd p)) = Ok (pbytes (snd p))) (xPalettes x).
Proof.
  intros H. cbv zeta. unfold saveTEX0 in H. apply bind_ok in H as ([[[es td] c1] c2] & HT & H). apply save_textures_inv in HT as [FT E]. injection E as -> -> -> ->. cbn [app] in *.
  change (zlen []) with 0 in *. apply bind_ok in H as (tb & HTB & H). apply bind_ok in H as ([pe pd] & HP & H). apply save_palettes_inv in HP as [FP E]. injection E as -> ->. cbn [app] in *. change (zlen []) with 0 in *.
  apply bind_ok in H as (pb & HPB & H). apply bind_ok in H as (h & Hh & H). apply ok_inj in H. pose proof (pall_mod _ _ FP) as PM.
  set (TD := all plain (xTextures x)) in *. set (C1 := all comp1 (xTextures x)) in *. set (C2 := all comp2 (xTextures x)) in *. set (PD := pall (xPalettes x)) in *.
  set (ES := entries_of _) in *. set (PE := pentries _) in *.
  inv_pack Hh. rewrite !Z.shiftr_div_pow2 in * by lia. change (2 ^ 3) with 8 in *.
  pose proof (at_whole f [] : at_ (f ++ []) 0 f) as B. rewrite app_nil_r in B. assert (LF : zlen f = 60 + zlen tb + zlen pb + zlen TD + zlen C1 + zlen C2 + zlen PD) by (rewrite <- H; rewrite !zlen_app, !zlen_le; change (zlen (asc "TEX0")) with 4; lia).
  rewrite <- H in B at 2. clear H. at_all.
  assert (FLD : forall n v i j, at_ f i (le n v) -> 0 <= v < 256 ^ Z.of_nat n -> j = i -> field f (Z.of_nat n) j = v).
  { intros n v i j A V ->. unfold field. rewrite (at_slice _ _ _ _ A) by (rewrite zlen_le; reflexivity). apply unle_le_id. exact V. }
  assert (F1 : field f 4 4 = 60 + zlen tb + zlen pb + zlen TD + zlen C1 + zlen C2 + zlen PD) by (eapply (FLD 4%nat); [eassumption|p256; lia|reflexivity]).
  assert (F2 : field f 4 20 = 60 + zlen tb + zlen pb) by (eapply (FLD 4%nat); [eassumption|p256; lia|reflexivity]).
  assert (F3 : field f 2 12 = zlen TD / 8) by (eapply (FLD 2%nat); [eassumption|p256; lia|reflexivity]).
  assert (F4 : field f 4 36 = 60 + zlen tb + zlen pb + zlen TD) by (eapply (FLD 4%nat); [eassumption|p256; lia|reflexivity]).
  assert (F5 : field f 2 28 = zlen C1 / 8) by (eapply (FLD 2%nat); [eassumption|p256; lia|reflexivity]).
  assert (F6 : field f 4 40 = 60 + zlen tb + zlen pb + zlen TD + zlen C1) by (eapply (FLD 4%nat); [eassumption|p256; lia|reflexivity]).
  assert (F7 : field f 4 56 = 60 + zlen tb + zlen pb + zlen TD + zlen C1 + zlen C2) by (eapply (FLD 4%nat); [eassumption|p256; lia|reflexivity]).
  assert (F8 : field f 2 48 = zlen PD / 8) by (eapply (FLD 2%nat); [eassumption|p256; lia|reflexivity]).
  rewrite F1, F2, F3, F4, F5, F6, F7, F8. split; [assumption|]. split; [lia|]. split; [assumption|]. split; [reflexivity|]. split; [assumption|]. split; [reflexivity|]. split; [assumption|]. split; [assumption|]. split; [clear - PM; lia|]. split; [lia|].
  clear - FP. generalize 0 FP. clear FP. induction (xPalettes x) as [|p ps IH]; intros a FP; constructor; cbn [pents] in FP; inversion FP as [|? ? A B]; subst; [apply A|exact (IH _ B)].
Qed.

(** * Loading a saved sound archive *)
From Coq Require Import String.
From Verif Require Import PyBase PyLemmas PyTac AtLemmas CommonModel WaveModel WaveLemmas SeqModel SeqLemmas SsarModel SbnkModel RomLoad SdatModel SdatFiles SdatSymb SdatFat SdatSave SdatLoad.

(** ** The sequence archives *)
Definition nest {A} (l : list (name * option (merged A))) (sub : A -> list name) : nnames :=
  map (fun p => (fst p, match snd p with Some (_, a) => Some (sub a) | None => None end)) l.
Definition nested_of (l : list (name * option (merged ssar))) (names : list (name * list name)) : Prop :=
  names = out_names (map (fun p => (fst p, subNames (snd p))) l) \/
  (names = [] /\ existsb is_some (flat (map (fun p => (fst p, subNames (snd p))) l)) = false).
Definition one_arch (D : bytes) (vs : list bytes) (p : option (option Z) * option (name * list name)) : res (name * option (merged ssar)) :=
  x <- match join (fst p) with
       | None => Ok None
       | Some o => x <- load_arch D vs (match snd p with Some (_, subs) => subs | None => [] end) o ;; Ok (Some x)
       end ;;
  Ok (match snd p with Some (n, _) => n | None => None end, x).
Lemma one_arch_iff D FS vs (ND : NoDup FS) (LV : length vs = length FS) (n : name) x b o q y :
  opt_rel (arch_at FS) x b -> opt_rel (placed D) b o ->
  (q = Some (n, subs_of (subNames x)) \/ (q = None /\ n = None /\ existsb is_some (subs_of (subNames x)) = false)) ->
  (one_arch D vs (Some o, q) = Ok y <-> same_names (arch_back FS vs) (n, x) y).
Proof.
  intros X O Q. unfold one_arch, same_names. destruct y as [n2 y]. cbn [fst snd join].
  assert (E : match q with Some (n, _) => n | None => None end = n) by (destruct Q as [->|(-> & -> & _)]; reflexivity). rewrite E. clear E.
  destruct x as [x|], b as [b|]; try contradiction; destruct o as [o|]; try contradiction; cbn [opt_rel] in *.
  - assert (S : subs_for x (match q with Some (_, subs) => subs | None => [] end)).
    { unfold subs_for. destruct x as [m x]. cbn [subNames subs_of snd] in *. destruct Q as [->|(-> & _ & F)]; [left; reflexivity|right; split; [reflexivity|exact F]]. }
    split.
    + intros G. apply bind_ok in G as (r & G & G2). apply bind_ok in G as (r' & G & G3). injection G3 as <-. injection G2 as <- <-. split; [reflexivity|]. eapply arch_load_iff in G; eassumption.
    + intros [-> G]. destruct y as [y|]; [|contradiction]. cbn [opt_rel] in G. assert (load_arch D vs (match q with Some (_, subs) => subs | None => [] end) o = Ok y) as -> by (eapply arch_load_iff; eassumption). reflexivity.
  - cbn [bind]. split; [intros [= <- <-]; split; [reflexivity|exact Logic.I]|]. intros [-> G]. destruct y; [contradiction|]. reflexivity.
Qed.
Lemma load_archs_iff D FS vs (ND : NoDup FS) (LV : length vs = length FS) :
  forall l bs offs names r, Forall2 (opt_rel (arch_at FS)) (map snd l) bs -> Forall2 (opt_rel (placed D)) bs offs -> nested_of l names ->
  (load_archs D vs offs names = Ok r <-> Forall2 (same_names (arch_back FS vs)) l r).
Proof.
  unfold load_archs. fold (one_arch D vs).
  induction l as [|[n x] l IH]; intros bs offs names r F G N; cbn [map] in F.
  - inversion F; subst. inversion G; subst. assert (names = []) as -> by (destruct N as [N|[N _]]; exact N). cbn [zip_longest mapM]. split; [intros [= <-]; constructor|]. intros X. inversion X. reflexivity.
  - inversion F as [|? b ? bs' F1 F2]; subst. inversion G as [|? o ? offs' G1 G2]; subst. rewrite Forall2_cons_iff'.
    assert (E : exists q names', (q = Some (n, subs_of (subNames x)) \/ (q = None /\ n = None /\ existsb is_some (subs_of (subNames x)) = false)) /\ nested_of l names' /\
      zip_longest (o :: offs') names = (Some o, q) :: zip_longest offs' names').
    { destruct N as [->|[-> N]].
      - exists (Some (n, subs_of (subNames x))), (out_names (map (fun p => (fst p, subNames (snd p))) l)). split; [left; reflexivity|]. split; [left; reflexivity|]. reflexivity.
      - exists None, []. cbn [map fst snd] in N. rewrite flat_cons in N. cbn [existsb] in N. assert (X : existsb is_some (subs_of (subNames x) ++ flat (map (fun p => (fst p, subNames (snd p))) l)) = false) by (destruct (is_some n); [discriminate|exact N]).
        rewrite existsb_app in X. apply orb_false_iff in X as [X1 X2]. split; [right; split; [reflexivity|split; [destruct n; [discriminate|reflexivity]|exact X1]]|]. split; [right; split; [reflexivity|exact X2]|]. reflexivity. }
    destruct E as (q & names' & Q & N' & ->). rewrite mapM_cons_iff. split; intros (y & r' & E1 & E2 & ->); exists y, r'; (split; [|split; [|reflexivity]]).
    + eapply (one_arch_iff D FS vs ND LV) in E1; eassumption.
    + eapply IH; eassumption.
    + eapply (one_arch_iff D FS vs ND LV); eassumption.
    + eapply IH; eassumption.
Qed.

(** ** The names *)
Definition given {A} (y : symb) (names : list A) : list A := if yAny y then names else [].
Definition upto (s : sdat) (y : symb) (i : nat) : Z := upd_last 0 (ybase y) (concat (firstn i (name_lists s))).
Lemma upto_step s y i names : nth_error (name_lists s) i = Some names -> upd_last (upto s y i) (ybase y + before s i) names = upto s y (S i).
Proof.
  intros N. assert (E : firstn (Datatypes.S i) (name_lists s) = firstn i (name_lists s) ++ [names]).
  { clear - N. revert i N. induction (name_lists s) as [|x l IH]; intros [|i] N; try discriminate; [injection N as ->; reflexivity|]. cbn [firstn app]. f_equal. apply IH. exact N. }
  unfold upto, before. rewrite upd_last_app, E, concat_app. cbn [concat]. rewrite app_nil_r. reflexivity.
Qed.
Lemma none_in s y i names : symbols_spec s y -> yAny y = false -> nth_error (name_lists s) i = Some names -> existsb is_some names = false.
Proof.
  intros Y A N. rewrite (ss_any _ _ Y) in A. apply nth_error_In in N. destruct (existsb is_some names) eqn:E; [|reflexivity]. apply existsb_exists in E as (n & I & E).
  rewrite <- A. symmetry. apply existsb_exists. exists n. split; [|exact E]. unfold all_names. apply in_concat. exists names. split; assumption.
Qed.
Lemma nul_in s i names : Forall no_nul (all_names s) -> nth_error (name_lists s) i = Some names -> Forall no_nul names.
Proof. intros F N. rewrite Forall_forall in *. intros n I. apply F. unfold all_names. apply in_concat. exists names. split; [exact (nth_error_In _ _ N)|exact I]. Qed.
Lemma none_all {A} (l : list (name * option A)) : existsb is_some (map fst l) = false -> Forall (fun p : name * option A => fst p = None) l.
Proof. induction l as [|[[n|] x] l IH]; cbn [map existsb fst is_some orb]; intros E; [constructor|discriminate|]. constructor; [reflexivity|apply IH; exact E]. Qed.

Definition fat_of (s : sdat) (FS : files) (fileOff : Z) : list (Z * Z) := fat_list (fatPad s) (align_ s) (cur0 s fileOff) (map fst FS).
Definition views_of (s : sdat) (FS : files) : list bytes := fviews (fatPad s) (padEnd s) (align_ s) (map fst FS).
Definition symbs_of (y : symb) : option (list Z) := if yAny y then Some (map (fun v => v + 0x40) (yHeads y)) else None.
Definition name_read (D : bytes) (y : symb) (i : nat) (last : Z) : res (list name * Z) :=
  match symbs_of y with None => Ok ([], last) | Some l => read_symbols D (if yAny y then 0x40 else 0) (nth i l 0) last end.
Definition nest_read (D : bytes) (y : symb) (last : Z) : res (list (name * list name) * Z) :=
  match symbs_of y with None => Ok ([], last) | Some l => read_nested D (if yAny y then 0x40 else 0) (nth 1 l 0) last end.
Definition rest_load (order : list Z) (D : bytes) (vs : list bytes) (y : symb) (s : sdat) (o0 o1 o2 o3 o4 o5 o6 o7 : list (option Z)) (fin : fatState) (symbSize : Z) : res sdat :=
  seqs <- load_part (load_seq D vs) o0 (given y (map fst (dSeqs s))) ;;
  archs <- load_archs D vs o1 (given y (out_names (nested_names s))) ;;
  banks <- load_part (load_bank order D vs) o2 (given y (map fst (dBanks s))) ;;
  wars <- load_part (load_war D vs) o3 (given y (map fst (dWars s))) ;;
  players <- load_part (load_player D) o4 (given y (map fst (dPlayers s))) ;;
  groups <- load_part (load_group D) o5 (given y (map fst (dGroups s))) ;;
  splayers <- load_part (load_splayer D) o6 (given y (map fst (dSPlayers s))) ;;
  strms <- load_part (load_strm D vs) o7 (given y (map fst (dStrms s))) ;;
  Ok {| dSeqs := seqs; dArchs := archs; dBanks := banks; dWars := wars; dPlayers := players; dGroups := groups;
        dSPlayers := splayers; dStrms := strms; fatPad := tPad fin;
        firstAlign := match tFirst fin with Some a => if a =? tAlign fin then None else Some a | None => None end;
        fileAlign := tAlign fin;
        padEnd := negb ((tEnd fin =? zlen D) && negb (tEnd fin mod tAlign fin =? 0));
        padSymb := (symbSize mod 4 =? 0) && negb (upto s y 8 mod 4 =? 0) |}.

Lemma bind_cong {A B} (x : res A) (k k' : A -> res B) : (forall a, k a = k' a) -> bind x k = bind x k'.
Proof. intros H. destruct x; [apply H|reflexivity]. Qed.

Section Saved.
  Variables (s : sdat) (D : bytes) (y : symb) (bss : list (list (option bytes))) (FS : files) (infoOff fatOff fileOff : Z).
  Hypotheses (SV : saved s D y bss FS infoOff fatOff fileOff) (NN : Forall no_nul (all_names s)).
  Let vs := views_of s FS.
  Lemma name_read_ok i names : nth_error (name_lists s) i = Some names -> plain_in y i (before s i) names -> name_read D y i (upto s y i) = Ok (given y names, upto s y (S i)).
  Proof.
    intros N P. rewrite <- (upto_step _ _ _ _ N). unfold name_read, symbs_of, given. destruct (yAny y) eqn:A.
    - destruct (sv_symb _ _ _ _ _ _ _ _ SV A) as (S & W & HW & L). pose proof (sv_symbols _ _ _ _ _ _ _ _ SV) as Y.
      eapply plain_read; try eassumption; [exact (ss_heads _ _ Y)|exact (nul_in _ _ _ NN N)].
    - assert (E : existsb is_some names = false) by exact (none_in _ _ _ _ (sv_symbols _ _ _ _ _ _ _ _ SV) A N). unfold upd_last. rewrite E. reflexivity.
  Qed.
  Lemma nest_read_ok : nest_read D y (upto s y 1) = Ok (given y (out_names (nested_names s)), upto s y 2).
  Proof.
    pose proof (sv_symbols _ _ _ _ _ _ _ _ SV) as Y. assert (N : nth_error (name_lists s) 1 = Some (flat (nested_names s))) by reflexivity.
    rewrite <- (upto_step _ _ _ _ N). unfold nest_read, symbs_of, given. destruct (yAny y) eqn:A.
    - destruct (sv_symb _ _ _ _ _ _ _ _ SV A) as (S & W & HW & L).
      eapply nested_read; try eassumption; [exact (ss_heads _ _ Y)|exact (ss_1 _ _ Y)|exact (nul_in _ _ _ NN N)].
    - assert (E : existsb is_some (flat (nested_names s)) = false) by exact (none_in _ _ _ _ Y A N). unfold upd_last. rewrite E. reflexivity.
  Qed.

  Definition fin : fatState :=
    let l := fat_of s FS fileOff in
    {| tFiles := [] ++ vs; tAlign := fold_left detect (map fst l) 0x200;
       tFirst := match l with x :: _ => if 0 =? 0 then Some (detect 0x200 (fst x)) else None | [] => None end;
       tPad := true && gaps l; tEnd := last_end (fileOff + 8) l |}.
  Lemma file_at : at_ D (cur0 s fileOff) (fbytes (align_ s) (cur0 s fileOff) (map fst FS) ++ zeros (end_gap s (fend (align_ s) (cur0 s fileOff) (map fst FS)))).
  Proof.
    pose proof (sv_file _ _ _ _ _ _ _ _ SV) as A. apply at_app in A as [_ A]. apply at_app in A as [_ A]. unfold file_bytes in A. apply at_app in A as [_ A].
    rewrite zlen_les in A. change (zlen (asc "FILE")) with 4 in A. cbn [fold_right fst] in A.
    assert (0 <= first_gap s (fileOff + 12)). { unfold first_gap. pose proof (sv_first _ _ _ _ _ _ _ _ SV). destruct (firstAlign s) as [a|]; [|lia]. apply Z.mod_pos_bound. assert (a <> 0) by congruence. lia. }
    rewrite zlen_zeros in A by assumption. unfold cur0 at 1. replace (fileOff + 12 + first_gap s (fileOff + 12)) with (fileOff + 4 + (Z.of_nat 4 + (Z.of_nat 4 + 0)) + first_gap s (fileOff + 12)) by lia. exact A.
  Qed.
  Lemma views_ok : map (cut D) (fat_of s FS fileOff) = vs.
  Proof.
    unfold vs, fat_of, views_of. destruct (sv_align _ _ _ _ _ _ _ _ SV) as [E|P]; [rewrite E; reflexivity|]. apply views_read; [exact P|exact file_at|].
    rewrite (sv_end _ _ _ _ _ _ _ _ SV). unfold file_bytes. rewrite !zlen_app. pose proof (zlen_fbytes (align_ s) (map fst FS) P (cur0 s fileOff)) as Z0.
    assert (0 <= first_gap s (fileOff + 12)). { unfold first_gap. pose proof (sv_first _ _ _ _ _ _ _ _ SV). destruct (firstAlign s) as [a|]; [|lia]. apply Z.mod_pos_bound. assert (a <> 0) by congruence. lia. }
    fold (end_gap s (fend (align_ s) (cur0 s fileOff) (map fst FS))). rewrite (zlen_zeros (first_gap _ _)) by assumption.
    assert (0 <= end_gap s (fend (align_ s) (cur0 s fileOff) (map fst FS))) by (unfold end_gap; destruct (padEnd s); [apply Z.mod_pos_bound; exact P|lia]). rewrite zlen_zeros by assumption.
    unfold align_ in *. change (if padEnd s then - fend (Z.abs (fileAlign s)) (cur0 s fileOff) (map fst FS) mod Z.abs (fileAlign s) else 0) with (end_gap s (fend (Z.abs (fileAlign s)) (cur0 s fileOff) (map fst FS))). rewrite <- Z0. unfold cur0. lia.
  Qed.
  Lemma heads_ok : mapM (fun i => unpack_u 4 D (0x10 + 4 * i)) (range_z 0 8) = Ok (sdat_heads s y bss FS infoOff fatOff fileOff).
  Proof.
    pose proof (sv_heads _ _ _ _ _ _ _ _ SV) as A. pose proof (sv_range _ _ _ _ _ _ _ _ SV) as F.
    change 8%nat with (length (sdat_heads s y bss FS infoOff fatOff fileOff)). rewrite <- (map_id (sdat_heads _ _ _ _ _ _ _)) at 2. apply mapM_table. intros a x b E. rewrite E in A, F.
    change (les (map word4 (a ++ x :: b))) with (concat (map (fun p : nat * Z => le (fst p) (snd p)) (map word4 (a ++ x :: b)))) in A. rewrite map_map in A. change (fun z => le (fst (word4 z)) (snd (word4 z))) with (le 4) in A. destruct (concat_at (le 4) 4 a x b) as (C1 & C2 & _); [intros; apply zlen_le|]. rewrite C1 in A. apply at_app in A as [_ A]. apply at_app in A as [A _]. rewrite C2 in A.
    unfold in_fields in F. rewrite map_app in F. apply Forall_app in F as [_ F]. inversion F; subst. eapply at_u; [exact A|assumption|lia].
  Qed.
  Lemma fat_ok_read : foldM (fat_step D fatOff (zlen FS)) {| tFiles := []; tAlign := 0x200; tFirst := None; tPad := true; tEnd := fileOff + 8 |} (range_z 0 (Z.to_nat (zlen FS))) = Ok fin.
  Proof.
    pose proof (sv_fat _ _ _ _ _ _ _ _ SV) as A. apply at_app in A as [_ A]. apply at_app in A as [_ A]. rewrite zlen_les in A. change (zlen (asc "FAT ")) with 4 in A. cbn [fold_right fst] in A.
    fold (fat_of s FS fileOff) in A. assert (L : zlen (fat_of s FS fileOff) = zlen FS) by (unfold fat_of; rewrite zlen_fat_list, zlen_map; reflexivity).
    replace (Z.to_nat (zlen FS)) with (length (fat_of s FS fileOff)) by (unfold zlen in L; unfold zlen; lia).
    etransitivity; [apply (fat_read D fatOff (zlen FS) (fat_of s FS fileOff) 0)|].
    - replace (fatOff + 12 + 16 * 0) with (fatOff + 4 + (Z.of_nat 4 + (Z.of_nat 4 + 0))) by lia. exact A.
    - exact (sv_fat_ok _ _ _ _ _ _ _ _ SV).
    - lia.
    - lia.
    - cbn [tFiles tAlign tFirst tPad tEnd]. rewrite views_ok. reflexivity.
  Qed.
  Lemma sdat_load_eq order : exists o0 o1 o2 o3 o4 o5 o6 o7,
    sdat_load order D = rest_load order D vs y s o0 o1 o2 o3 o4 o5 o6 o7 fin (symb_size s y) /\
    Forall2 (opt_rel (placed D)) (nth 0 bss []) o0 /\ Forall2 (opt_rel (placed D)) (nth 1 bss []) o1 /\ Forall2 (opt_rel (placed D)) (nth 2 bss []) o2 /\
    Forall2 (opt_rel (placed D)) (nth 3 bss []) o3 /\ Forall2 (opt_rel (placed D)) (nth 4 bss []) o4 /\ Forall2 (opt_rel (placed D)) (nth 5 bss []) o5 /\
    Forall2 (opt_rel (placed D)) (nth 6 bss []) o6 /\ Forall2 (opt_rel (placed D)) (nth 7 bss []) o7.
  Proof.
    pose proof (sv_info _ _ _ _ _ _ _ _ SV) as AI. pose proof (sv_parts _ _ _ _ _ _ _ _ SV) as PO. pose proof (sv_len8 _ _ _ _ _ _ _ _ SV) as L8. pose proof (sv_symbols _ _ _ _ _ _ _ _ SV) as Y.
    destruct (offs_read D infoOff bss AI PO L8 0 ltac:(lia)) as (o0 & E0 & F0). destruct (offs_read D infoOff bss AI PO L8 1 ltac:(lia)) as (o1 & E1 & F1).
    destruct (offs_read D infoOff bss AI PO L8 2 ltac:(lia)) as (o2 & E2 & F2). destruct (offs_read D infoOff bss AI PO L8 3 ltac:(lia)) as (o3 & E3 & F3).
    destruct (offs_read D infoOff bss AI PO L8 4 ltac:(lia)) as (o4 & E4 & F4). destruct (offs_read D infoOff bss AI PO L8 5 ltac:(lia)) as (o5 & E5 & F5).
    destruct (offs_read D infoOff bss AI PO L8 6 ltac:(lia)) as (o6 & E6 & F6). destruct (offs_read D infoOff bss AI PO L8 7 ltac:(lia)) as (o7 & E7 & F7).
    exists o0, o1, o2, o3, o4, o5, o6, o7. split; [|repeat (split; [assumption|]); assumption].
    destruct (info_at D infoOff bss AI L8) as (IM & (iv & IV) & _ & _). pose proof (infos_read D infoOff bss AI PO L8) as IR.
    (* the standard header *)
    pose proof (sv_std _ _ _ _ _ _ _ _ SV) as ST. pose proof (sv_len _ _ _ _ _ _ _ _ SV) as LD. pose proof (zlen_nonneg D) as LD0. apply at_app in ST as [ST1 ST2]. change (0 + zlen (asc "SDAT")) with 4 in ST2. rewrite <- (app_nil_r (les _)) in ST2.
    assert (SF : in_fields [(2%nat, 65279); (2%nat, 256); (4%nat, zlen D); (2%nat, 64); (2%nat, if yAny y then 4 else 3)]) by (repeat constructor; cbn [fst snd]; p256; destruct (yAny y); lia).
    assert (HS : std_unpack D = Ok {| hMagic := asc "SDAT"; hBom := 0xFEFF; hVersion := 0x100; hSize := zlen D; hHeaderSize := 0x40; hBlocks := if yAny y then 4 else 3 |}).
    { unfold std_unpack. refine (bind_step _ _ _ _ (at_rd D 0 (asc "SDAT") 4 0 ST1 eq_refl eq_refl) _). cbv beta.
      refine (bind_step _ _ _ _ (les_nth D _ 4 _ 0 2 _ 4 ST2 SF eq_refl eq_refl) _). cbv beta. refine (bind_step _ _ _ _ (les_nth D _ 4 _ 1 2 _ 6 ST2 SF eq_refl eq_refl) _). cbv beta.
      refine (bind_step _ _ _ _ (les_nth D _ 4 _ 2 4 _ 8 ST2 SF eq_refl eq_refl) _). cbv beta. refine (bind_step _ _ _ _ (les_nth D _ 4 _ 3 2 _ 12 ST2 SF eq_refl eq_refl) _). cbv beta.
      refine (bind_step _ _ _ _ (les_nth D _ 4 _ 4 2 _ 14 ST2 SF eq_refl eq_refl) _). reflexivity. }
    (* the FAT block *)
    pose proof (sv_fat _ _ _ _ _ _ _ _ SV) as AF. apply at_app in AF as [AF1 AF]. change (zlen (asc "FAT ")) with 4 in AF.
    pose proof (sv_range _ _ _ _ _ _ _ _ SV) as RG. unfold sdat_heads in RG. cbn [map] in RG.
    assert (FF : in_fields [(4%nat, 0xC + 0x10 * zlen FS); (4%nat, zlen FS)]).
    { pose proof (Forall_forall (fun p : nat * Z => 0 <= snd p < 256 ^ Z.of_nat (fst p)) (map word4 (sdat_heads s y bss FS infoOff fatOff fileOff))) as [X _]. specialize (X (sv_range _ _ _ _ _ _ _ _ SV) (4%nat, 12 + 16 * zlen FS)).
      cbn [map In sdat_heads word4 fst snd] in X. pose proof (zlen_nonneg FS). specialize (X ltac:(right; right; right; right; right; left; reflexivity)). repeat constructor; cbn [fst snd]; p256; lia. }
    (* the SYMB block *)
    assert (HD0 : exists v, unpack_u 4 D ((if yAny y then 0x40 else 0) + 4) = Ok v).
    { destruct (yAny y) eqn:A.
      - destruct (sv_symb _ _ _ _ _ _ _ _ SV A) as (S & W & HW & L). edestruct (symb_at D 0x40 y) as (_ & V & _); eauto. exact (ss_heads _ _ Y).
      - change (0 + 4) with 4. rewrite les_cons, <- app_assoc, les_cons, <- app_assoc, (app_assoc (le 2 _)) in ST2. apply at_app in ST2 as [X _]. eapply at_any; [exact X|rewrite zlen_app, !zlen_le; reflexivity|reflexivity]. }
    destruct HD0 as (v0 & HD0).
    assert (HD1 : exists m, rd D (if yAny y then 0x40 else 0) 4 = Ok m /\
      (if (if yAny y then 0x40 else 0) =? 0 then Ok None
       else l <- mapM (fun i => unpack_u 4 D ((if yAny y then 0x40 else 0) + 8 + 4 * i)) (range_z 0 8) ;;
            _ <- guard (beq m (asc "SYMB")) AssertionError ;; Ok (Some l)) = Ok (symbs_of y)).
    { destruct (yAny y) eqn:A; unfold symbs_of; rewrite A.
      - destruct (sv_symb _ _ _ _ _ _ _ _ SV A) as (S & W & HW & L). exists (asc "SYMB"). split.
        + edestruct (symb_at D 0x40 y) as (M & _); eauto; [exact (ss_heads _ _ Y)|]. exact (at_rd _ _ _ _ _ M eq_refl eq_refl).
        + change (64 =? 0) with false. cbv iota. assert (HR : mapM (fun i => unpack_u 4 D (0x40 + 8 + 4 * i)) (range_z 0 8) = Ok (map (fun v => v + 0x40) (yHeads y))) by (apply heads_read; try assumption; exact (ss_heads _ _ Y)). refine (bind_step _ _ _ _ HR _). reflexivity.
      - exists (asc "SDAT"). split; [exact (at_rd _ _ _ _ _ ST1 eq_refl eq_refl)|reflexivity]. }
    destruct HD1 as (m & HM & HD1).
    unfold sdat_load. cbv zeta.
    refine (bind_step _ _ _ _ HS _). cbv beta. cbn [hVersion hMagic]. rewrite beq_refl. change (256 =? 256) with true. cbn [guard]. refine (bind_step _ tt _ _ eq_refl _). cbv beta. refine (bind_step _ tt _ _ eq_refl _). cbv beta.
    refine (bind_step _ _ _ _ heads_ok _). cbv beta. unfold sdat_heads. cbn [nth].
    refine (bind_step _ _ _ _ HM _). cbv beta. refine (bind_step _ _ _ _ HD0 _). cbv beta. refine (bind_step _ _ _ _ HD1 _). cbv beta.
    refine (bind_step _ _ _ _ (at_rd _ _ _ 4 _ AF1 eq_refl eq_refl) _). cbv beta. refine (bind_step _ _ _ _ (les_nth D _ _ _ 0 4 _ (fatOff + 4) AF FF eq_refl ltac:(cbn [firstn fold_right fst]; lia)) _). cbv beta.
    refine (bind_step _ _ _ _ (les_nth D _ _ _ 1 4 _ (fatOff + 8) AF FF eq_refl ltac:(cbn [firstn fold_right fst]; lia)) _). cbv beta.
    rewrite beq_refl. cbn [guard]. refine (bind_step _ tt _ _ eq_refl _). cbv beta. refine (bind_step _ _ _ _ fat_ok_read _). cbv beta.
    refine (bind_step _ _ _ _ (at_rd _ _ _ 4 _ IM eq_refl eq_refl) _). cbv beta. refine (bind_step _ _ _ _ IV _). cbv beta. refine (bind_step _ _ _ _ IR _). cbv beta.
    rewrite beq_refl. cbn [guard]. refine (bind_step _ tt _ _ eq_refl _). cbv beta.
    unfold rest_load. change (tFiles fin) with vs.
    pose proof (name_read_ok 0 _ eq_refl (ss_0 _ _ Y)) as R0. pose proof (name_read_ok 2 _ eq_refl (ss_2 _ _ Y)) as R2. pose proof (name_read_ok 3 _ eq_refl (ss_3 _ _ Y)) as R3. pose proof (name_read_ok 4 _ eq_refl (ss_4 _ _ Y)) as R4.
    pose proof (name_read_ok 5 _ eq_refl (ss_5 _ _ Y)) as R5. pose proof (name_read_ok 6 _ eq_refl (ss_6 _ _ Y)) as R6. pose proof (name_read_ok 7 _ eq_refl (ss_7 _ _ Y)) as R7. pose proof nest_read_ok as R1.
    change (upto s y 0) with 0 in R0.
    refine (bind_step _ _ _ _ R0 _). cbv beta iota. refine (bind_step _ _ _ _ E0 _). cbv beta. apply bind_cong. intros seqs.
    refine (bind_step _ _ _ _ R1 _). cbv beta iota. refine (bind_step _ _ _ _ E1 _). cbv beta. apply bind_cong. intros archs.
    refine (bind_step _ _ _ _ R2 _). cbv beta iota. refine (bind_step _ _ _ _ E2 _). cbv beta. apply bind_cong. intros banks.
    refine (bind_step _ _ _ _ R3 _). cbv beta iota. refine (bind_step _ _ _ _ E3 _). cbv beta. apply bind_cong. intros wars.
    refine (bind_step _ _ _ _ R4 _). cbv beta iota. refine (bind_step _ _ _ _ E4 _). cbv beta. apply bind_cong. intros players.
    refine (bind_step _ _ _ _ R5 _). cbv beta iota. refine (bind_step _ _ _ _ E5 _). cbv beta. apply bind_cong. intros groups.
    refine (bind_step _ _ _ _ R6 _). cbv beta iota. refine (bind_step _ _ _ _ E6 _). cbv beta. apply bind_cong. intros splayers.
    refine (bind_step _ _ _ _ R7 _). cbv beta iota. refine (bind_step _ _ _ _ E7 _). cbv beta. apply bind_cong. intros strms.
    reflexivity.
  Qed.
End Saved.

(** How sound archives are read, proofs for C109, concluded. *)
From Coq Require Import String.
From Verif Require Import PyBase PyLemmas PyTac CommonModel CommonLemmas WaveModel SeqModel SsarModel SbnkModel SdatModel SdatFat RomSpec SdatSpec ViewSpec ViewSdatSpec ViewLemmas ViewFiles ViewWave ViewSdat ViewSdatLoad.

(** the last part of [sdat_load] *)
Definition tail (order : list Z) (data : bytes) (symbOff infoOff symbSize : Z) (heads : option (list Z)) (infos : list Z) (t : fatState) : res sdat :=
  let names i last := match heads with None => Ok ([], last) | Some l => read_symbols data symbOff (nth i l 0) last end in
  let offs i := info_offsets data infoOff (nth i infos 0) in
  let fs := tFiles t in
  ' (n, last) <- names 0%nat 0 ;; o <- offs 0%nat ;; seqs <- load_part (load_seq data fs) o n ;;
  ' (n, last) <- (match heads with None => Ok ([], last) | Some l => read_nested data symbOff (nth 1 l 0) last end) ;;
  o <- offs 1%nat ;; archs <- load_archs data fs o n ;;
  ' (n, last) <- names 2%nat last ;; o <- offs 2%nat ;; banks <- load_part (load_bank order data fs) o n ;;
  ' (n, last) <- names 3%nat last ;; o <- offs 3%nat ;; wars <- load_part (load_war data fs) o n ;;
  ' (n, last) <- names 4%nat last ;; o <- offs 4%nat ;; players <- load_part (load_player data) o n ;;
  ' (n, last) <- names 5%nat last ;; o <- offs 5%nat ;; groups <- load_part (load_group data) o n ;;
  ' (n, last) <- names 6%nat last ;; o <- offs 6%nat ;; splayers <- load_part (load_splayer data) o n ;;
  ' (n, last) <- names 7%nat last ;; o <- offs 7%nat ;; strms <- load_part (load_strm data fs) o n ;;
  Ok {| dSeqs := seqs; dArchs := archs; dBanks := banks; dWars := wars; dPlayers := players; dGroups := groups;
        dSPlayers := splayers; dStrms := strms; fatPad := tPad t;
        firstAlign := match tFirst t with Some a => if a =? tAlign t then None else Some a | None => None end;
        fileAlign := tAlign t;
        padEnd := negb ((tEnd t =? zlen data) && negb (tEnd t mod tAlign t =? 0));
        padSymb := (symbSize mod 4 =? 0) && negb (last mod 4 =? 0) |}.
Lemma load_tail order data : sdat_load order data =
  (h <- std_unpack data ;;
  _ <- guard (hVersion h =? 0x100) ValueError ;;
  _ <- guard (beq (hMagic h) (asc "SDAT")) ValueError ;;
  blocks <- mapM (fun i => unpack_u 4 data (0x10 + 4 * i)) (range_z 0 8) ;;
  let block i := nth i blocks 0 in
  let symbOff := block 0%nat in
  let infoOff := block 2%nat in
  let fatOff := block 4%nat in
  symbMagic <- rd data symbOff 4 ;;
  _ <- unpack_u 4 data (symbOff + 4) ;;
  heads <- (if symbOff =? 0 then Ok None
            else l <- mapM (fun i => unpack_u 4 data (symbOff + 8 + 4 * i)) (range_z 0 8) ;;
                 _ <- guard (beq symbMagic (asc "SYMB")) AssertionError ;; Ok (Some l)) ;;
  fatMagic <- rd data fatOff 4 ;;
  _ <- unpack_u 4 data (fatOff + 4) ;;
  count <- unpack_u 4 data (fatOff + 8) ;;
  _ <- guard (beq fatMagic (asc "FAT ")) AssertionError ;;
  t <- foldM (fat_step data fatOff count)
         {| tFiles := []; tAlign := 0x200; tFirst := None; tPad := true; tEnd := block 6%nat + 8 |}
         (range_z 0 (Z.to_nat count)) ;;
  infoMagic <- rd data infoOff 4 ;;
  _ <- unpack_u 4 data (infoOff + 4) ;;
  infos <- mapM (fun i => unpack_u 4 data (infoOff + 8 + 4 * i)) (range_z 0 8) ;;
  _ <- guard (beq infoMagic (asc "INFO")) AssertionError ;;
  tail order data symbOff infoOff (block 1%nat) heads infos t).
Proof. reflexivity. Qed.

Definition words8 (d : bytes) (o : Z) : list Z := map (fun k => word d (o + 4 * Z.of_nat k)) (seq 0 8).
Lemma words8_iff d o l : is_bytes d -> 0 <= o -> mapM (fun i => unpack_u 4 d (o + 4 * i)) (range_z 0 8) = Ok l <-> o + 32 <= zlen d /\ l = words8 d o.
Proof.
  intros B O. assert (F : o + 32 <= zlen d -> mapM (fun i => unpack_u 4 d (o + 4 * i)) (range_z 0 8) = Ok (words8 d o)).
  { intros L. apply (mapM_range _ (fun k => word d (o + 4 * Z.of_nat k))). intros i I. apply unpack_word; lia. }
  split; [|intros (L & ->); apply F, L]. intros H. assert (L : o + 32 <= zlen d).
  { apply mapM_range_inv in H as (LL & M). destruct (nth_error l 7) as [x|] eqn:X; [|apply nth_error_None in X; lia]. apply M in X. apply word_inv in X; [|lia]. lia. }
  split; [exact L|]. rewrite (F L) in H. congruence.
Qed.
Lemma words8_nth d o k : (k < 8)%nat -> nth k (words8 d o) 0 = word d (o + 4 * Z.of_nat k).
Proof. intros K. apply nth_error_nth. unfold words8. rewrite nth_error_map, (nth_error_nth' _ 0%nat), seq_nth by (rewrite ?seq_length; lia). reflexivity. Qed.

Section All.
  Variable d : bytes. Hypothesis B : is_bytes d. Hypothesis L0 : 0x30 <= zlen d.
  Let info := word d 0x18.
  Let fs := map (file_view d) (range_z 0 (Z.to_nat (file_count d))).
  Definition heads_of : option (list Z) := if symb d =? 0 then None else Some (words8 d (symb d + 8)).
  Definition part_places (k : nat) : list Z :=
    if symb d =? 0 then [] else if (k =? 1)%nat then flat_map (fun a => a :: sub_places d a) (nested_places d (symb_part d 1)) else places d (symb_part d k).
  Definition names_ok (k : nat) : Prop :=
    symb d <> 0 -> if (k =? 1)%nat then symb_part d 1 + 4 + 8 * word d (symb_part d 1) <= zlen d /\ (forall a, In a (nested_places d (symb_part d 1)) -> word d (a + 4) <> 0 -> in_file d (symb d + word d (a + 4)))
    else in_file d (symb_part d k).
  Lemma names_iff k last x : (k < 8)%nat -> k <> 1%nat ->
    match heads_of with None => Ok ([], last) | Some l => read_symbols d (symb d) (nth k l 0) last end = Ok x <-> names_ok k /\ x = (part_names d k, fold_left (step d) (part_places k) last).
  Proof.
    intros K K1. unfold heads_of, names_ok, part_names, part_places. rewrite (proj2 (Nat.eqb_neq _ _) K1). destruct (Z.eqb_spec (symb d) 0) as [E|E].
    - split; [intros H; injection H as <-; split; [congruence|reflexivity]|intros (_ & ->); reflexivity].
    - rewrite words8_nth by exact K. pose proof (word_nonneg d (symb d + 8 + 4 * Z.of_nat k) B). rewrite symbols_iff by assumption. change (symb d + word d (symb d + 8 + 4 * Z.of_nat k)) with (symb_part d k). split.
      + intros (H1 & _ & ->). split; [intros _; exact H1|reflexivity].
      + intros (H1 & ->). split; [exact (H1 E)|]. split; [apply in_file_4; [exact B|exact (H1 E)]|reflexivity].
  Qed.
  Definition nested_of : list (name * list name) := if symb d =? 0 then [] else map (fun b => (name_at d b, sub_names d b)) (nested_places d (symb_part d 1)).
  Lemma nested_names_iff last x :
    match heads_of with None => Ok ([], last) | Some l => read_nested d (symb d) (nth 1 l 0) last end = Ok x <-> names_ok 1 /\ x = (nested_of, fold_left (step d) (part_places 1) last).
  Proof.
    unfold heads_of, names_ok, nested_of, part_places. cbn [Nat.eqb]. destruct (Z.eqb_spec (symb d) 0) as [E|E].
    - split; [intros H; injection H as <-; split; [congruence|reflexivity]|intros (_ & ->); reflexivity].
    - rewrite words8_nth by lia. pose proof (word_nonneg d (symb d + 8 + 4 * Z.of_nat 1) B) as W. rewrite (nested_iff d B L0 (word d (symb d + 8 + 4 * Z.of_nat 1)) last x W). change (symb d + word d (symb d + 8 + 4 * Z.of_nat 1)) with (symb_part d 1). split.
      + intros (H1 & _ & H2 & ->). split; [intros _; split; [exact H1|intros a A A0; apply H2; assumption]|reflexivity].
      + intros (H1 & ->). destruct (H1 E) as (H2 & H3). pose proof (word_nonneg d (symb_part d 1) B). split; [exact H2|]. split; [lia|]. split; [|reflexivity]. intros b I Z. pose proof (H3 b I Z) as F. split; [exact F|apply in_file_4; [exact B|exact F]].
  Qed.
  Lemma count0 k : 0 <= entry_count d k.
  Proof. apply word_nonneg, B. Qed.

  Section Chain.
    Hypothesis LI : info + 0x28 <= zlen d.
    Let infos := words8 d (info + 8).
    Lemma offs_iff k l : (k < 8)%nat -> info_offsets d info (nth k infos 0) = Ok l <-> in_file d (info_part d k) /\ l = entries_of d k.
    Proof. intros K. unfold infos. rewrite words8_nth by exact K. apply offsets_iff; assumption. Qed.
    Lemma chain {A} (one : Z -> res A) (R : Z -> A -> Prop) k last (K : list (name * option A) -> Z -> res sdat) s : (k < 8)%nat -> k <> 1%nat -> (forall o y, 0 <= o -> one o = Ok y <-> R o y) ->
      (' (n, last) <- match heads_of with None => Ok ([], last) | Some l => read_symbols d (symb d) (nth k l 0) last end ;; o <- info_offsets d info (nth k infos 0) ;; v <- load_part one o n ;; K v last) = Ok s <->
      names_ok k /\ in_file d (info_part d k) /\ exists v, listed d k (fun _ => R) v /\ K v (fold_left (step d) (part_places k) last) = Ok s.
    Proof.
      intros K8 K1 HR.
      assert (P : forall v, load_part one (entries_of d k) (part_names d k) = Ok v <-> listed d k (fun _ => R) v).
      { intros v. unfold load_part. apply (part_iff d B (fun _ => one) (fun _ => R) _ join); [intros _; exact HR|reflexivity|reflexivity| |apply count0]. cbn [join]. rewrite map_id. reflexivity. }
      split.
      - intros H. apply bind_ok in H as (x & X & H). apply (names_iff k last x K8 K1) in X as (X & ->). cbn beta iota in H. apply bind_ok in H as (o & O & H). apply (offs_iff k o K8) in O as (O & ->). apply bind_ok in H as (v & V & H). apply P in V.
        split; [exact X|]. split; [exact O|]. exists v. split; assumption.
      - intros (X & O & v & V & H). rewrite (proj2 (names_iff k last _ K8 K1) (conj X eq_refl)). cbn [bind]. rewrite (proj2 (offs_iff k _ K8) (conj O eq_refl)). cbn [bind]. rewrite (proj2 (P v) V). cbn [bind]. exact H.
    Qed.
    Lemma chain1 last (K : list (name * option (merged ssar)) -> Z -> res sdat) s :
      (' (n, last) <- match heads_of with None => Ok ([], last) | Some l => read_nested d (symb d) (nth 1 l 0) last end ;; o <- info_offsets d info (nth 1 infos 0) ;; v <- load_archs d fs o n ;; K v last) = Ok s <->
      names_ok 1 /\ in_file d (info_part d 1) /\ exists v, listed d 1 (fun j p => filed d p 4 (fun f => ssar_load f (half d (p + 2)) (archive_names d j))) v /\ K v (fold_left (step d) (part_places 1) last) = Ok s.
    Proof.
      assert (P : forall v, load_archs d fs (entries_of d 1) nested_of = Ok v <-> listed d 1 (fun j p => filed d p 4 (fun f => ssar_load f (half d (p + 2)) (archive_names d j))) v).
      { intros v. unfold load_archs.
        apply (part_iff d B (fun j o => load_arch d fs (archive_names d j) o) (fun j p => filed d p 4 (fun f => ssar_load f (half d (p + 2)) (archive_names d j))) _ (fun c => match c with Some (n, _) => n | None => None end)).
        - intros j o y O. apply arch_iff; assumption.
        - intros j p Z. rewrite zip_nth in Z. destruct (_ <? _)%nat; [|discriminate]. injection Z as <-. cbn [fst snd].
          assert (E : match nth_error nested_of j with Some (_, subs) => subs | None => [] end = archive_names d j).
          { unfold nested_of, archive_names. destruct (symb d =? 0); [destruct j; reflexivity|]. rewrite nth_error_map. destruct (nth_error (nested_places _ _) j); reflexivity. }
          rewrite <- E. reflexivity.
        - reflexivity.
        - unfold part_names, nested_of. destruct (symb d =? 0); [reflexivity|]. rewrite map_map. reflexivity.
        - apply count0. }
      split.
      - intros H. apply bind_ok in H as (x & X & H). apply (nested_names_iff last x) in X as (X & ->). cbn beta iota in H. apply bind_ok in H as (o & O & H). apply (offs_iff 1 o ltac:(lia)) in O as (O & ->). apply bind_ok in H as (v & V & H). apply P in V.
        split; [exact X|]. split; [exact O|]. exists v. split; assumption.
      - intros (X & O & v & V & H). rewrite (proj2 (nested_names_iff last _) (conj X eq_refl)). cbn [bind]. rewrite (proj2 (offs_iff 1 _ ltac:(lia)) (conj O eq_refl)). cbn [bind]. rewrite (proj2 (P v) V). cbn [bind]. exact H.
    Qed.

    Definition align_of : Z := fold_left Z.gcd (map (file_start d) (range_z 0 (Z.to_nat (file_count d)))) 0x200.
    Lemma gcd_fold l : forall a g, (g | fold_left Z.gcd l a) <-> (g | a) /\ forall x, In x l -> (g | x).
    Proof.
      induction l as [|y l IH]; intros a g; cbn [fold_left].
      - split; [intros H; split; [exact H|intros x []]|intros (H & _); exact H].
      - rewrite IH. split.
        + intros (H & K). split; [exact (Z.divide_trans _ _ _ H (Z.gcd_divide_l a y))|]. intros x [<-|I]; [exact (Z.divide_trans _ _ _ H (Z.gcd_divide_r a y))|apply K, I].
        + intros (H & K). split; [apply Z.gcd_greatest; [exact H|apply K; left; reflexivity]|intros x I; apply K; right; exact I].
    Qed.
    Lemma align_of_ok : 0 < align_of /\ forall g, (g | align_of) <-> (g | 0x200) /\ forall i, 0 <= i < file_count d -> (g | file_start d i).
    Proof.
      split; [apply align_512|]. intros g. unfold align_of. rewrite gcd_fold. split; intros (H & K); (split; [exact H|]).
      - intros i I. apply K, in_map, in_range_z. lia.
      - intros x X. apply in_map_iff in X as (i & <- & I). apply in_range_z in I. apply K. lia.
    Qed.
    Lemma align_unique a : (0 < a /\ forall g, (g | a) <-> (g | 0x200) /\ forall i, 0 <= i < file_count d -> (g | file_start d i)) <-> a = align_of.
    Proof.
      destruct align_of_ok as (P & D). split; [|intros ->; split; assumption]. intros (P' & D').
      apply Z.divide_antisym_nonneg; [lia|lia| |]; [apply D, D', Z.divide_refl|apply D', D, Z.divide_refl].
    Qed.
    Lemma bool_is (b : bool) (P : Prop) b' : (b' = true <-> P) -> (b = true <-> P) <-> b = b'.
    Proof. intros H. split; [intros G|intros ->; exact H]. destruct b, b'; intuition congruence. Qed.

    Definition state := fat_state d (word d 0x28 + 8) (Z.to_nat (file_count d)).
    Lemma end_is : tEnd state = files_end d.
    Proof.
      pose proof (word_nonneg d (word d 0x20 + 8) B) as C. change (0 <= file_count d) in C. unfold state, files_end. cbn [fat_state tEnd]. destruct (Z.eqb_spec (file_count d) 0) as [->|E]; [reflexivity|].
      destruct (Z.to_nat (file_count d)) eqn:N; [lia|]. replace (file_count d - 1) with (Z.of_nat n) by lia. reflexivity.
    Qed.
    Lemma view_iff s q a b w p g sp st :
      (Ok {| dSeqs := q; dArchs := a; dBanks := b; dWars := w; dPlayers := p; dGroups := g; dSPlayers := sp; dStrms := st; fatPad := tPad state;
        firstAlign := match tFirst state with Some a => if a =? tAlign state then None else Some a | None => None end;
        fileAlign := tAlign state;
        padEnd := negb ((tEnd state =? zlen d) && negb (tEnd state mod tAlign state =? 0));
        padSymb := (word d 0x14 mod 4 =? 0) && negb (names_end d mod 4 =? 0) |} = Ok s) <->
      (q = dSeqs s /\ a = dArchs s /\ b = dBanks s /\ w = dWars s /\ p = dPlayers s /\ g = dGroups s /\ sp = dSPlayers s /\ st = dStrms s) /\
      (0 < fileAlign s /\ forall g, (g | fileAlign s) <-> (g | 0x200) /\ forall i, 0 <= i < file_count d -> (g | file_start d i)) /\
      (firstAlign s = if file_count d =? 0 then None else let a := Z.gcd 0x200 (file_start d 0) in if a =? fileAlign s then None else Some a) /\
      (fatPad s = true <-> forall i, 0 <= i < file_count d - 1 -> file_start d (i + 1) - file_start d i = file_length d i) /\
      (padEnd s = true <-> (files_end d = zlen d -> (fileAlign s | files_end d))) /\
      (padSymb s = true <-> (4 | word d 0x14) /\ ~ (4 | names_end d)).
    Proof.
      pose proof (word_nonneg d (word d 0x20 + 8) B) as C. change (0 <= file_count d) in C.
      rewrite align_unique, end_is. change (tAlign state) with align_of. destruct align_of_ok as (AP & _).
      assert (F : match tFirst state with Some a => if a =? align_of then None else Some a | None => None end = if file_count d =? 0 then None else let a := Z.gcd 0x200 (file_start d 0) in if a =? align_of then None else Some a).
      { unfold state. cbn [fat_state tFirst]. destruct (Z.eqb_spec (file_count d) 0) as [->|E]; [reflexivity|]. destruct (Z.to_nat (file_count d)) eqn:N; [lia|]. reflexivity. }
      rewrite F. clear F.
      assert (P1 : forall x, (x = true <-> forall i, 0 <= i < file_count d - 1 -> file_start d (i + 1) - file_start d i = file_length d i) <-> x = tPad state).
      { intros x. apply bool_is. unfold state. cbn [fat_state tPad]. rewrite forallb_forall. split.
        - intros H i I. apply Z.eqb_eq, H, in_range_z. lia.
        - intros H i I. apply in_range_z in I. apply Z.eqb_eq, H. lia. }
      assert (P2 : forall x, (x = true <-> (files_end d = zlen d -> (align_of | files_end d))) <-> x = negb ((files_end d =? zlen d) && negb (files_end d mod align_of =? 0))).
      { intros x. apply bool_is. rewrite negb_true_iff, andb_false_iff, negb_false_iff, Z.eqb_neq, Z.eqb_eq, Z.mod_divide by lia. clear - d. destruct (Z.eq_dec (files_end d) (zlen d)); intuition congruence. }
      assert (P3 : forall x, (x = true <-> (4 | word d 0x14) /\ ~ (4 | names_end d)) <-> x = (word d 0x14 mod 4 =? 0) && negb (names_end d mod 4 =? 0)).
      { intros x. apply bool_is. rewrite andb_true_iff, negb_true_iff, Z.eqb_neq, Z.eqb_eq, !Z.mod_divide by lia. reflexivity. }
      rewrite P1, P3. clear P1 P3. split.
      - intros H. apply SeqRead.ok_inj in H. subst s. cbn [dSeqs dArchs dBanks dWars dPlayers dGroups dSPlayers dStrms fatPad firstAlign fileAlign padEnd padSymb]. rewrite P2.
        split; [repeat (split; [reflexivity|]); reflexivity|]. repeat (split; [reflexivity|]). reflexivity.
      - intros ((-> & -> & -> & -> & -> & -> & -> & ->) & E1 & E2 & E3 & E4 & E5). rewrite E1 in E2, E4. apply P2 in E4. rewrite <- E1, <- E3, <- E5 in *. f_equal. destruct s. cbn in *. rewrite E2, E4. reflexivity.
    Qed.
    Lemma places_all : flat_map part_places (seq 0 8) = all_places d.
    Proof. unfold part_places, all_places. destruct (symb d =? 0); [reflexivity|]. cbn [seq flat_map Nat.eqb]. reflexivity. Qed.
    Lemma tail_iff order s : tail order d (symb d) info (word d 0x14) heads_of infos state = Ok s <->
      (forall k, (k < 8)%nat -> names_ok k /\ in_file d (info_part d k)) /\ sdat_view order d s.
    Proof.
      assert (NE : names_end d = fold_left (step d) (part_places 7) (fold_left (step d) (part_places 6) (fold_left (step d) (part_places 5) (fold_left (step d) (part_places 4)
        (fold_left (step d) (part_places 3) (fold_left (step d) (part_places 2) (fold_left (step d) (part_places 1) (fold_left (step d) (part_places 0) 0)))))))).
      { unfold names_end. change (fun e a : Z => match name_at d a with Some s => word d a + zlen s + 1 | None => e end) with (step d). rewrite <- places_all. cbn [seq flat_map]. rewrite !fold_left_app. reflexivity. }
      unfold tail. cbv zeta. change (tFiles state) with fs.
      split.
      - intros H. apply (chain _ _ 0 _ _ s ltac:(lia) ltac:(lia) (fun o y O => seq_iff d B o y O)) in H as (N0 & I0 & q & Q & H). apply chain1 in H as (N1 & I1 & a & A & H).
        apply (chain _ _ 2 _ _ s ltac:(lia) ltac:(lia) (fun o y O => bank_iff d B order o y O)) in H as (N2 & I2 & b & Bk & H).
        apply (chain _ _ 3 _ _ s ltac:(lia) ltac:(lia) (fun o y O => war_iff d B o y O)) in H as (N3 & I3 & w & W & H).
        apply (chain _ _ 4 _ _ s ltac:(lia) ltac:(lia) (fun o y O => player_iff d o y O)) in H as (N4 & I4 & p & P & H).
        apply (chain _ _ 5 _ _ s ltac:(lia) ltac:(lia) (fun o y O => group_iff d B o y O)) in H as (N5 & I5 & g & G & H).
        apply (chain _ _ 6 _ _ s ltac:(lia) ltac:(lia) (fun o y O => splayer_iff d B o y O)) in H as (N6 & I6 & sp & SP & H).
        apply (chain _ _ 7 _ _ s ltac:(lia) ltac:(lia) (fun o y O => strm_iff d B o y O)) in H as (N7 & I7 & st & ST & H).
        rewrite <- NE in H. apply view_iff in H as ((-> & -> & -> & -> & -> & -> & -> & ->) & V1 & V2 & V3 & V4 & V5).
        split; [|constructor; assumption].
        intros k K. do 8 (destruct k as [|k]; [split; assumption|]). lia.
      - intros (N & [Q A Bk W P G SP ST V1 V2 V3 V4 V5]).
        apply (chain _ _ 0 _ _ s ltac:(lia) ltac:(lia) (fun o y O => seq_iff d B o y O)).
        split; [apply N; lia|]. split; [apply N; lia|]. exists (dSeqs s). split; [exact Q|]. apply chain1.
        split; [apply N; lia|]. split; [apply N; lia|]. exists (dArchs s). split; [exact A|]. apply (chain _ _ 2 _ _ s ltac:(lia) ltac:(lia) (fun o y O => bank_iff d B order o y O)).
        split; [apply N; lia|]. split; [apply N; lia|]. exists (dBanks s). split; [exact Bk|]. apply (chain _ _ 3 _ _ s ltac:(lia) ltac:(lia) (fun o y O => war_iff d B o y O)).
        split; [apply N; lia|]. split; [apply N; lia|]. exists (dWars s). split; [exact W|]. apply (chain _ _ 4 _ _ s ltac:(lia) ltac:(lia) (fun o y O => player_iff d o y O)).
        split; [apply N; lia|]. split; [apply N; lia|]. exists (dPlayers s). split; [exact P|]. apply (chain _ _ 5 _ _ s ltac:(lia) ltac:(lia) (fun o y O => group_iff d B o y O)).
        split; [apply N; lia|]. split; [apply N; lia|]. exists (dGroups s). split; [exact G|]. apply (chain _ _ 6 _ _ s ltac:(lia) ltac:(lia) (fun o y O => splayer_iff d B o y O)).
        split; [apply N; lia|]. split; [apply N; lia|]. exists (dSPlayers s). split; [exact SP|]. apply (chain _ _ 7 _ _ s ltac:(lia) ltac:(lia) (fun o y O => strm_iff d B o y O)).
        split; [apply N; lia|]. split; [apply N; lia|]. exists (dStrms s). split; [exact ST|]. rewrite <- NE. apply view_iff.
        split; [repeat (split; [reflexivity|]); reflexivity|]. repeat (split; [assumption|]). assumption.
    Qed.
  End Chain.
End All.

Lemma shape_parts d : (symb d <> 0 -> (forall k, (k < 8)%nat -> k <> 1%nat -> in_file d (symb_part d k)) /\
  symb_part d 1 + 4 + 8 * word d (symb_part d 1) <= zlen d /\
  (forall a, In a (nested_places d (symb_part d 1)) -> word d (a + 4) <> 0 -> in_file d (symb d + word d (a + 4)))) <-> forall k, (k < 8)%nat -> names_ok d k.
Proof.
  unfold names_ok. split.
  - intros H k K S. destruct (H S) as (H1 & H2). destruct (Nat.eqb_spec k 1) as [E|E]; [exact H2|apply H1; assumption].
  - intros H S. split; [|exact (H 1%nat ltac:(lia) S)]. intros k K K1. specialize (H k K S). rewrite (proj2 (Nat.eqb_neq _ _) K1) in H. exact H.
Qed.

Theorem sdat_iff order d s : is_bytes d -> sdat_load order d = Ok s <-> sdat_shape d /\ sdat_view order d s.
Proof.
  intros B. unfold sdat_shape, symb_shape. rewrite load_tail. split.
  - intros H. apply bind_ok in H as (h & S & H). apply std_inv in S as (L & ->). cbn [hVersion hMagic] in H. stp H. apply Z.eqb_eq in G. stp H. apply beq_eq in G0.
    apply bind_ok in H as (bl & X & H). apply words8_iff in X as (L1 & ->); [|exact B|lia]. cbv zeta in H. rewrite !words8_nth in H by lia.
    change (word d (0x10 + 4 * Z.of_nat 0)) with (symb d) in H. change (0x10 + 4 * Z.of_nat 1) with 0x14 in H. change (0x10 + 4 * Z.of_nat 2) with 0x18 in H. change (0x10 + 4 * Z.of_nat 4) with 0x20 in H. change (0x10 + 4 * Z.of_nat 6) with 0x28 in H.
    pose proof (word_nonneg d 0x10 B) as S0. change (word d 0x10) with (symb d) in S0. pose proof (word_nonneg d 0x18 B) as I0. pose proof (word_nonneg d 0x20 B) as F0.
    apply bind_ok in H as (sm & X & H). apply rd_inv in X as (L2 & ->); [|lia|lia]. stp H. apply bind_ok in H as (hd & X & H).
    assert (HD : hd = heads_of d /\ (symb d <> 0 -> symb d + 0x28 <= zlen d /\ part d (symb d) 4 = asc "SYMB")).
    { unfold heads_of. destruct (Z.eqb_spec (symb d) 0) as [E|E]; [injection X as <-; split; [reflexivity|congruence]|]. apply bind_ok in X as (l & X1 & X2). apply words8_iff in X1 as (L4 & ->); [|exact B|lia]. stp X2. apply beq_eq in G1. injection X2 as <-. split; [reflexivity|]. intros _. split; [lia|exact G1]. }
    clear X. destruct HD as (-> & HD). apply bind_ok in H as (fm & X & H). apply rd_inv in X as (L4 & ->); [|lia|lia]. stp H. stp H. stp H. apply beq_eq in G1. change (word d (word d 0x20 + 8)) with (file_count d) in H.
    apply bind_ok in H as (t & X & H). apply fat_iff in X as (FC & ->); [|exact B|lia]. apply bind_ok in H as (im & X & H). apply rd_inv in X as (L7 & ->); [|lia|lia]. stp H. apply bind_ok in H as (is & X & H). apply words8_iff in X as (L9 & ->); [|exact B|lia]. stp H. apply beq_eq in G2.
    apply (tail_iff d B ltac:(lia) ltac:(lia)) in H as (N & V). split; [|exact V]. pose proof (proj2 (shape_parts d) (fun k K => proj1 (N k K))) as SP.
    split; [lia|]. split; [exact G0|]. split; [exact G|]. split; [lia|]. split; [|split].
    + intros S. destruct (HD S) as (H1 & H2). split; [exact H1|]. split; [exact H2|]. exact (SP S).
    + split; [lia|]. split; [exact G1|exact FC].
    + split; [lia|]. split; [exact G2|]. intros k K. apply N, K.
  - intros ((L & M & V & L2 & SY & (L3 & FM & FC) & (L4 & IM & IP)) & VW). rewrite std_view by lia. cbn [bind hVersion hMagic]. rewrite M, V, beq_refl. cbn [Z.eqb Pos.eqb guard bind].
    rewrite (proj2 (words8_iff d 0x10 _ B ltac:(lia)) (conj L eq_refl)). cbn [bind]. cbv zeta. rewrite !words8_nth by lia.
    change (word d (0x10 + 4 * Z.of_nat 0)) with (symb d). change (0x10 + 4 * Z.of_nat 1) with 0x14. change (0x10 + 4 * Z.of_nat 2) with 0x18. change (0x10 + 4 * Z.of_nat 4) with 0x20. change (0x10 + 4 * Z.of_nat 6) with 0x28.
    pose proof (word_nonneg d 0x10 B) as S0. change (word d 0x10) with (symb d) in S0. pose proof (word_nonneg d 0x18 B) as I0. pose proof (word_nonneg d 0x20 B) as F0.
    rewrite rd_in by lia. cbn [bind]. rewrite unpack_word by lia. cbn [bind].
    assert (HD : (if symb d =? 0 then Ok None else l <- mapM (fun i => unpack_u 4 d (symb d + 8 + 4 * i)) (range_z 0 8) ;; _ <- guard (beq (part d (symb d) 4) (asc "SYMB")) AssertionError ;; Ok (Some l)) = Ok (heads_of d)).
    { unfold heads_of. destruct (Z.eqb_spec (symb d) 0) as [E|E]; [reflexivity|]. destruct (SY E) as (S1 & S2 & _). assert (S3 : symb d + 8 + 32 <= zlen d) by lia. rewrite (proj2 (words8_iff d (symb d + 8) _ B ltac:(lia)) (conj S3 eq_refl)). cbn [bind]. rewrite S2, beq_refl. reflexivity. }
    rewrite HD. cbn [bind]. rewrite rd_in by lia. cbn [bind]. rewrite unpack_word by lia. cbn [bind]. rewrite unpack_word by lia. cbn [bind]. rewrite FM, beq_refl. cbn [guard bind]. change (word d (word d 0x20 + 8)) with (file_count d).
    rewrite (proj2 (fat_iff d B (word d 0x28 + 8) _ L3) (conj FC eq_refl)). cbn [bind]. rewrite rd_in by lia. cbn [bind]. rewrite unpack_word by lia. cbn [bind].
    assert (L5 : word d 0x18 + 8 + 32 <= zlen d) by lia. rewrite (proj2 (words8_iff d (word d 0x18 + 8) _ B ltac:(lia)) (conj L5 eq_refl)). cbn [bind]. rewrite IM, beq_refl. cbn [guard bind].
    apply (tail_iff d B L L4). split; [|exact VW]. intros k K. split; [|exact (IP k K)]. revert k K. apply shape_parts. intros S. destruct (SY S) as (_ & _ & S1). exact S1.
Qed.

(** * Filename tables that are reproduced: proofs (C124) *)
From Coq Require Import Permutation.
From Verif Require Import PyBase PyLemmas PyTac FntModel FntSpec FntLemmas FntSaveLemmas RomSpec ViewSpec ViewLemmas Exact ExactFiles ExactFntSpec.

Definition row (d : bytes) (N k : Z) : fentry :=
  (0xF000 + k, (half d (8 * k + 4), half d (8 * k + 6), part d (word d (8 * k)) (list_start d N (k + 1) - word d (8 * k)))).
Definition is_row (d : bytes) (N : Z) (e : fentry) : Prop :=
  exists k, 0 <= k < N /\ 0 <= word d (8 * k) <= list_start d N (k + 1) /\ list_start d N (k + 1) <= zlen d /\ e = row d N k.

Lemma part_cat d o a b : 0 <= o -> 0 <= a -> 0 <= b -> o + a + b <= zlen d -> part d o a ++ part d (o + a) b = part d o (a + b).
Proof.
  intros. symmetry. assert (LA : zlen (part d o a) = a) by (apply zlen_part; lia). assert (LB : zlen (part d (o + a) b) = b) by (apply zlen_part; lia).
  apply part_split; [lia|rewrite LA, LB; reflexivity|]. rewrite LA, LB. split; reflexivity.
Qed.
Lemma part_one d o : 0 <= o < zlen d -> part d o 1 = [byte d o].
Proof. intro H. unfold part. rewrite skipn_byte by lia. reflexivity. Qed.
Lemma part_nil d o : part d o 0 = [].
Proof. reflexivity. Qed.
Lemma entries_in d o fo fi : entries d o fo fi -> 0 <= o < zlen d.
Proof. intro E. inversion E; assumption. Qed.

Section Table.
  Context (d : bytes) (N : Z) (B : is_bytes d) (LN : N <= 4096).
  Set Default Proof Using "All".

  Lemma files_parse o o1 : files_to d o o1 -> forall fo fi, entries d o fo fi -> exists fl fi', fi = fl ++ fi' /\ entries d o1 fo fi' /\
    exists t1, mapM fileEntry fl = Ok t1 /\ concat t1 = part d o (o1 - o) /\ o <= o1.
  Proof.
    induction 1 as [o|o o' C F IH]; intros fo fi E.
    - exists [], fi. split; [reflexivity|]. split; [exact E|]. exists []. rewrite Z.sub_diag. split; [reflexivity|]. split; [reflexivity|lia].
    - inversion E as [? R Z0|? ? fi0 R C' E'|? len g fo0 ? R C']; subst; [lia| |lia].
      destruct (IH _ _ E') as (fl & fi' & -> & E1 & t1 & M & K & L). exists (part d (o + 1) (byte d o) :: fl), fi'. split; [reflexivity|]. split; [exact E1|].
      pose proof (entries_in _ _ _ _ E'). pose proof (entries_in _ _ _ _ E1). assert (LP : zlen (part d (o + 1) (byte d o)) = byte d o) by (apply zlen_part; lia).
      exists ((byte d o :: part d (o + 1) (byte d o)) :: t1). split; [|split; [|lia]].
      + cbn [mapM]. rewrite fileEntry_ok by (split; [lia|apply is_bytes_part; exact B]). rewrite LP, M. reflexivity.
      + cbn [concat]. rewrite K. change (byte d o :: part d (o + 1) (byte d o)) with ([byte d o] ++ part d (o + 1) (byte d o)). rewrite <- part_one by lia.
        rewrite part_cat by lia. replace (o + 1 + byte d o) with (o + (1 + byte d o)) by lia. rewrite part_cat by lia. f_equal. lia.
  Qed.

  Lemma laid_parse :
    (forall n p m, laid d N n p m -> 0 <= n -> forall f, denotes d n f -> forall ents, exists new,
       parseFolder f p (0xF000 + n) ents = Ok (0xF000 + n, 0xF000 + m, ents ++ new) /\ Forall (is_row d N) new /\ n < N /\ 0 <= m) /\
    (forall n o k e m, dirs d N n o k e m -> 0 <= k -> byte d e = 0 -> forall fo fi, entries d o fo fi -> fi = [] /\ o <= e < zlen d /\ forall ents, exists new,
       parseSubs (0xF000 + n) fo (0xF000 + k) ents = Ok (part d o (e - o), 0xF000 + m, ents ++ new) /\ Forall (is_row d N) new /\ 0 <= m).
  Proof.
    apply laid_mutind.
    - intros n p m o e NN HP F D IH LE Z0 ST P f DN ents. inversion DN as [? fo fi R L E]; subst n0 f.
      destruct (files_parse _ _ F _ _ E) as (fl & fi' & -> & E1 & t1 & M & K & L1). destruct (IH ltac:(lia) Z0 _ _ E1) as (-> & L2 & IH'). destruct (IH' ents) as (new & PS & FR & M0). rewrite app_nil_r.
      pose proof (entries_in _ _ _ _ E) as I0.
      exists (new ++ [(0xF000 + n, (half d (8 * n + 4), p, concat t1 ++ part d o (e - o) ++ [0]))]). split; [|split; [|split; [exact NN|exact M0]]].
      + rewrite parseFolder_eq, M. cbn [bind]. replace (0xF000 + n + 1) with (0xF000 + (n + 1)) by lia. rewrite PS. cbn [bind]. rewrite <- app_assoc. reflexivity.
      + apply Forall_app. split; [exact FR|]. constructor; [|constructor]. exists n. split; [lia|]. split; [lia|]. split; [lia|]. unfold row. rewrite HP, K, <- ST. do 3 f_equal.
        rewrite <- Z0, <- part_one by lia. replace e with (o + (e - o)) at 2 by lia. rewrite part_cat by lia. replace o with (word d (8 * n) + (o - word d (8 * n))) at 2 by lia. rewrite part_cat by lia. f_equal. lia.
    - intros n o k K Z0 fo fi E. inversion E as [? R Z1|? ? ? R C|? len ? ? ? R C]; subst; [|lia|lia]. split; [reflexivity|]. split; [lia|]. intro ents. exists []. cbn [parseSubs]. rewrite Z.sub_diag, part_nil, app_nil_r. split; [reflexivity|]. split; [constructor|exact K].
    - intros n o k len m1 e m C LL H LK IH1 _ IH2 K Z0 fo fi E. inversion E as [? R Z1|? ? ? R C'|? len' g fo0 fi0 R C' LL' LD DN E']; subst; [lia|lia|]. assert (len' = len) as -> by lia. rewrite H in DN.
      assert (KN : k < N) by (inversion LK; assumption).
      replace ((0xF000 + k) mod 4096) with k in DN by (change 0xF000 with (15 * 4096); rewrite Z.add_comm, Z_mod_plus_full, Z.mod_small by lia; reflexivity).
      assert (M0 : 0 <= m1) by (destruct (IH1 K g DN []) as (_ & _ & _ & _ & M0); exact M0).
      destruct (IH2 M0 Z0 _ _ E') as (-> & L2 & IH'). split; [reflexivity|]. split; [lia|]. intro ents.
      destruct (IH1 K g DN ents) as (new1 & P1 & F1 & _). destruct (IH' (ents ++ new1)) as (new2 & P2 & F2 & M2). exists (new1 ++ new2). split; [|split; [apply Forall_app; split; assumption|exact M2]].
      cbn [parseSubs]. rewrite P1. cbn [bind]. assert (LP : zlen (part d (o + 1) len) = len) by (apply zlen_part; lia).
      rewrite folderEntry_ok by (try split; try lia; apply is_bytes_part; exact B). cbn [bind]. rewrite P2. cbn [bind]. rewrite LP, <- app_assoc. do 3 f_equal.
      destruct (folder_ctl len ltac:(lia)) as (-> & _). replace (len + 128) with (byte d o) by lia. change (byte d o :: part d (o + 1) len ++ le 2 (0xF000 + k)) with ([byte d o] ++ part d (o + 1) len ++ le 2 (0xF000 + k)).
      rewrite <- part_one by lia. rewrite <- (proj2 (part_half d (o + 1 + len) (0xF000 + k) B ltac:(lia) ltac:(lia) ltac:(lia)) H).
      rewrite part_cat by lia.
      rewrite part_cat by lia. replace (o + 1 + len + 2) with (o + (1 + (len + 2))) by lia. rewrite part_cat by lia. f_equal. lia.
  Qed.

  Lemma row_key e : is_row d N e -> e = row d N (key e - 0xF000).
  Proof. intros (k & _ & _ & _ & ->). change (key (row d N k)) with (0xF000 + k). replace (0xF000 + k - 0xF000) with k by lia. reflexivity. Qed.
  Lemma rows_of L : Forall (is_row d N) L -> L = map (fun x => row d N (x - 0xF000)) (map key L).
  Proof. intro F. rewrite map_map. induction F as [|e L R F IH]; [reflexivity|]. cbn [map]. rewrite <- IH, <- (row_key e R). reflexivity. Qed.

  Lemma write_rows : 8 * N <= zlen d -> (forall k, 0 <= k < N -> 8 * N <= word d (8 * k) <= list_start d N (k + 1) /\ list_start d N (k + 1) <= zlen d) ->
    forall r j, Z.of_nat r + j = N -> 0 <= j -> 8 * N <= list_start d N j <= zlen d ->
    foldM writeEntry (part d 0 (8 * j) ++ zeros (8 * Z.of_nat r) ++ part d (8 * N) (list_start d N j - 8 * N)) (map (fun x => row d N (x - 0xF000)) (range_z (0xF000 + j) r)) = Ok d.
  Proof.
    intros LD H. induction r as [|r IH]; intros j E J HS.
    - assert (j = N) as -> by lia. cbn [range_z map foldM]. unfold list_start. rewrite Z.eqb_refl. change (zeros (8 * Z.of_nat 0)) with (@nil Z). cbn [app]. f_equal.
      replace (8 * N) with (0 + 8 * N) at 2 by lia. rewrite part_cat by lia. replace (8 * N + (zlen d - 8 * N)) with (zlen d) by lia. unfold part. cbn [Z.to_nat skipn]. apply firstn_all2. unfold zlen. lia.
    - destruct (H j ltac:(lia)) as (H1 & H2). assert (SJ : list_start d N j = word d (8 * j)) by (unfold list_start; replace (j =? N) with false by lia; reflexivity).
      cbn [range_z map foldM]. replace (0xF000 + j - 0xF000) with j by lia. unfold row at 1. cbn [writeEntry].
      assert (LF : zlen (part d 0 (8 * j) ++ zeros (8 * Z.of_nat (S r)) ++ part d (8 * N) (list_start d N j - 8 * N)) = word d (8 * j)) by (rewrite !zlen_app, zlen_zeros, !zlen_part by lia; lia).
      rewrite LF. pose proof (word_range d (8 * j) B ltac:(lia) ltac:(lia)) as R1. pose proof (half_range d (8 * j + 4) B ltac:(lia) ltac:(lia)) as R2. pose proof (half_range d (8 * j + 6) B ltac:(lia) ltac:(lia)) as R3. change (2 ^ 32) with 4294967296 in R1.
      cbn [pack_us]. rewrite !pack_u_ok by (p256; lia). cbn [bind]. rewrite app_nil_r.
      rewrite <- (part_word d (8 * j)) by (try exact B; lia). rewrite <- (proj2 (part_half d (8 * j + 4) _ B ltac:(lia) ltac:(lia) R2) eq_refl), <- (proj2 (part_half d (8 * j + 6) _ B ltac:(lia) ltac:(lia) R3) eq_refl).
      replace (8 * j + 6) with (8 * j + 4 + 2) by lia. rewrite part_cat by lia. rewrite part_cat by lia. change (4 + (2 + 2)) with 8.
      rewrite key_off by lia. replace (zeros (8 * Z.of_nat (S r))) with (zeros 8 ++ zeros (8 * Z.of_nat r)) by (unfold zeros, rep; rewrite <- repeat_app; f_equal; lia). rewrite <- app_assoc.
      rewrite put_mid by (rewrite ?zlen_zeros, ?zlen_part; lia). cbn [bind].
      specialize (IH (j + 1) ltac:(lia) ltac:(lia) ltac:(lia)). replace (0xF000 + j + 1) with (0xF000 + (j + 1)) by lia. rewrite <- IH. f_equal. rewrite <- !app_assoc, SJ.
      rewrite (app_assoc (part d 0 (8 * j))). replace (8 * j) with (0 + 8 * j) at 2 by lia. rewrite part_cat by lia. replace (8 * j + 8) with (8 * (j + 1)) by lia. do 2 f_equal.
      replace (word d (8 * j)) with (8 * N + (word d (8 * j) - 8 * N)) at 2 by lia. rewrite part_cat by lia. f_equal. lia.
  Qed.
End Table.

Lemma exact_saved d f : is_bytes d -> denotes d 0 f -> exact_names d -> save f = Ok d.
Proof.
  intros B D (L1 & L2 & W & LA). set (N := half d 6) in *. destruct (proj1 (laid_parse d N B L1) _ _ _ LA ltac:(lia) f D []) as (ents & P & F & NP & _). cbn [app] in P. change (0xF000 + 0) with 0xF000 in P.
  destruct (parse_shape _ _ _ _ _ _ _ P) as (_ & CN & new & EE & K). cbn [app] in EE. subst new. assert (CN' : N = folder_count f) by lia.
  unfold save. rewrite countFoldersIn_eq, <- CN', P. cbn [bind guard Z.eqb Pos.eqb].
  assert (LE : length ents = Z.to_nat N). { apply Permutation_length in K. rewrite map_length in K. rewrite K. pose proof (zlen_range_z 0xF000 (Z.to_nat (0xF000 + N - 0xF000))) as X. unfold zlen in X. lia. }
  assert (KL : map key (sorted_entries ents) = range_z 0xF000 (Z.to_nat N)).
  { apply ascending_range; [apply sorted_ascending|]. eapply Permutation_trans; [apply Permutation_map, sorted_perm|]. eapply Permutation_trans; [exact K|]. replace (0xF000 + N - 0xF000) with N by lia. apply Permutation_refl. }
  assert (FS : Forall (is_row d N) (sorted_entries ents)) by (rewrite Forall_forall in *; intros e I; apply F; exact (Permutation_in _ (sorted_perm ents) I)).
  assert (RK : forall k, 0 <= k < N -> 0 <= word d (8 * k) <= list_start d N (k + 1) /\ list_start d N (k + 1) <= zlen d).
  { intros k KR. assert (I : In (0xF000 + k) (map key (sorted_entries ents))).
    { rewrite KL. apply nth_error_In with (n := Z.to_nat k). rewrite nth_error_range_z by lia. f_equal. lia. }
    apply in_map_iff in I as (e & KE & I). rewrite Forall_forall in FS. destruct (FS e I) as (k' & R1 & R2 & R3 & ->). unfold key, row in KE. cbn [fst] in KE. assert (k' = k) as -> by lia. split; assumption. }
  assert (LS : forall k, 0 <= k < N -> list_start d N k = word d (8 * k)) by (intros k KR; unfold list_start; replace (k =? N) with false by lia; reflexivity).
  assert (MO : forall k : nat, Z.of_nat k < N -> 8 * N <= word d (8 * Z.of_nat k)).
  { induction k as [|k IH]; intro KR; [change (8 * Z.of_nat 0) with 0; lia|]. specialize (IH ltac:(lia)). destruct (RK (Z.of_nat k) ltac:(lia)) as (R1 & _). rewrite LS in R1 by lia. replace (Z.of_nat (S k)) with (Z.of_nat k + 1) by lia. lia. }
  rewrite (rows_of d N B L1 _ FS), KL. pose proof (write_rows d N B L1 L2) as WR. replace (zeros (zlen ents * 8)) with (part d 0 (8 * 0) ++ zeros (8 * Z.of_nat (Z.to_nat N)) ++ part d (8 * N) (list_start d N 0 - 8 * N)).
  - apply (WR ltac:(intros k KR; destruct (RK k KR); specialize (MO (Z.to_nat k) ltac:(lia)); rewrite Z2Nat.id in MO by lia; lia) (Z.to_nat N) 0); [lia|lia|rewrite LS by lia; change (8 * 0) with 0; lia].
  - rewrite LS by lia. change (8 * 0) with 0. rewrite W, Z.sub_diag, !part_nil, app_nil_r. cbn [app]. f_equal. unfold zlen. lia.
Qed.

(** ** the other direction *)
Lemma subs_grow id l : forall nx en t n2 e2, parseSubs id l nx en = Ok (t, n2, e2) -> exists new, e2 = en ++ new.
Proof.
  induction l as [|[n f] l IH]; intros nx en t n2 e2 H; cbn [parseSubs] in H; [injection H as <- <- <-; exists []; rewrite app_nil_r; reflexivity|].
  apply bind_ok in H as ([[o n1] e1] & E1 & H). apply bind_ok in H as (h & _ & H). apply bind_ok in H as ([[t' n3] e3] & E3 & H). injection H as <- <- <-.
  destruct (parse_shape _ _ _ _ _ _ _ E1) as (_ & _ & new & -> & _). destruct (IH _ _ _ _ _ E3) as (new' & ->). exists (new ++ new'). rewrite app_assoc. reflexivity.
Qed.

Section Back.
  Context (d : bytes) (N : Z) (B : is_bytes d).
  Set Default Proof Using "All".
  Lemma files_laid fl : Forall (fun n => n <> []) fl -> forall t1 o, mapM fileEntry fl = Ok t1 -> 0 <= o -> o + zlen (concat t1) <= zlen d -> part d o (zlen (concat t1)) = concat t1 -> files_to d o (o + zlen (concat t1)).
  Proof.
    induction 1 as [|n fl NE F IH]; intros t1 o M O L P; cbn [mapM] in M; apply SeqRead.ok_inj in M || idtac.
    - subst t1. cbn [concat]. change (zlen (@nil Z)) with 0. rewrite Z.add_0_r. constructor.
    - apply bind_ok in M as (h & E & M). apply bind_ok in M as (t & E' & M). injection M as <-. apply fileEntry_inv in E as [[LN BN] ->]. cbn [concat] in *. rewrite zlen_app, zlen_cons in *.
      pose proof (zlen_nonneg n). pose proof (zlen_nonneg (concat t)). assert (LN0 : 0 < zlen n) by (destruct n; [contradiction NE; reflexivity|rewrite zlen_cons; pose proof (zlen_nonneg n); lia]).
      apply part_split in P as [P1 P2]; [|lia|rewrite zlen_cons; lia]. rewrite zlen_cons in *. assert (BO : byte d o = zlen n).
      { assert (X : nth (Z.to_nat 0) (part d o (1 + zlen n)) 0 = byte d (o + 0)) by (apply byte_nth; lia). rewrite Z.add_0_r, P1 in X. cbn in X. symmetry. exact X. }
      apply fs_file; [lia|]. rewrite BO. replace (o + (1 + zlen n + zlen (concat t))) with (o + 1 + zlen n + zlen (concat t)) by lia. apply IH; [exact E'|lia|lia|]. replace (o + 1 + zlen n) with (o + (1 + zlen n)) by lia. exact P2.
  Qed.

  Lemma laid_back f : forall p n ents id m ents', parseFolder f p (0xF000 + n) ents = Ok (id, 0xF000 + m, ents') -> 0 <= n -> files_named f ->
    (forall e, In e ents' -> is_row d N e) -> laid d N n p m.
  Proof.
    induction f as [l files i IH] using folder_ind'. intros p n ents id m ents' P NN FN R. rewrite parseFolder_eq in P.
    apply bind_ok in P as (t1 & EF & P). apply bind_ok in P as ([[t2 n2] e2] & ES & P). apply SeqRead.ok_inj in P. assert (n2 = 0xF000 + m) as -> by congruence. assert (ents' = e2 ++ [(0xF000 + n, (i, p, concat t1 ++ t2 ++ [0]))]) as -> by congruence. clear P.
    destruct (R (0xF000 + n, (i, p, concat t1 ++ t2 ++ [0]))) as (k & K & W & L & E); [apply in_or_app; right; left; reflexivity|]. unfold row in E.
    assert (k = n) as -> by (apply (f_equal fst) in E; cbn [fst] in E; lia). apply (f_equal snd) in E. cbn [snd] in E.
    assert (HP : p = half d (8 * n + 6)) by congruence. assert (HT : concat t1 ++ t2 ++ [0] = part d (word d (8 * n)) (list_start d N (n + 1) - word d (8 * n))) by congruence. clear E.
    set (o := word d (8 * n)) in *. set (z := list_start d N (n + 1)) in *.
    assert (LZ : zlen (concat t1) + zlen t2 + 1 = z - o). { rewrite <- (zlen_part d o (z - o)) by lia. rewrite <- HT, !zlen_app. change (zlen [0]) with 1. lia. }
    pose proof (zlen_nonneg (concat t1)). pose proof (zlen_nonneg t2).
    symmetry in HT. apply part_split in HT as [P1 P2]; [|lia|rewrite zlen_app; change (zlen [0]) with 1; lia]. apply part_split in P2 as [P2 P3]; [|lia|rewrite zlen_app; reflexivity]. change (zlen [0]) with 1 in P3.
    assert (G : forall l', (forall x, In x l' -> In x l) -> forall k en t n2 e q, parseSubs (0xF000 + n) l' (0xF000 + k) en = Ok (t, n2, e) -> (forall x, In x e -> is_row d N x) -> 0 <= k -> 0 <= q -> q + zlen t <= zlen d -> part d q (zlen t) = t ->
      exists m, n2 = 0xF000 + m /\ dirs d N n q k (q + zlen t) m).
    { clear ES P1 P2 P3 EF. induction l' as [|[nm g] l' IHl]; intros SUB k en t n2 e q H' RE KK Q QL PQ; cbn [parseSubs] in H'.
      - injection H' as <- <- <-. exists k. split; [reflexivity|]. change (zlen (@nil Z)) with 0. rewrite Z.add_0_r. constructor.
      - apply bind_ok in H' as ([[ot n1] e1] & E1 & H'). apply bind_ok in H' as (h & EH & H'). apply bind_ok in H' as ([[t' n3] e3] & E3 & H'). apply SeqRead.ok_inj in H'. assert (t = h ++ t') as -> by congruence. assert (n2 = n3) as -> by congruence. assert (e = e3) as -> by congruence. clear H'.
        destruct (parse_shape _ _ _ _ _ _ _ E1) as (-> & EN1 & _). apply folderEntry_inv in EH as ((LN & BN) & OR & ->). pose proof (zlen_nonneg nm). destruct (folder_ctl (zlen nm) ltac:(lia)) as (CT & _). rewrite CT in *.
        rewrite zlen_app, zlen_cons, zlen_app, zlen_le in *. change (Z.of_nat 2) with 2 in *. pose proof (zlen_nonneg t').
        apply part_split in PQ as [Q1 Q2]; [|lia|rewrite zlen_cons, zlen_app, zlen_le; lia]. rewrite zlen_cons, zlen_app, zlen_le in Q1, Q2. change (Z.of_nat 2) with 2 in *.
        change ((zlen nm + 128) :: nm ++ le 2 (0xF000 + k)) with ([zlen nm + 128] ++ nm ++ le 2 (0xF000 + k)) in Q1.
        apply part_split in Q1 as [Q3 Q4]; [|lia|change (zlen [zlen nm + 128]) with 1; rewrite zlen_app, zlen_le; lia]. change (zlen [zlen nm + 128]) with 1 in *. rewrite zlen_app, zlen_le in Q4. change (Z.of_nat 2) with 2 in *.
        apply part_split in Q4 as [Q4 Q5]; [|lia|rewrite zlen_le; reflexivity]. rewrite zlen_le in Q5. change (Z.of_nat 2) with 2 in Q5.
        rewrite part_one in Q3 by lia. injection Q3 as Q3. apply part_half in Q5; [|exact B|lia|lia|lia].
        assert (I1 : forall x, In x e1 -> is_row d N x). { intros x X. apply RE. destruct (subs_grow _ _ _ _ _ _ _ E3) as (new & ->). apply in_or_app. left. exact X. }
        pose proof (folder_count_pos g) as CP. set (m1 := k + folder_count g). assert (n1 = 0xF000 + m1) as -> by lia.
        assert (LG : laid d N k (0xF000 + n) m1). { apply (IH nm g (SUB _ (or_introl eq_refl)) (0xF000 + n) k en (0xF000 + k) m1 e1 E1 KK); [|exact I1]. intros x X. apply FN. eapply fin_below; [cbn [fFolders]; apply SUB; left; reflexivity|exact X]. }
        destruct (IHl (fun x X => SUB x (or_intror X)) m1 _ _ _ _ (q + (1 + (zlen nm + 2))) E3 RE ltac:(lia) ltac:(lia) ltac:(lia) Q2) as (m2 & -> & DD). exists m2. split; [reflexivity|].
        apply (di_folder d N n q k (zlen nm) m1); [lia|lia|exact Q5|exact LG|]. replace (q + 1 + zlen nm + 2) with (q + (1 + (zlen nm + 2))) by lia. replace (q + (1 + (zlen nm + 2) + zlen t')) with (q + (1 + (zlen nm + 2)) + zlen t') by lia. exact DD. }
    replace (0xF000 + n + 1) with (0xF000 + (n + 1)) in ES by lia.
    destruct (G l (fun _ X => X) (n + 1) _ _ _ _ (o + zlen (concat t1)) ES ltac:(intros x X; apply R, in_or_app; left; exact X) ltac:(lia) ltac:(lia) ltac:(lia) P2) as (m' & EM & DD). assert (m' = m) as -> by lia.
    apply (la_folder d N n p m (o + zlen (concat t1)) (o + zlen (concat t1) + zlen t2)); [lia|symmetry; exact HP| |exact DD|lia| |lia].
    - apply (files_laid files); [apply (FN _ (fin_here _))|exact EF|lia|lia|exact P1].
    - rewrite part_one in P3 by lia. injection P3 as P3. exact P3.
  Qed.
End Back.

Lemma hdrs_at l data l1 e l2 : data = hdrs (8 * zlen l) l ++ concat (map etab l) -> l = l1 ++ e :: l2 -> Forall hdr_ok l ->
  8 * zlen l + zlen (concat (map etab l1)) < 2 ^ 32 ->
  word data (8 * zlen l1) = 8 * zlen l + zlen (concat (map etab l1)) /\ half data (8 * zlen l1 + 4) = fst (fst (snd e)) /\ half data (8 * zlen l1 + 6) = snd (fst (snd e)) /\
  part data (8 * zlen l + zlen (concat (map etab l1))) (zlen (etab e)) = etab e /\ 8 * zlen l + zlen (concat (map etab l1)) + zlen (etab e) + zlen (concat (map etab l2)) = zlen data.
Proof.
  intros ED E HO HB. assert (He : hdr_ok e) by (rewrite Forall_forall in HO; apply HO; rewrite E; apply in_or_app; right; left; reflexivity).
  remember (8 * zlen l) as T eqn:ET. assert (LT : zlen l = zlen l1 + 1 + zlen l2) by (rewrite E, zlen_app, zlen_cons; lia).
  rewrite E in ED. rewrite zlen_hdrs_app in ED. rewrite map_app, concat_app in ED. cbn [map concat] in ED.
  destruct e as [k [[i par] tab]]. cbn [hdrs] in ED. change (etab (k, (i, par, tab))) with tab in *. cbn [fst snd].
  pose proof (zlen_nonneg l1). pose proof (zlen_nonneg l2). cbn [hdr_ok] in He. destruct He as [Hi Hp].
  pose proof (zlen_nonneg (concat (map etab l1))). change (2 ^ 32) with 4294967296 in HB. pose proof (zlen_nonneg tab). pose proof (zlen_nonneg (concat (map etab l2))).
  assert (LH : zlen (hdrs T l1) = 8 * zlen l1) by apply zlen_hdrs.
  assert (LD : T + zlen (concat (map etab l1)) + zlen tab + zlen (concat (map etab l2)) = zlen data) by (rewrite ED, !zlen_app, !zlen_hdrs, !zlen_le; lia).
  assert (U1 : unpack_u 4 data (8 * zlen l1) = Ok (T + zlen (concat (map etab l1)))) by (rewrite ED, <- !app_assoc; rewrite unpack_u_skip by lia; apply unpack_u_hit; [lia|p256; lia]).
  assert (U2 : unpack_u 2 data (8 * zlen l1 + 4) = Ok i) by (rewrite ED, <- !app_assoc; rewrite unpack_u_skip by lia; rewrite unpack_u_skip by (rewrite zlen_le; lia); apply unpack_u_hit; [rewrite zlen_le; lia|p256; lia]).
  assert (U3 : unpack_u 2 data (8 * zlen l1 + 6) = Ok par) by (rewrite ED, <- !app_assoc; do 3 rewrite unpack_u_skip by (rewrite ?zlen_le; lia); apply unpack_u_hit; [rewrite !zlen_le; lia|p256; lia]).
  rewrite unpack_word in U1 by lia. rewrite unpack_half in U2, U3 by lia. injection U1 as U1. injection U2 as U2. injection U3 as U3.
  split; [exact U1|]. split; [exact U2|]. split; [exact U3|]. split; [|exact LD].
  set (pre := hdrs T l1 ++ (le 4 (T + zlen (concat (map etab l1))) ++ le 2 i ++ le 2 par ++ hdrs (T + zlen (concat (map etab l1)) + zlen tab) l2) ++ concat (map etab l1)).
  assert (LP : zlen pre = T + zlen (concat (map etab l1))) by (unfold pre; rewrite !zlen_app, !zlen_hdrs, !zlen_le; lia).
  assert (DP : data = pre ++ tab ++ concat (map etab l2)) by (rewrite ED; unfold pre; rewrite <- !app_assoc; reflexivity).
  rewrite <- LP, DP. unfold part. unfold zlen at 2. rewrite Nat2Z.id, skipn_app, Nat.sub_diag, skipn_all, skipn_O. cbn [app]. unfold zlen. rewrite Nat2Z.id, firstn_app, Nat.sub_diag, firstn_all, firstn_O, app_nil_r. reflexivity.
Qed.

Lemma saved_exact d f : is_bytes d -> files_named f -> save f = Ok d -> exact_names d.
Proof.
  intros B FN H. unfold save in H. rewrite countFoldersIn_eq in H. apply bind_ok in H as ([[rid n] ents] & EP & H). apply bind_ok in H as ([] & _ & H).
  destruct (parse_shape _ _ _ _ _ _ _ EP) as (-> & -> & new & EE & K). cbn [app] in EE. subst new.
  assert (HC : folder_count f <= 4096) by (pose proof (folder_count_pos f); apply parse_next_bound in EP; lia).
  set (L := sorted_entries ents) in *. assert (PL : Permutation L ents) by apply sorted_perm.
  assert (LNE : length ents = Z.to_nat (folder_count f)).
  { apply Permutation_length in K. rewrite map_length in K. rewrite K. pose proof (zlen_range_z 0xF000 (Z.to_nat (0xF000 + folder_count f - 0xF000))) as X. unfold zlen in X. lia. }
  assert (LL : length L = length ents) by (apply Permutation_length, PL).
  assert (KL : map key L = range_z 0xF000 (length L)).
  { apply ascending_range; [apply sorted_ascending|]. eapply Permutation_trans; [apply Permutation_map, PL|]. eapply Permutation_trans; [exact K|]. replace (length L) with (Z.to_nat (0xF000 + folder_count f - 0xF000)) by lia. apply Permutation_refl. }
  pose proof (folder_count_pos f) as CP. set (N := folder_count f) in *. assert (ZL : zlen L = N) by (unfold zlen; lia).
  replace (zlen ents * 8) with (8 * zlen L) in H by (unfold zlen; lia).
  rewrite <- (app_nil_r (zeros _)) in H. change (zeros (8 * zlen L) ++ []) with ([] ++ zeros (8 * zlen L) ++ []) in H.
  apply (write_inv L [] [] 0) in H; [|exact KL|reflexivity|lia|lia]. destruct H as (ED & HO & HB). cbn [app] in ED. change (zlen (@nil Z)) with 0 in *. rewrite Z.add_0_l, Z.add_0_r in *.
  assert (AT : forall l1 e l2, L = l1 ++ e :: l2 -> key e = 0xF000 + zlen l1 /\ word d (8 * zlen l1) = 8 * N + zlen (concat (map etab l1)) /\ half d (8 * zlen l1 + 4) = fst (fst (snd e)) /\ half d (8 * zlen l1 + 6) = snd (fst (snd e)) /\
    part d (8 * N + zlen (concat (map etab l1))) (zlen (etab e)) = etab e /\ 8 * N + zlen (concat (map etab l1)) + zlen (etab e) + zlen (concat (map etab l2)) = zlen d).
  { intros l1 e l2 E. split.
    - pose proof KL as HK. apply (f_equal (fun x => nth_error x (length l1))) in HK. rewrite nth_error_range_z in HK by (rewrite E, app_length; cbn [length]; lia).
      rewrite E, map_app, nth_error_app2 in HK by (rewrite map_length; lia). rewrite map_length, Nat.sub_diag in HK. cbn [map nth_error] in HK. injection HK as ->. reflexivity.
    - rewrite <- ZL. apply hdrs_at; [exact ED|exact E|exact HO|]. specialize (HB (length l1) ltac:(rewrite E, app_length; cbn [length]; lia)). replace (firstn (length l1) L) with l1 in HB by (rewrite E; symmetry; apply firstn_app_exact; reflexivity). lia. }
  assert (RW : forall e, In e ents -> is_row d N e).
  { intros e I. apply (Permutation_in _ (Permutation_sym PL)) in I. apply in_split in I as (l1 & l2 & E). destruct (AT _ _ _ E) as (A1 & A2 & A3 & A4 & A5 & A6).
    pose proof (zlen_nonneg l1). pose proof (zlen_nonneg l2). pose proof (zlen_nonneg (concat (map etab l1))). pose proof (zlen_nonneg (etab e)). pose proof (zlen_nonneg (concat (map etab l2))).
    assert (LT : N = zlen l1 + 1 + zlen l2) by (rewrite <- ZL, E, zlen_app, zlen_cons; lia).
    assert (NX : list_start d N (zlen l1 + 1) = 8 * N + zlen (concat (map etab l1)) + zlen (etab e)).
    { unfold list_start. destruct l2 as [|e2 l3].
      - change (zlen (@nil fentry)) with 0 in LT. replace (zlen l1 + 1 =? N) with true by lia. cbn [map concat] in A6. change (zlen (@nil Z)) with 0 in A6. lia.
      - rewrite zlen_cons in LT. pose proof (zlen_nonneg l3). replace (zlen l1 + 1 =? N) with false by lia. destruct (AT (l1 ++ [e]) e2 l3) as (_ & X & _); [rewrite <- app_assoc; exact E|].
        rewrite zlen_app in X. change (zlen [e]) with 1 in X. rewrite X, map_app, concat_app, zlen_app. cbn [map concat]. rewrite app_nil_r. lia. }
    exists (zlen l1). split; [lia|]. split; [rewrite A2; lia|]. split; [lia|]. unfold row. rewrite A2, A3, A4, NX. replace (8 * N + zlen (concat (map etab l1)) + zlen (etab e) - (8 * N + zlen (concat (map etab l1)))) with (zlen (etab e)) by lia. rewrite A5.
    destruct e as [k [[i p] t]]. unfold key in A1. cbn [fst snd] in *. rewrite <- A1. reflexivity. }
  assert (LA : laid d N 0 N N) by (apply (laid_back d N B f N 0 [] 0xF000 N ents); [exact EP|lia|exact FN|exact RW]).
  assert (HN : half d 6 = N) by (inversion LA; assumption).
  unfold exact_names. rewrite HN. split; [exact HC|].
  destruct L as [|e L'] eqn:EL; [change (zlen (@nil fentry)) with 0 in ZL; lia|]. destruct (AT [] e L' eq_refl) as (_ & A2 & _ & _ & _ & A6). cbn [map concat] in *. change (zlen (@nil fentry)) with 0 in *. change (zlen (@nil Z)) with 0 in *.
  pose proof (zlen_nonneg (etab e)). pose proof (zlen_nonneg (concat (map etab L'))). split; [lia|]. split; [change (8 * 0) with 0 in A2; lia|exact LA].
Qed.

(** ** a table in this form denotes a folder, whatever follows it *)
Lemma files_entries d o o1 : files_to d o o1 -> 0 <= o -> o1 < zlen d -> forall fo fi, entries d o1 fo fi -> exists fl, entries d o fo (fl ++ fi).
Proof.
  induction 1 as [o|o o' C F IH]; intros P L fo fi E; [exists []; exact E|]. destruct (IH ltac:(lia) L fo fi E) as (fl & E').
  exists (part d (o + 1) (byte d o) :: fl). pose proof (entries_in _ _ _ _ E'). cbn [app]. apply en_file; [lia|exact C|exact E'].
Qed.
Lemma files_le d o o1 : files_to d o o1 -> o <= o1.
Proof. induction 1 as [o|o o' C F IH]; lia. Qed.
Lemma laid_denotes d N : N <= 4096 -> 8 * N <= zlen d -> is_bytes d ->
  (forall n p m, laid d N n p m -> 0 <= n -> (exists f, denotes d n f) /\ n < m) /\
  (forall n o k e m, dirs d N n o k e m -> 0 <= k -> 0 <= o -> e < zlen d -> byte d e = 0 -> (exists fo, entries d o fo []) /\ k <= m).
Proof.
  intros L1 L2 B. apply laid_mutind.
  - intros n p m o e NN HP F D IH LE Z0 ST P. pose proof (word_range d (8 * n) B ltac:(lia) ltac:(lia)) as W. pose proof (files_le _ _ _ F) as FL. assert (O : 0 <= o) by lia.
    destruct (IH ltac:(lia) O LE Z0) as ((fo & E) & K). pose proof (entries_in _ _ _ _ E). destruct (files_entries d _ _ F ltac:(lia) ltac:(lia) fo [] E) as (fl & E'). split; [|lia]. eexists. constructor; [lia|lia|exact E'].
  - intros n o k K O LE Z0. split; [|lia]. exists []. constructor; [lia|exact Z0].
  - intros n o k len m1 e m C LL H LK IH1 D IH2 K O LE Z0. destruct (IH1 K) as ((g & DG) & M1). assert (KN : k < N) by (inversion LK; assumption).
    destruct (IH2 ltac:(lia) ltac:(lia) LE Z0) as ((fo & E) & M2). pose proof (entries_in _ _ _ _ E). split; [|lia].
    exists ((part d (o + 1) len, g) :: fo). apply en_dir; [lia|exact C|exact LL|lia| |exact E]. rewrite H.
    replace ((0xF000 + k) mod 4096) with k by (change 0xF000 with (15 * 4096); rewrite Z.add_comm, Z_mod_plus_full, Z.mod_small by lia; reflexivity). exact DG.
Qed.
Lemma exact_denotes d : is_bytes d -> exact_names d -> exists f, denotes d 0 f.
Proof. intros B (L1 & L2 & _ & LA). destruct (proj1 (laid_denotes d _ L1 L2 B) _ _ _ LA ltac:(lia)) as (H & _). exact H. Qed.

Lemma byte_app d t o : 0 <= o < zlen d -> byte (d ++ t) o = byte d o.
Proof. intro H. unfold byte, zlen in *. apply app_nth1. lia. Qed.
Lemma part_app d t o n : 0 <= o -> 0 <= n -> o + n <= zlen d -> part (d ++ t) o n = part d o n.
Proof. intros O P H. unfold part, zlen in *. rewrite skipn_app, firstn_app, skipn_length. replace (Z.to_nat n - (length d - Z.to_nat o))%nat with 0%nat by lia. rewrite firstn_O, app_nil_r. reflexivity. Qed.
Lemma denotes_app d t : is_bytes d -> (forall n f, denotes d n f -> denotes (d ++ t) n f) /\ (forall o fo fi, entries d o fo fi -> entries (d ++ t) o fo fi).
Proof.
  intro B. pose proof (zlen_nonneg t). apply (denotes_mutind d (fun n f _ => denotes (d ++ t) n f) (fun o fo fi _ => entries (d ++ t) o fo fi)).
  - intros n fo fi N L _ E. replace (half d (8 * n + 4)) with (half (d ++ t) (8 * n + 4)) by (unfold half; rewrite slice_app_l by lia; reflexivity).
    constructor; [lia|rewrite zlen_app; lia|]. replace (word (d ++ t) (8 * n)) with (word d (8 * n)) by (unfold word; rewrite slice_app_l by lia; reflexivity). exact E.
  - intros o O Z0. constructor; [rewrite zlen_app; lia|rewrite byte_app by lia; exact Z0].
  - intros o fo fi O C E0 E. pose proof (entries_in _ _ _ _ E0) as I. rewrite <- (part_app d t) by lia. rewrite <- (byte_app d t o) in * by lia. constructor; [rewrite zlen_app; lia|lia|exact E].
  - intros o len g fo fi O C LL L D0 D E0 E. rewrite <- (part_app d t) by lia. replace (half d (o + 1 + len)) with (half (d ++ t) (o + 1 + len)) in D by (unfold half; rewrite slice_app_l by lia; reflexivity).
    apply en_dir; [rewrite zlen_app; lia|rewrite byte_app by lia; exact C|exact LL|rewrite zlen_app; lia|exact D|exact E].
Qed.

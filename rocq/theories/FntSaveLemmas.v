(** * Proofs about filename tables: fnt.load / fnt.save *)
From Coq Require Import Permutation.
From Verif Require Import PyBase PyLemmas PyTac CommonModel FntModel FntSpec FntLemmas.

Fixpoint parseSubs (folderID : Z) (l : list (list Z * folder)) (next : Z) (ents : list fentry)
  : res (bytes * Z * list fentry) :=
  match l with
  | [] => Ok ([], next, ents)
  | (name, f) :: r =>
    ' (otherID, n1, e1) <- parseFolder f folderID next ents ;;
    h <- folderEntry name otherID ;;
    ' (t, n2, e2) <- parseSubs folderID r n1 e1 ;;
    Ok (h ++ t, n2, e2)
  end.
Lemma parseFolder_eq l files i parentID next ents : parseFolder (Folder l files i) parentID next ents =
  (t1 <- mapM fileEntry files ;;
   ' (t2, next', ents') <- parseSubs next l (next + 1) ents ;;
   Ok (next, next', ents' ++ [(next, (i, parentID, concat t1 ++ t2 ++ [0]))])).
Proof.
  cbn [parseFolder]. destruct (mapM fileEntry files) as [t1|]; [|reflexivity]. cbn [bind]. f_equal.
  generalize (next + 1). revert ents. induction l as [|[n f] l IH]; intros ents nx; [reflexivity|]. cbn [parseSubs].
  destruct (parseFolder f next nx ents) as [[[o n1] e1]|]; [|reflexivity]. cbn [bind].
  destruct (folderEntry n o); [|reflexivity]. cbn [bind]. rewrite IH. reflexivity.
Qed.

Definition sum := fold_right Z.add 0.
Lemma folder_count_eq l files i : folder_count (Folder l files i) = 1 + sum (map (fun p => folder_count (snd p)) l).
Proof. reflexivity. Qed.
Lemma countFoldersIn_eq f : countFoldersIn f = folder_count f.
Proof.
  induction f as [l files i IH] using folder_ind'. rewrite folder_count_eq. cbn [countFoldersIn].
  replace (fold_right (fun p n => countFoldersIn (snd p) + n) 0 l) with (sum (map (fun p => folder_count (snd p)) l)); [lia|].
  induction l as [|[n f] l IHl]; [reflexivity|]. cbn [map sum fold_right snd]. rewrite <- (IH n f) by (left; reflexivity).
  f_equal. apply IHl. intros m g Hg. apply (IH m g). right; exact Hg.
Qed.
Lemma folder_count_pos f : 1 <= folder_count f.
Proof.
  induction f as [l files i IH] using folder_ind'. rewrite folder_count_eq.
  assert (0 <= sum (map (fun p => folder_count (snd p)) l)); [|lia].
  induction l as [|[n f] l IHl]; [cbn; lia|]. cbn [map sum fold_right snd].
  specialize (IH n f (or_introl eq_refl)) as P. specialize (IHl (fun m g I => IH m g (or_intror I))). unfold sum in *. lia.
Qed.
Lemma subs_count_nonneg l : 0 <= sum (map (fun p : list Z * folder => folder_count (snd p)) l).
Proof.
  induction l as [|[n f] l IHl]; [cbn; lia|]. cbn [map sum fold_right snd]. pose proof (folder_count_pos f). unfold sum in *. lia.
Qed.

(** ** shape of what parseFolder produces *)
Definition key (e : fentry) := fst e.
Definition keys_range (new : list fentry) (a b : Z) := Permutation (map key new) (range_z a (Z.to_nat (b - a))).
Lemma keys_range_app a b c n1 n2 : a <= b -> b <= c -> keys_range n1 a b -> keys_range n2 b c -> keys_range (n1 ++ n2) a c.
Proof.
  unfold keys_range. intros. rewrite map_app. replace (Z.to_nat (c - a)) with (Z.to_nat (b - a) + Z.to_nat (c - b))%nat by lia.
  rewrite range_z_app. replace (a + Z.of_nat (Z.to_nat (b - a))) with b by lia. apply Permutation_app; assumption.
Qed.
Lemma keys_range_single e a : key e = a -> keys_range [e] a (a + 1).
Proof. unfold keys_range. intros <-. replace (Z.to_nat (key e + 1 - key e)) with 1%nat by lia. apply Permutation_refl. Qed.
Lemma keys_range_nil a : keys_range [] a a.
Proof. unfold keys_range. rewrite Z.sub_diag. apply Permutation_refl. Qed.

Lemma parse_shape d : forall par next ents id next' ents', parseFolder d par next ents = Ok (id, next', ents') ->
  id = next /\ next' = next + folder_count d /\ exists new, ents' = ents ++ new /\ keys_range new next next'.
Proof.
  induction d as [l files i IH] using folder_ind'. intros par next ents id next' ents'. rewrite parseFolder_eq, folder_count_eq.
  intros H. apply bind_ok in H as (t1 & _ & H). apply bind_ok in H as ([[t2 n2] e2] & ES & H). injection H as <- <- <-.
  assert (G : forall l', (forall x, In x l' -> In x l) -> forall nx en t2 n2 e2, parseSubs next l' nx en = Ok (t2, n2, e2) ->
    n2 = nx + sum (map (fun p => folder_count (snd p)) l') /\ exists new, e2 = en ++ new /\ keys_range new nx n2).
  { clear - IH. induction l' as [|[n f] l' IHl]; intros SUB nx en t2 n2 e2 H; cbn [parseSubs] in H.
    - injection H as <- <- <-. split; [cbn; lia|]. exists []. split; [symmetry; apply app_nil_r|apply keys_range_nil].
    - apply bind_ok in H as ([[o n1] e1] & E1 & H). apply bind_ok in H as (h & EH & H). apply bind_ok in H as ([[t n3] e3] & E3 & H).
      injection H as <- <- <-.
      destruct (IH n f (SUB _ (or_introl eq_refl)) _ _ _ _ _ _ E1) as (-> & -> & new1 & -> & K1).
      destruct (IHl (fun x I => SUB x (or_intror I)) _ _ _ _ _ E3) as (-> & new2 & -> & K2).
      split; [cbn [map sum fold_right snd]; unfold sum; lia|]. exists (new1 ++ new2). split; [symmetry; apply app_assoc|].
      pose proof (folder_count_pos f). pose proof (subs_count_nonneg l').
      eapply keys_range_app; [| |exact K1|exact K2]; lia. }
  destruct (G l (fun _ I => I) _ _ _ _ _ ES) as (-> & new & -> & K). split; [reflexivity|]. split; [lia|].
  exists (new ++ [(next, (i, par, concat t1 ++ t2 ++ [0]))]). split; [symmetry; apply app_assoc|].
  pose proof (subs_count_nonneg l). unfold keys_range. rewrite map_app.
  eapply Permutation_trans; [apply Permutation_app_comm|]. rewrite <- map_app.
  apply (keys_range_app next (next + 1)); [lia|lia|apply keys_range_single; reflexivity|exact K].
Qed.

Lemma folderEntry_inv n o b : folderEntry n o = Ok b ->
  name_ok n /\ 0 <= o < 65536 /\ b = Z.lor (zlen n) 0x80 :: n ++ le 2 o.
Proof.
  unfold folderEntry, encode_latin1. intros H. inv_bind. destruct (forallb byteb n) eqn:F; [|discriminate]. inv_bind. subst.
  apply forallb_byteb in F. p256. split; [|split]; [|assumption|reflexivity]. split; [lia|assumption].
Qed.
Lemma folderEntry_ok n o : name_ok n -> 0 <= o < 65536 -> folderEntry n o = Ok (Z.lor (zlen n) 0x80 :: n ++ le 2 o).
Proof.
  intros [L B] O. unfold folderEntry, encode_latin1. rewrite guard_true by lia. cbn [bind].
  rewrite (proj2 (forallb_byteb n) B). cbn [bind]. rewrite pack_u_ok by (p256; lia). reflexivity.
Qed.
Lemma fileEntry_inv n b : fileEntry n = Ok b -> name_ok n /\ b = zlen n :: n.
Proof.
  unfold fileEntry, encode_latin1. intros H. inv_bind. destruct (forallb byteb n) eqn:F; [|discriminate]. inv_bind. subst.
  apply forallb_byteb in F. split; [|reflexivity]. split; [lia|assumption].
Qed.
Lemma fileEntry_ok n : name_ok n -> fileEntry n = Ok (zlen n :: n).
Proof.
  intros [L B]. unfold fileEntry, encode_latin1. rewrite guard_true by lia. cbn [bind].
  rewrite (proj2 (forallb_byteb n) B). reflexivity.
Qed.

(** folder IDs are 16-bit as soon as there is a subfolder *)
Lemma parse_next_bound d : forall par next ents id next' ents', parseFolder d par next ents = Ok (id, next', ents') ->
  next' <= 65536 \/ next' = next + 1.
Proof.
  induction d as [l files i IH] using folder_ind'. intros par next ents id next' ents'. rewrite parseFolder_eq. intros H.
  apply bind_ok in H as (t1 & _ & H). apply bind_ok in H as ([[t2 n2] e2] & ES & H). injection H as <- <- <-.
  assert (G : forall l', (forall x, In x l' -> In x l) -> forall nx en t2 n2 e2, parseSubs next l' nx en = Ok (t2, n2, e2) -> n2 <= 65536 \/ n2 = nx).
  { clear - IH. induction l' as [|[n f] l' IHl]; intros SUB nx en t2 n2 e2 H; cbn [parseSubs] in H; [injection H as <- <- <-; right; reflexivity|].
    apply bind_ok in H as ([[o n1] e1] & E1 & H). apply bind_ok in H as (h & EH & H). apply bind_ok in H as ([[t n3] e3] & E3 & H).
    injection H as <- <- <-. destruct (parse_shape _ _ _ _ _ _ _ E1) as (-> & _ & _). apply folderEntry_inv in EH as (_ & B & _).
    apply (IH n f (SUB _ (or_introl eq_refl))) in E1. apply IHl in E3; [|intros; apply SUB; right; assumption]. lia. }
  apply (G l (fun _ I => I)) in ES. exact ES.
Qed.

Ltac assoc_refl := repeat (rewrite <- ?app_assoc; cbn [app]); reflexivity.
(** ** reading the entry tables back *)
Definition stored (data : bytes) (e : fentry) : Prop :=
  let '(k, (i, par, tab)) := e in
  exists pre post, unpack_u 4 data (8 * Z.land k 0xFFF) = Ok (zlen pre) /\
    unpack_u 2 data (8 * Z.land k 0xFFF + 4) = Ok i /\ unpack_u 2 data (8 * Z.land k 0xFFF + 6) = Ok par /\ data = pre ++ tab ++ post.

Lemma ctl_byte c rest pre : is_byte c -> unpack_u 1 (pre ++ c :: rest) (zlen pre) = Ok c.
Proof.
  intros H. red in H. rewrite unpack_u_skip by lia. rewrite Z.sub_diag.
  change (c :: rest) with ([c] ++ rest). replace [c] with (le 1 c) by (cbn [le]; rewrite Z.mod_small by lia; reflexivity).
  apply unpack_u_hit; [reflexivity|p256; lia].
Qed.
Lemma file_ctl n : 0 < n <= 127 -> Z.land n 0x7F = n /\ Z.land n 0x80 = 0.
Proof.
  intros H. assert (S : (Z.land n 0x7F =? n) && (Z.land n 0x80 =? 0) = true).
  { assert (0 <= n < 128) as H' by lia.
    exact (sweep 128 (fun n => (Z.land n 0x7F =? n) && (Z.land n 0x80 =? 0)) ltac:(vm_compute; reflexivity) n H'). }
  apply andb_prop in S. lia.
Qed.
Lemma folder_ctl n : 0 <= n <= 127 -> Z.lor n 0x80 = n + 128 /\ Z.land (Z.lor n 0x80) 0x7F = n /\ Z.land (Z.lor n 0x80) 0x80 = 128.
Proof.
  intros H. assert (0 <= n < 128) as H' by lia.
  pose proof (sweep 128 (fun n => (Z.lor n 0x80 =? n + 128) && (Z.land (Z.lor n 0x80) 0x7F =? n) && (Z.land (Z.lor n 0x80) 0x80 =? 128)) ltac:(vm_compute; reflexivity) n H') as S.
  cbv beta in S. apply andb_prop in S as [S S3]. apply andb_prop in S as [S1 S2]. lia.
Qed.

Lemma load_files rec files : forall t1 k pre rest fo fi, mapM fileEntry files = Ok t1 -> Forall (fun n => n <> []) files ->
  loadEntries rec (pre ++ concat t1 ++ rest) (length files + k) (zlen pre) fo fi =
  loadEntries rec (pre ++ concat t1 ++ rest) k (zlen (pre ++ concat t1)) fo (fi ++ files).
Proof.
  induction files as [|n files IH]; intros t1 k pre rest fo fi H NE; cbn [mapM] in H; inv_bind; subst.
  - cbn [concat app length Nat.add]. rewrite !app_nil_r. reflexivity.
  - apply fileEntry_inv in E as [[L B] ->]. inversion NE as [|? ? Hn NE']; subst.
    assert (0 < zlen n) by (destruct n; [congruence|rewrite zlen_cons; pose proof (zlen_nonneg n); lia]).
    destruct (file_ctl (zlen n) ltac:(lia)) as [C1 C2].
    cbn [length Nat.add concat loadEntries]. cbn [app]. rewrite ctl_byte by (red; lia). cbn [bind].
    replace (zlen n =? 0) with false by lia. cbv zeta. rewrite C1, C2. cbn [negb Z.eqb].
    set (DATA := pre ++ zlen n :: (n ++ concat v0) ++ rest).
    assert (ED : DATA = (pre ++ zlen n :: n) ++ concat v0 ++ rest) by (unfold DATA; assoc_refl).
    replace (slice DATA (zlen pre + 1) (zlen pre + 1 + zlen n)) with n.
    2:{ rewrite ED, <- app_assoc. cbn [app]. change (zlen n :: n ++ concat v0 ++ rest) with ([zlen n] ++ n ++ concat v0 ++ rest).
        rewrite slice_skip by lia. rewrite slice_skip by (change (zlen [zlen n]) with 1; lia). rewrite slice_hit; [reflexivity| |]; change (zlen [zlen n]) with 1; lia. }
    rewrite ED. replace (zlen pre + 1 + zlen n) with (zlen (pre ++ zlen n :: n)) by (rewrite zlen_app, zlen_cons; lia).
    rewrite IH by assumption. f_equal; [f_equal|]; assoc_refl.
Qed.

Lemma load_subs rec l : forall folderID nx en t2 n2 e2 k pre rest fo fi,
  parseSubs folderID l nx en = Ok (t2, n2, e2) ->
  (forall n f id nx en id' n' e', In (n, f) l -> parseFolder f folderID nx en = Ok (id', n', e') -> (forall x, In x e' -> In x e2) -> id = id' -> rec id = Ok f) ->
  loadEntries rec (pre ++ t2 ++ rest) (length l + k) (zlen pre) fo fi =
  loadEntries rec (pre ++ t2 ++ rest) k (zlen (pre ++ t2)) (fo ++ l) fi.
Proof.
  induction l as [|[n f] l IH]; intros folderID nx en t2 n2 e2 k pre rest fo fi H HR; cbn [parseSubs] in H.
  - injection H as <- <- <-. cbn [length Nat.add app]. rewrite !app_nil_r. reflexivity.
  - apply bind_ok in H as ([[o n1] e1] & E1 & H). apply bind_ok in H as (h & EH & H). apply bind_ok in H as ([[t n3] e3] & E3 & H).
    injection H as <- <- <-. apply folderEntry_inv in EH as ([L B] & Ho & ->). pose proof (zlen_nonneg n).
    destruct (folder_ctl (zlen n) ltac:(lia)) as (C0 & C1 & C2).
    assert (SUB : forall x, In x e1 -> In x e3).
    { clear - E3. revert n1 e1 t n3 e3 E3. induction l as [|[m g] l IH]; intros n1 e1 t n3 e3 H x I; cbn [parseSubs] in H.
      - injection H as <- <- <-. exact I.
      - apply bind_ok in H as ([[o n2] e2] & E1 & H). apply bind_ok in H as (h & EH & H). apply bind_ok in H as ([[t' n4] e4] & E4 & H).
        injection H as <- <- <-. apply (IH _ _ _ _ _ E4). destruct (parse_shape _ _ _ _ _ _ _ E1) as (_ & _ & new & -> & _).
        apply in_or_app. left; exact I. }
    cbn [length Nat.add loadEntries].
    set (DATA := pre ++ ((Z.lor (zlen n) 128 :: n ++ le 2 o) ++ t) ++ rest).
    assert (ED : DATA = pre ++ [Z.lor (zlen n) 128] ++ n ++ le 2 o ++ t ++ rest) by (unfold DATA; assoc_refl).
    assert (ED2 : DATA = (pre ++ Z.lor (zlen n) 128 :: n ++ le 2 o) ++ t ++ rest) by (unfold DATA; assoc_refl).
    replace (unpack_u 1 DATA (zlen pre)) with (@Ok Z (Z.lor (zlen n) 128)).
    2:{ symmetry. rewrite ED. apply ctl_byte. red. lia. }
    cbn [bind]. replace (Z.lor (zlen n) 128 =? 0) with false by lia. cbv zeta. rewrite C1, C2. cbn [negb Z.eqb].
    change (zlen [Z.lor (zlen n) 128]) with 1 in *.
    replace (slice DATA (zlen pre + 1) (zlen pre + 1 + zlen n)) with n.
    2:{ rewrite ED. rewrite slice_skip by lia. rewrite slice_skip by (change (zlen [Z.lor (zlen n) 128]) with 1; lia).
        rewrite slice_hit; [reflexivity| |]; change (zlen [Z.lor (zlen n) 128]) with 1; lia. }
    replace (unpack_u 2 DATA (zlen pre + 1 + zlen n)) with (@Ok Z o).
    2:{ symmetry. rewrite ED. rewrite unpack_u_skip by lia. rewrite unpack_u_skip by (change (zlen [Z.lor (zlen n) 128]) with 1; lia).
        change (zlen [Z.lor (zlen n) 128]) with 1. rewrite unpack_u_skip by lia. rewrite unpack_u_hit by (p256; lia). reflexivity. }
    cbn [bind]. rewrite (HR n f o nx en o n1 e1); [|left; reflexivity|assumption|assumption|reflexivity]. cbn [bind].
    rewrite ED2. replace (zlen pre + 1 + zlen n + 2) with (zlen (pre ++ Z.lor (zlen n) 128 :: n ++ le 2 o)) by (rewrite zlen_app, zlen_cons, zlen_app, zlen_le; lia).
    rewrite (IH folderID n1 e1 t n3 e3); [|assumption|].
    + f_equal; [f_equal|]; assoc_refl.
    + intros m g id nx' en' id' n' e' I. eapply HR. right; exact I.
Qed.
Lemma height_below l files i n f : In (n, f) l -> (height f < height (Folder l files i))%nat.
Proof.
  intros I. cbn [height]. apply Nat.lt_succ_r. induction l as [|[m g] l IH]; [destruct I|]. cbn [map fold_right snd].
  destruct I as [I|I]; [injection I as -> ->; lia|]. specialize (IH I). lia.
Qed.
Lemma entries_fit files l : forall t1 folderID nx en t2 n2 e2, mapM fileEntry files = Ok t1 -> parseSubs folderID l nx en = Ok (t2, n2, e2) ->
  zlen files <= zlen (concat t1) /\ zlen l <= zlen t2.
Proof.
  intros t1 folderID nx en t2 n2 e2 H1 H2. split.
  - clear H2. revert t1 H1. induction files as [|n files IH]; intros t1 H; cbn [mapM] in H; inv_bind; subst; [apply Z.le_refl|].
    apply fileEntry_inv in E as [_ ->]. apply IH in E0. cbn [concat]. rewrite zlen_app, !zlen_cons. pose proof (zlen_nonneg n). lia.
  - clear H1. revert nx en t2 n2 e2 H2. induction l as [|[n f] l IH]; intros nx en t2 n2 e2 H; cbn [parseSubs] in H; [injection H as <- <- <-; apply Z.le_refl|].
    apply bind_ok in H as ([[o n1] e1] & E1 & H). apply bind_ok in H as (h & EH & H). apply bind_ok in H as ([[t n3] e3] & E3 & H).
    injection H as <- <- <-. apply folderEntry_inv in EH as (_ & _ & ->). apply IH in E3. rewrite zlen_app, !zlen_cons.
    pose proof (zlen_nonneg (n ++ le 2 o)). lia.
Qed.

Lemma parse_load d : forall par next ents id next' ents' data depth, parseFolder d par next ents = Ok (id, next', ents') ->
  files_named d -> (forall e, In e ents' -> stored data e) -> (height d <= depth)%nat -> loadFolder depth data id = Ok d.
Proof.
  induction d as [l files i IH] using folder_ind'. intros par next ents id next' ents' data depth. rewrite parseFolder_eq.
  intros H NE ST HD. apply bind_ok in H as (t1 & EF & H). apply bind_ok in H as ([[t2 n2] e2] & ES & H). injection H as <- <- <-.
  destruct depth as [|depth]; [cbn [height] in HD; lia|].
  assert (S0 : stored data (next, (i, par, concat t1 ++ t2 ++ [0]))) by (apply ST, in_or_app; right; left; reflexivity).
  destruct S0 as (pre & post & R1 & R2 & _ & ED). cbn [loadFolder]. rewrite R1. cbn [bind]. rewrite R2. cbn [bind].
  destruct (entries_fit files l _ _ _ _ _ _ _ EF ES) as [F1 F2].
  assert (EN : exists k, S (length data) = (length files + (length l + S k))%nat).
  { exists (length data - length files - length l)%nat. apply (f_equal zlen) in ED. rewrite !zlen_app in ED. change (zlen [0]) with 1 in ED.
    pose proof (zlen_nonneg pre). pose proof (zlen_nonneg post). unfold zlen in *. lia. }
  destruct EN as [k ->].
  assert (NF : Forall (fun n => n <> []) files) by (apply (NE (Folder l files i)); constructor).
  rewrite ED. rewrite <- !app_assoc. rewrite (load_files _ files t1 _ pre (t2 ++ [0] ++ post)) by assumption.
  rewrite (app_assoc pre). rewrite (load_subs _ l next (next + 1) ents t2 n2 e2); [|assumption|].
  - cbn [app]. cbn [loadEntries]. rewrite (app_assoc _ t2). change (([0] ++ post)) with (0 :: post). rewrite ctl_byte by (red; lia). cbn [bind Z.eqb]. reflexivity.
  - intros n f id' nx en id2 n' e' I EP SUB ->. rewrite <- app_assoc.
    replace (pre ++ concat t1 ++ t2 ++ [0] ++ post) with data by (rewrite ED, <- !app_assoc; reflexivity).
    eapply IH; [exact I|exact EP| | |].
    + eapply files_named_below; [|exact NE]. exact I.
    + intros e He. apply ST, in_or_app. left. apply SUB, He.
    + pose proof (height_below l files i n f I). lia.
Qed.

(** ** sorting *)
Lemma insert_key_perm e l : Permutation (insert_key e l) (e :: l).
Proof.
  induction l as [|x l IH]; [apply Permutation_refl|]. cbn [insert_key]. destruct (fst e <=? fst x); [apply Permutation_refl|].
  eapply Permutation_trans; [apply perm_skip, IH|]. apply perm_swap.
Qed.
Lemma sorted_perm l : Permutation (sorted_entries l) l.
Proof.
  induction l as [|e l IH]; [apply Permutation_refl|]. cbn [sorted_entries fold_right].
  eapply Permutation_trans; [apply insert_key_perm|]. apply perm_skip, IH.
Qed.
Inductive ascending : list fentry -> Prop :=
| asc_nil : ascending []
| asc_cons : forall e l, (forall x, In x l -> key e <= key x) -> ascending l -> ascending (e :: l).
Lemma insert_ascending e l : ascending l -> ascending (insert_key e l).
Proof.
  induction 1 as [|x l Hx HA IH]; cbn [insert_key].
  - constructor; [intros ? []|constructor].
  - destruct (fst e <=? fst x) eqn:E.
    + constructor; [|constructor; assumption]. intros y [<-|I]; [unfold key; lia|]. specialize (Hx y I). unfold key in *. lia.
    + constructor; [|assumption]. intros y I. apply (Permutation_in _ (insert_key_perm e l)) in I as [<-|I]; [unfold key; lia|]. apply Hx, I.
Qed.
Lemma sorted_ascending l : ascending (sorted_entries l).
Proof. induction l as [|e l IH]; [constructor|]. cbn [sorted_entries fold_right]. apply insert_ascending, IH. Qed.
Lemma ascending_range l : forall a n, ascending l -> Permutation (map key l) (range_z a n) -> map key l = range_z a n.
Proof.
  induction l as [|e l IH]; intros a n HA HP.
  - apply Permutation_nil in HP. rewrite HP. reflexivity.
  - destruct n as [|n]; [apply Permutation_sym, Permutation_nil in HP; discriminate|]. cbn [map range_z] in *.
    inversion HA as [|? ? Hmin HA']; subst.
    assert (E : key e = a).
    { assert (I1 : In (key e) (a :: range_z (a + 1) n)) by (eapply Permutation_in; [exact HP|left; reflexivity]).
      assert (I2 : In a (key e :: map key l)) by (eapply Permutation_in; [apply Permutation_sym, HP|left; reflexivity]).
      assert (a <= key e) by (destruct I1 as [->|I1]; [lia|]; apply in_range_z in I1; lia).
      assert (key e <= a); [|lia]. destruct I2 as [->|I2]; [lia|]. apply in_map_iff in I2 as (x & <- & I2). apply Hmin, I2. }
    rewrite E in *. f_equal. apply IH; [assumption|]. eapply Permutation_cons_inv; exact HP.
Qed.

(** ** the writing loop *)
Definition etab (e : fentry) : bytes := snd (snd e).
Fixpoint hdrs (off : Z) (l : list fentry) : bytes :=
  match l with
  | [] => []
  | (k, (i, par, tab)) :: r => le 4 off ++ le 2 i ++ le 2 par ++ hdrs (off + zlen tab) r
  end.
Lemma zlen_hdrs l : forall off, zlen (hdrs off l) = 8 * zlen l.
Proof.
  induction l as [|[k [[i par] tab]] l IH]; intros off; [reflexivity|]. cbn [hdrs]. rewrite !zlen_app, !zlen_le, IH, zlen_cons. lia.
Qed.
Lemma zlen_hdrs_app l1 l2 off : hdrs off (l1 ++ l2) = hdrs off l1 ++ hdrs (off + zlen (concat (map etab l1))) l2.
Proof.
  revert off. induction l1 as [|[k [[i par] tab]] l1 IH]; intros off.
  - cbn [app hdrs map concat]. rewrite Z.add_0_r. reflexivity.
  - cbn [app hdrs map concat]. rewrite IH, <- !app_assoc. unfold etab at 3. cbn [snd]. rewrite zlen_app, Z.add_assoc. reflexivity.
Qed.
Definition hdr_ok (e : fentry) := let '(k, (i, par, tab)) := e in 0 <= i < 65536 /\ 0 <= par < 65536.
Lemma key_off j : 0 <= j < 4096 -> 8 * Z.land (0xF000 + j) 0xFFF = 8 * j.
Proof. intros H. change 0xFFF with (2 ^ 12 - 1). rewrite land_mask by lia. change (2 ^ 12) with 4096. f_equal. rewrite <- (Z.mod_small j 4096) at 2 by lia. rewrite Z.add_mod by lia. change (0xF000 mod 4096) with 0. rewrite Z.add_0_l. apply Z.mod_mod. lia. Qed.
Lemma write_inv l : forall A B j data, foldM writeEntry (A ++ zeros (8 * zlen l) ++ B) l = Ok data ->
  map key l = range_z (0xF000 + j) (length l) -> zlen A = 8 * j -> 0 <= j -> j + zlen l <= 4096 ->
  data = A ++ hdrs (zlen A + 8 * zlen l + zlen B) l ++ B ++ concat (map etab l) /\ Forall hdr_ok l /\
  forall n, (n < length l)%nat -> zlen A + 8 * zlen l + zlen B + zlen (concat (map etab (firstn n l))) < 2 ^ 32.
Proof.
  induction l as [|[k [[i par] tab]] l IH]; intros A B j data H HK HA Hj HB.
  - cbn in H. injection H as <-. change (zlen (@nil fentry)) with 0. cbn [hdrs map concat seq length zeros rep Z.to_nat repeat Z.mul app]. rewrite !app_nil_r.
    split; [reflexivity|]. split; [constructor|]. intros n Hn. cbn [length] in Hn. lia.
  - cbn [foldM writeEntry] in H. apply bind_ok in H as (d & H & H'). apply bind_ok in H as (h & EH & H). apply bind_ok in H as (p & EP & H). injection H as <-.
    cbn [map length range_z] in HK. injection HK as -> HK. rewrite zlen_cons in *. pose proof (zlen_nonneg l).
    rewrite key_off in EP by lia.
    cbn [pack_us] in EH. inv_bind. subst. p256.
    remember (le 4 (zlen (A ++ zeros (8 * (1 + zlen l)) ++ B)) ++ le 2 i ++ le 2 par ++ []) as h eqn:Eh.
    assert (Lh : zlen h = 8) by (rewrite Eh, !zlen_app, !zlen_le; reflexivity).
    replace (zeros (8 * (1 + zlen l))) with (zeros 8 ++ zeros (8 * zlen l)) in EP.
    2:{ unfold zeros, rep. rewrite <- repeat_app. f_equal. lia. }
    rewrite <- app_assoc in EP. rewrite put_mid in EP by (rewrite ?zlen_zeros; lia). injection EP as <-.
    replace ((A ++ h ++ zeros (8 * zlen l) ++ B) ++ tab) with ((A ++ h) ++ zeros (8 * zlen l) ++ B ++ tab) in H' by (rewrite <- !app_assoc; reflexivity).
    apply (IH _ _ (j + 1)) in H'; [|rewrite HK; f_equal; lia|rewrite zlen_app; lia|lia|lia]. destruct H' as (-> & F1 & F2).
    rewrite !zlen_app, zlen_zeros in * by lia. rewrite Lh in *. split; [|split].
    + cbn [hdrs map concat]. unfold etab at 2. cbn [snd]. rewrite Eh. rewrite <- !app_assoc. cbn [app].
      replace (zlen A + 8 * (1 + zlen l) + zlen B) with (zlen A + (8 * (1 + zlen l) + zlen B)) by lia.
      replace (zlen A + 8 + 8 * zlen l + (zlen B + zlen tab)) with (zlen A + (8 * (1 + zlen l) + zlen B) + zlen tab) by lia. reflexivity.
    + constructor; [cbn; lia|assumption].
    + intros n Hn. change (2 ^ 32) with 4294967296. destruct n as [|n]; cbn [firstn map concat]; [change (zlen (@nil Z)) with 0; lia|].
      unfold etab at 1. cbn [snd]. rewrite zlen_app. cbn [length] in Hn. specialize (F2 n ltac:(lia)). change (2 ^ 32) with 4294967296 in F2. lia.
Qed.

Lemma hdrs_stored l data : data = hdrs (8 * zlen l) l ++ concat (map etab l) -> map key l = range_z 0xF000 (length l) -> zlen l <= 4096 ->
  Forall hdr_ok l -> (forall n, (n < length l)%nat -> 8 * zlen l + zlen (concat (map etab (firstn n l))) < 2 ^ 32) ->
  forall e, In e l -> stored data e.
Proof.
  intros ED HK HL HO HB e I. apply in_split in I as (l1 & l2 & E).
  assert (KE : key e = 0xF000 + zlen l1).
  { apply (f_equal (fun x => nth_error x (length l1))) in HK. rewrite nth_error_range_z in HK by (rewrite E, app_length; cbn [length]; lia).
    rewrite E, map_app, nth_error_app2 in HK by (rewrite map_length; lia). rewrite map_length, Nat.sub_diag in HK. cbn [map nth_error] in HK.
    injection HK as ->. reflexivity. }
  assert (He : hdr_ok e) by (rewrite Forall_forall in HO; apply HO; rewrite E; apply in_or_app; right; left; reflexivity).
  specialize (HB (length l1) ltac:(rewrite E, app_length; cbn [length]; lia)).
  replace (firstn (length l1) l) with l1 in HB by (rewrite E; symmetry; apply firstn_app_exact; reflexivity).
  remember (8 * zlen l) as T eqn:ET. assert (LT : zlen l = zlen l1 + 1 + zlen l2) by (rewrite E, zlen_app, zlen_cons; lia).
  rewrite E in ED. rewrite zlen_hdrs_app in ED. rewrite map_app, concat_app in ED. cbn [map concat] in ED.
  destruct e as [k [[i par] tab]]. unfold key in KE. cbn [fst] in KE. subst k. cbn [hdrs] in ED. unfold etab at 3 in ED. cbn [snd] in ED.
  pose proof (zlen_nonneg l1). pose proof (zlen_nonneg l2). cbn [hdr_ok] in He. destruct He as [Hi Hp].
  pose proof (zlen_nonneg (concat (map etab l1))). change (2 ^ 32) with 4294967296 in HB.
  unfold stored. rewrite key_off by lia.
  exists (hdrs T l1 ++ (le 4 (T + zlen (concat (map etab l1))) ++ le 2 i ++ le 2 par ++ hdrs (T + zlen (concat (map etab l1)) + zlen tab) l2) ++ concat (map etab l1)), (concat (map etab l2)).
  rewrite !zlen_app, !zlen_hdrs, !zlen_le.
  replace (8 * zlen l1 + (Z.of_nat 4 + (Z.of_nat 2 + (Z.of_nat 2 + 8 * zlen l2)) + zlen (concat (map etab l1)))) with (T + zlen (concat (map etab l1))) by lia.
  assert (LH : zlen (hdrs T l1) = 8 * zlen l1) by apply zlen_hdrs.
  rewrite ED, <- !app_assoc. split; [|split; [|split]].
  - rewrite unpack_u_skip by lia. apply unpack_u_hit; [lia|p256; lia].
  - rewrite unpack_u_skip by lia. rewrite unpack_u_skip by (rewrite zlen_le; lia). apply unpack_u_hit; [rewrite zlen_le; lia|p256; lia].
  - do 3 rewrite unpack_u_skip by (rewrite ?zlen_le; lia). apply unpack_u_hit; [rewrite !zlen_le; lia|p256; lia].
  - reflexivity.
Qed.

Lemma save_inv r data : save r = Ok data -> exists next' ents,
  parseFolder r (folder_count r) 0xF000 [] = Ok (0xF000, next', ents) /\ folder_count r <= 4096 /\
  (forall e, In e ents -> stored data e) /\ Forall hdr_ok ents /\
  zlen data = 8 * folder_count r + zlen (concat (map etab (sorted_entries ents))).
Proof.
  unfold save. rewrite countFoldersIn_eq. intros H. apply bind_ok in H as ([[rid n] ents] & EP & H). apply bind_ok in H as ([] & _ & H).
  destruct (parse_shape _ _ _ _ _ _ _ EP) as (-> & -> & new & EE & K). cbn [app] in EE. subst new.
  exists (0xF000 + folder_count r), ents. split; [exact EP|].
  assert (HC : folder_count r <= 4096) by (pose proof (folder_count_pos r); apply parse_next_bound in EP; lia). split; [exact HC|].
  set (L := sorted_entries ents) in *.
  assert (PL : Permutation L ents) by apply sorted_perm.
  assert (LN : length ents = Z.to_nat (folder_count r)).
  { apply Permutation_length in K. rewrite map_length in K. rewrite K. pose proof (zlen_range_z 0xF000 (Z.to_nat (0xF000 + folder_count r - 0xF000))) as Z. unfold zlen in Z. lia. }
  assert (LL : length L = length ents) by (apply Permutation_length, PL).
  assert (KL : map key L = range_z 0xF000 (length L)).
  { apply ascending_range; [apply sorted_ascending|]. eapply Permutation_trans; [apply Permutation_map, PL|].
    eapply Permutation_trans; [exact K|]. replace (length L) with (Z.to_nat (0xF000 + folder_count r - 0xF000)) by lia. apply Permutation_refl. }
  pose proof (folder_count_pos r).
  assert (ZL : zlen L = folder_count r) by (unfold zlen; lia).
  replace (zlen ents * 8) with (8 * zlen L) in H by (unfold zlen; lia).
  rewrite <- (app_nil_r (zeros _)) in H. change (zeros (8 * zlen L) ++ []) with ([] ++ zeros (8 * zlen L) ++ []) in H.
  apply (write_inv L [] [] 0) in H; [|exact KL|reflexivity|lia|lia]. destruct H as (ED & HO & HB). cbn [app] in ED.
  change (zlen (@nil Z)) with 0 in *. rewrite Z.add_0_l, Z.add_0_r in *.
  split; [|split].
  - intros e I. eapply hdrs_stored; [exact ED|exact KL|lia|exact HO| |eapply Permutation_in; [apply Permutation_sym, PL|exact I]].
    intros n0 Hn. specialize (HB n0 Hn). lia.
  - rewrite Forall_forall in *. intros e I. apply HO. eapply Permutation_in; [apply Permutation_sym, PL|exact I].
  - rewrite ED, zlen_app, zlen_hdrs, ZL. reflexivity.
Qed.

(** ** round trip *)
Lemma save_load r data depth : save r = Ok data -> files_named r -> (height r <= depth)%nat -> load depth data = Ok r.
Proof.
  intros H NE HD. apply save_inv in H as (n & ents & EP & _ & ST & _). unfold load. eapply parse_load; eassumption.
Qed.

(** ** when save succeeds *)
Lemma parse_names d : forall par next ents x, parseFolder d par next ents = Ok x ->
  forall g, folder_in g d -> Forall name_ok (fFiles g) /\ Forall (fun p => name_ok (fst p)) (fFolders g).
Proof.
  induction d as [l files i IH] using folder_ind'. intros par next ents x. rewrite parseFolder_eq.
  intros H. apply bind_ok in H as (t1 & EF & H). apply bind_ok in H as ([[t2 n2] e2] & ES & H). clear H x.
  assert (G : forall l', (forall x, In x l' -> In x l) -> forall nx en t2 n2 e2, parseSubs next l' nx en = Ok (t2, n2, e2) ->
     Forall (fun p => name_ok (fst p)) l' /\ forall n f, In (n, f) l' -> forall g, folder_in g f -> Forall name_ok (fFiles g) /\ Forall (fun p => name_ok (fst p)) (fFolders g)).
  { clear - IH. induction l' as [|[n f] l' IHl]; intros SUB nx en t2 n2 e2 H; cbn [parseSubs] in H; [split; [constructor|intros ? ? []]|].
    apply bind_ok in H as ([[o n1] e1] & E1 & H). apply bind_ok in H as (h & EH & H). apply bind_ok in H as ([[t n3] e3] & E3 & H).
    apply folderEntry_inv in EH as (NM & _ & _). destruct (IHl (fun x I => SUB x (or_intror I)) _ _ _ _ _ E3) as [F1 F2].
    split; [constructor; assumption|]. intros m g [I|I]; [injection I as <- <-|apply (F2 m g I)].
    eapply IH; [apply SUB; left; reflexivity|exact E1]. }
  destruct (G l (fun _ I => I) _ _ _ _ _ ES) as [F1 F2]. intros g Hg. inversion Hg as [|? n f I Hg']; subst.
  - cbn [fFiles fFolders]. split; [|exact F1].
    destruct (mapM_inv fileEntry name_ok (fun n => zlen n :: n) files t1 (fun x y => fileEntry_inv x y) EF) as [F _]. exact F.
  - cbn [fFolders] in I. eapply F2; eassumption.
Qed.
Lemma parse_first d : forall par next ents id n' e', parseFolder d par next ents = Ok (id, n', e') ->
  forall g, folder_in g d -> exists k p t, In (k, (fFirst g, p, t)) e'.
Proof.
  induction d as [l files i IH] using folder_ind'. intros par next ents id n' e'. rewrite parseFolder_eq.
  intros H. apply bind_ok in H as (t1 & EF & H). apply bind_ok in H as ([[t2 n2] e2] & ES & H). injection H as <- <- <-.
  assert (G : forall l', (forall x, In x l' -> In x l) -> forall nx en t2 n2 e2, parseSubs next l' nx en = Ok (t2, n2, e2) ->
     (forall x, In x en -> In x e2) /\ forall n f, In (n, f) l' -> forall g, folder_in g f -> exists k p t, In (k, (fFirst g, p, t)) e2).
  { clear - IH. induction l' as [|[n f] l' IHl]; intros SUB nx en t2 n2 e2 H; cbn [parseSubs] in H; [injection H as <- <- <-; split; [auto|intros ? ? []]|].
    apply bind_ok in H as ([[o n1] e1] & E1 & H). apply bind_ok in H as (h & EH & H). apply bind_ok in H as ([[t n3] e3] & E3 & H).
    injection H as <- <- <-. destruct (IHl (fun x I => SUB x (or_intror I)) _ _ _ _ _ E3) as [F1 F2].
    destruct (parse_shape _ _ _ _ _ _ _ E1) as (_ & _ & new & -> & _).
    split; [intros; apply F1, in_or_app; left; assumption|]. intros m g [I|I]; [injection I as <- <-|apply (F2 m g I)].
    intros g' Hg. destruct (IH n f (SUB _ (or_introl eq_refl)) _ _ _ _ _ _ E1 g' Hg) as (k & p & t' & X). exists k, p, t'. apply F1, X. }
  destruct (G l (fun _ I => I) _ _ _ _ _ ES) as [F1 F2]. intros g Hg. inversion Hg as [|? n f I Hg']; subst.
  - cbn [fFirst]. do 3 eexists. apply in_or_app. right; left; reflexivity.
  - cbn [fFolders] in I. destruct (F2 n f I g Hg') as (k & p & t & X). exists k, p, t. apply in_or_app. left; exact X.
Qed.
Lemma save_ok_tree r data : save r = Ok data -> tree_ok r /\ folder_count r <= 4096.
Proof.
  intros H. apply save_inv in H as (n & ents & EP & HC & _ & HO & _). split; [|exact HC]. intros g Hg.
  destruct (parse_names _ _ _ _ _ EP g Hg) as [F1 F2]. split; [exact F1|]. split; [exact F2|].
  destruct (parse_first _ _ _ _ _ _ _ EP g Hg) as (k & p & t & I). rewrite Forall_forall in HO. apply (HO _ I).
Qed.

Definition sizes (l : list fentry) := sum (map (fun e => zlen (etab e)) l).
Lemma sum_app a b : sum (a ++ b) = sum a + sum b.
Proof. induction a as [|x a IH]; [reflexivity|]. cbn [app sum fold_right]. unfold sum in *. lia. Qed.
Lemma sizes_app a b : sizes (a ++ b) = sizes a + sizes b.
Proof. unfold sizes. rewrite map_app. apply sum_app. Qed.
Lemma sizes_concat l : zlen (concat (map etab l)) = sizes l.
Proof. induction l as [|e l IH]; [reflexivity|]. cbn [map concat]. rewrite zlen_app, IH. reflexivity. Qed.
Lemma sizes_perm a b : Permutation a b -> sizes a = sizes b.
Proof. induction 1; unfold sizes in *; cbn [map sum fold_right] in *; unfold sum in *; lia. Qed.
Lemma zlen_files files t1 : mapM fileEntry files = Ok t1 -> zlen (concat t1) = sum (map (fun n => 1 + zlen n) files).
Proof.
  revert t1. induction files as [|n files IH]; intros t1 H; cbn [mapM] in H; inv_bind; subst; [reflexivity|].
  apply fileEntry_inv in E as [_ ->]. cbn [concat map sum fold_right]. rewrite zlen_app, zlen_cons, (IH _ E0). reflexivity.
Qed.
Lemma table_size_eq l files i : table_size (Folder l files i) =
  9 + sum (map (fun n => 1 + zlen n) files) + sum (map (fun p => 3 + zlen (fst p) + table_size (snd p)) l).
Proof. reflexivity. Qed.
(** sizes of all tables created *)
Lemma parse_sizes d : forall par next ents id n' e', parseFolder d par next ents = Ok (id, n', e') ->
  sizes e' + 8 * folder_count d = sizes ents + table_size d.
Proof.
  induction d as [l files i IH] using folder_ind'. intros par next ents id n' e'. rewrite parseFolder_eq, folder_count_eq, table_size_eq.
  intros H. apply bind_ok in H as (t1 & EF & H). apply bind_ok in H as ([[t2 n2] e2] & ES & H). injection H as <- <- <-.
  assert (G : forall l', (forall x, In x l' -> In x l) -> forall nx en t2 n2 e2, parseSubs next l' nx en = Ok (t2, n2, e2) ->
     sizes e2 + zlen t2 + 8 * sum (map (fun p => folder_count (snd p)) l') = sizes en + sum (map (fun p => 3 + zlen (fst p) + table_size (snd p)) l')).
  { clear - IH. induction l' as [|[n f] l' IHl]; intros SUB nx en t2 n2 e2 H; cbn [parseSubs] in H; [injection H as <- <- <-; cbn [map sum fold_right]; change (zlen (@nil Z)) with 0; lia|].
    apply bind_ok in H as ([[o n1] e1] & E1 & H). apply bind_ok in H as (h & EH & H). apply bind_ok in H as ([[t n3] e3] & E3 & H).
    injection H as <- <- <-. apply (IH n f (SUB _ (or_introl eq_refl))) in E1. apply (IHl (fun x I => SUB x (or_intror I))) in E3.
    apply folderEntry_inv in EH as (_ & _ & ->). cbn [map sum fold_right fst snd]. rewrite zlen_app, zlen_cons, zlen_app, zlen_le. unfold sum in *. lia. }
  apply (G l (fun _ I => I)) in ES. rewrite sizes_app. unfold sizes at 2. cbn [map sum fold_right etab snd]. rewrite !zlen_app.
  rewrite (zlen_files _ _ EF). change (zlen [0]) with 1. lia.
Qed.
Lemma save_size r data : save r = Ok data -> zlen data = table_size r.
Proof.
  intros H. apply save_inv in H as (n & ents & EP & _ & _ & _ & ->). apply parse_sizes in EP.
  rewrite sizes_concat. rewrite (sizes_perm _ ents) by apply sorted_perm. unfold sizes at 2 in EP. cbn [map sum fold_right] in EP. lia.
Qed.

Lemma parse_ok d : forall par next ents, tree_ok d -> 0 <= next -> next + folder_count d <= 65536 -> 0 <= par < 65536 ->
  exists x new, parseFolder d par next ents = Ok (x, ents ++ new) /\ Forall hdr_ok new.
Proof.
  induction d as [l files i IH] using folder_ind'. intros par next ents OK H0 HC HP. rewrite parseFolder_eq. rewrite folder_count_eq in HC.
  destruct (OK (Folder l files i)) as (F1 & F2 & F3); [constructor|]. cbn [fFiles fFolders fFirst] in *.
  rewrite (mapM_map fileEntry (fun n => zlen n :: n)).
  2:{ intros n I. apply fileEntry_ok. rewrite Forall_forall in F1. apply F1, I. }
  cbn [bind].
  assert (HN : next < 65536) by (pose proof (subs_count_nonneg l); lia).
  assert (G : forall l', (forall x, In x l' -> In x l) -> forall nx en, 0 <= nx -> nx + sum (map (fun p => folder_count (snd p)) l') <= 65536 ->
     exists t2 n2 new, parseSubs next l' nx en = Ok (t2, n2, en ++ new) /\ Forall hdr_ok new).
  { clear - IH OK F2 H0 HN. induction l' as [|[n f] l' IHl]; intros SUB nx en Hnx Hs; cbn [parseSubs].
    - exists [], nx, []. rewrite app_nil_r. split; [reflexivity|constructor].
    - cbn [map sum fold_right snd] in Hs. pose proof (subs_count_nonneg l'). pose proof (folder_count_pos f).
      assert (I : In (n, f) l) by (apply SUB; left; reflexivity).
      destruct (IH n f I next nx en) as ([o n1] & new1 & E1 & F); [eapply tree_ok_below; [|exact OK]; exact I|lia|unfold sum in *; lia|lia|].
      rewrite E1. cbn [bind]. destruct (parse_shape _ _ _ _ _ _ _ E1) as (-> & -> & _).
      rewrite folderEntry_ok; [|rewrite Forall_forall in F2; apply (F2 _ I)|unfold sum in *; lia]. cbn [bind].
      destruct (IHl (fun x J => SUB x (or_intror J)) (nx + folder_count f) (en ++ new1)) as (t2 & n2 & new2 & E2 & F'); [lia|unfold sum in *; lia|].
      rewrite E2. cbn [bind]. do 2 eexists. exists (new1 ++ new2). rewrite app_assoc. split; [reflexivity|]. apply Forall_app; split; assumption. }
  destruct (G l (fun _ I => I) (next + 1) ents) as (t2 & n2 & new & ES & F); [lia|lia|]. rewrite ES. cbn [bind].
  eexists. eexists. rewrite <- app_assoc. split; [reflexivity|]. apply Forall_app. split; [exact F|]. constructor; [|constructor]. cbn. lia.
Qed.
Lemma write_ok l : forall A B j, map key l = range_z (0xF000 + j) (length l) -> zlen A = 8 * j -> 0 <= j -> j + zlen l <= 4096 ->
  Forall hdr_ok l -> zlen A + 8 * zlen l + zlen B + sizes l < 2 ^ 32 ->
  exists data, foldM writeEntry (A ++ zeros (8 * zlen l) ++ B) l = Ok data.
Proof.
  induction l as [|[k [[i par] tab]] l IH]; intros A B j HK HA Hj HB HO HS; [eexists; reflexivity|].
  cbn [map length range_z] in HK. unfold key at 1 in HK. cbn [fst] in HK. injection HK as -> HK. rewrite zlen_cons in *. pose proof (zlen_nonneg l).
  inversion HO as [|? ? Hh HO']; subst. cbn [hdr_ok] in Hh. unfold sizes in HS. cbn [map sum fold_right etab snd] in HS. fold (sizes l) in HS.
  assert (0 <= sizes l) by (rewrite <- sizes_concat; apply zlen_nonneg). pose proof (zlen_nonneg tab). pose proof (zlen_nonneg B). pose proof (zlen_nonneg A).
  change (2 ^ 32) with 4294967296 in *.
  cbn [foldM writeEntry]. cbn [pack_us].
  rewrite pack_u_ok by (rewrite !zlen_app, zlen_zeros by lia; p256; unfold sizes, sum in *; lia).
  rewrite !pack_u_ok by (p256; lia). cbn [bind]. rewrite key_off by lia.
  remember (le 4 (zlen (A ++ zeros (8 * (1 + zlen l)) ++ B)) ++ le 2 i ++ le 2 par ++ []) as h eqn:Eh.
  assert (Lh : zlen h = 8) by (rewrite Eh, !zlen_app, !zlen_le; reflexivity).
  replace (zeros (8 * (1 + zlen l))) with (zeros 8 ++ zeros (8 * zlen l)).
  2:{ unfold zeros, rep. rewrite <- repeat_app. f_equal. lia. }
  rewrite <- app_assoc, put_mid by (rewrite ?zlen_zeros; lia). cbn [bind].
  replace ((A ++ h ++ zeros (8 * zlen l) ++ B) ++ tab) with ((A ++ h) ++ zeros (8 * zlen l) ++ B ++ tab) by (rewrite <- !app_assoc; reflexivity).
  apply (IH _ _ (j + 1)); [rewrite HK; f_equal; lia|rewrite zlen_app; lia|lia|lia|assumption|].
  rewrite !zlen_app. unfold sizes, sum in *. lia.
Qed.
Lemma save_ok r : tree_ok r -> folder_count r <= 4096 -> table_size r < 2 ^ 32 -> exists data, save r = Ok data.
Proof.
  intros OK HC HS. pose proof (folder_count_pos r).
  destruct (parse_ok r (folder_count r) 0xF000 [] OK) as ([rid nn] & ents & EP & HO); [lia|lia|lia|]. cbn [app] in EP.
  unfold save. rewrite countFoldersIn_eq, EP. cbn [bind].
  pose proof (parse_sizes _ _ _ _ _ _ _ EP) as SZ. unfold sizes at 2 in SZ. cbn [map sum fold_right] in SZ.
  destruct (parse_shape _ _ _ _ _ _ _ EP) as (-> & -> & new & EE & K). cbn [app] in EE. subst new. rewrite Z.eqb_refl. cbn [guard bind].
  set (L := sorted_entries ents).
  assert (PL : Permutation L ents) by apply sorted_perm.
  assert (LN : length ents = Z.to_nat (folder_count r)).
  { apply Permutation_length in K. rewrite map_length in K. rewrite K. pose proof (zlen_range_z 0xF000 (Z.to_nat (0xF000 + folder_count r - 0xF000))) as Z. unfold zlen in Z. lia. }
  assert (LL : length L = length ents) by (apply Permutation_length, PL).
  assert (KL : map key L = range_z 0xF000 (length L)).
  { apply ascending_range; [apply sorted_ascending|]. eapply Permutation_trans; [apply Permutation_map, PL|].
    eapply Permutation_trans; [exact K|]. replace (length L) with (Z.to_nat (0xF000 + folder_count r - 0xF000)) by lia. apply Permutation_refl. }
  assert (ZL : zlen L = folder_count r) by (unfold zlen; lia).
  replace (zlen ents * 8) with (8 * zlen L) by (unfold zlen; lia).
  destruct (write_ok L [] [] 0) as [data E]; [exact KL|reflexivity|lia|lia| | |].
  - rewrite Forall_forall in *. intros e I. apply HO. eapply Permutation_in; [exact PL|exact I].
  - change (zlen (@nil Z)) with 0. rewrite (sizes_perm _ ents) by exact PL. lia.
  - rewrite app_nil_r in E. exists data. exact E.
Qed.

(** ** errors *)
Definition value_error (e : exc) : Prop := e = ValueError \/ e = UnicodeError.
Lemma mapM_file_err files e : mapM fileEntry files = Err e -> value_error e.
Proof.
  induction files as [|n files IH]; cbn [mapM]; [discriminate|]. intros H. apply bind_err in H as [H|(v & _ & H)].
  - unfold fileEntry, encode_latin1, guard in H. destruct (zlen n <=? 127); [|injection H as <-; left; reflexivity]. cbn [bind] in H.
    destruct (forallb byteb n); [discriminate|injection H as <-; right; reflexivity].
  - apply bind_err in H as [H|(w & _ & H)]; [apply IH, H|discriminate].
Qed.
Lemma parse_err d : forall par next ents e, 0 <= next -> next + folder_count d <= 65536 -> parseFolder d par next ents = Err e -> value_error e.
Proof.
  induction d as [l files i IH] using folder_ind'. intros par next ents e H0. rewrite parseFolder_eq, folder_count_eq. intros HC H.
  apply bind_err in H as [H|(t1 & EF & H)]; [apply mapM_file_err in H; exact H|].
  apply bind_err in H as [H|([[t2 n2] e2] & ES & H)]; [|discriminate].
  assert (G : forall l', (forall x, In x l' -> In x l) -> forall nx en, 0 <= nx -> nx + sum (map (fun p => folder_count (snd p)) l') <= 65536 ->
     parseSubs next l' nx en = Err e -> value_error e).
  { clear - IH. induction l' as [|[n f] l' IHl]; intros SUB nx en Hnx Hs H; cbn [parseSubs] in H; [discriminate|].
    cbn [map sum fold_right snd] in Hs. pose proof (subs_count_nonneg l'). pose proof (folder_count_pos f).
    apply bind_err in H as [H|([[o n1] e1] & E1 & H)]; [eapply IH; [apply SUB; left; reflexivity| | |exact H]; [lia|unfold sum in *; lia]|].
    destruct (parse_shape _ _ _ _ _ _ _ E1) as (-> & -> & _).
    apply bind_err in H as [H|(h & EH & H)].
    - unfold folderEntry, encode_latin1, guard in H. destruct (zlen n <=? 127); [|injection H as <-; left; reflexivity]. cbn [bind] in H.
      destruct (forallb byteb n); [|injection H as <-; right; reflexivity]. cbn [bind] in H. rewrite pack_u_ok in H; [discriminate|]. p256. unfold sum in *. lia.
    - apply bind_err in H as [H|([[t n3] e3] & E3 & H)]; [|discriminate]. eapply (IHl (fun x I => SUB x (or_intror I))); [| |exact H]; [lia|unfold sum in *; lia]. }
  eapply (G l (fun _ I => I)); [| |exact H]; lia.
Qed.
Definition has_long_name (r : folder) : Prop := exists g n, folder_in g r /\ 127 < zlen n /\ (In n (fFiles g) \/ In n (map fst (fFolders g))).
Lemma save_long_name r : has_long_name r -> exists e, save r = Err e /\ (folder_count r <= 4096 -> e = ValueError \/ e = UnicodeError).
Proof.
  intros (g & n & Hg & HL & HI).
  destruct (parseFolder r (folder_count r) 0xF000 []) as [x|e] eqn:EP.
  - exfalso. destruct (parse_names _ _ _ _ _ EP g Hg) as [F1 F2]. rewrite Forall_forall in *.
    destruct HI as [HI|HI]; [apply F1 in HI as [? _]; lia|]. apply in_map_iff in HI as (p & <- & HI). apply F2 in HI as [? _]. lia.
  - exists e. split; [unfold save; rewrite countFoldersIn_eq, EP; reflexivity|]. intros HC. eapply parse_err; [| |exact EP]; lia.
Qed.
Lemma save_errors r e : save r = Err e -> e = ValueError \/ e = UnicodeError \/ e = StructError.
Proof.
  unfold save. intros H.
  assert (PE : forall d par next ents e, parseFolder d par next ents = Err e -> value_error e \/ e = StructError).
  { clear. induction d as [l files i IH] using folder_ind'. intros par next ents e. rewrite parseFolder_eq. intros H.
    apply bind_err in H as [H|(t1 & EF & H)]; [left; apply mapM_file_err in H; exact H|].
    apply bind_err in H as [H|([[t2 n2] e2] & ES & H)]; [|discriminate].
    assert (G : forall l', (forall x, In x l' -> In x l) -> forall nx en, parseSubs next l' nx en = Err e -> value_error e \/ e = StructError).
    { clear - IH. induction l' as [|[n f] l' IHl]; intros SUB nx en H; cbn [parseSubs] in H; [discriminate|].
      apply bind_err in H as [H|([[o n1] e1] & E1 & H)]; [eapply IH; [apply SUB; left; reflexivity|exact H]|].
      apply bind_err in H as [H|(h & EH & H)].
      - unfold folderEntry, encode_latin1, guard in H. destruct (zlen n <=? 127); [|injection H as <-; left; left; reflexivity]. cbn [bind] in H.
        destruct (forallb byteb n); [|injection H as <-; left; right; reflexivity]. cbn [bind] in H. unfold pack_u, pack_e in H.
        destruct ((0 <=? o) && (o <? 256 ^ Z.of_nat 2)); [discriminate|]. injection H as <-. right; reflexivity.
      - apply bind_err in H as [H|([[t n3] e3] & E3 & H)]; [|discriminate]. eapply (IHl (fun x I => SUB x (or_intror I))); exact H. }
    eapply (G l (fun _ I => I)). exact H. }
  apply bind_err in H as [H|([[rid n] ents] & EP & H)].
  { apply PE in H as [[->| ->]| ->]; tauto. }
  destruct (parse_shape _ _ _ _ _ _ _ EP) as (-> & _ & _). rewrite Z.eqb_refl in H. cbn [guard bind] in H.
  assert (WE : forall l d, foldM writeEntry d l = Err e -> e = StructError).
  { clear. induction l as [|[k [[i par] tab]] l IH]; intros d H; cbn [foldM] in H; [discriminate|].
    apply bind_err in H as [H|(v & _ & H)]; [|eapply IH, H]. cbn [writeEntry] in H. apply bind_err in H as [H|(h & _ & H)].
    - cbn [pack_us] in H. unfold pack_u, pack_e in H.
      repeat match type of H with context [if ?c then _ else _] => destruct c; cbn [bind] in H end; congruence.
    - apply bind_err in H as [H|(v' & _ & H)]; [|discriminate]. unfold put, struct_off in H. 
      repeat match type of H with context [if ?c then _ else _] => destruct c; cbn [bind] in H end; congruence. }
  apply WE in H as ->. tauto.
Qed.

(** ** load terminates, and what it returns *)
Lemma loadEntries_fuel rec data n : forall off fo fi, 0 <= off -> zlen data - off < Z.of_nat n -> (0 < n)%nat ->
  (forall id, rec id <> Err OutOfFuel) -> loadEntries rec data n off fo fi <> Err OutOfFuel.
Proof.
  induction n as [|n IH]; intros off fo fi H0 HN Hp HR; [lia|]. cbn [loadEntries].
  destruct (unpack_u 1 data off) as [c|e] eqn:E; cbn [bind].
  2:{ unfold unpack_u, unpack_e, rd, struct_off in E. intros X. injection X as ->.
      repeat match type of E with context [if ?c then _ else _] => destruct c; cbn [bind] in E end; discriminate. }
  apply unpack_u_lt in E; [|assumption]. destruct (c =? 0); [discriminate|]. cbv zeta.
  pose proof (proj2 (Z.land_nonneg c 0x7F)) as LN. specialize (LN ltac:(right; lia)).
  destruct (negb (Z.land c 128 =? 0)).
  - destruct (unpack_u 2 data (off + 1 + Z.land c 127)) as [s|e] eqn:E2; cbn [bind].
    2:{ unfold unpack_u, unpack_e, rd, struct_off in E2. intros X. injection X as ->.
        repeat match type of E2 with context [if ?c then _ else _] => destruct c; cbn [bind] in E2 end; discriminate. }
    destruct (rec s) as [f|e] eqn:ER; cbn [bind]; [|intros X; injection X as ->; eapply HR; exact ER].
    apply unpack_u_lt in E2; [|lia]. destruct n as [|n]; [lia|]. apply IH; [lia|lia|lia|assumption].
  - destruct n as [|n]; [lia|]. apply IH; [lia|lia|lia|assumption].
Qed.
Lemma loadFolder_fuel depth data : is_bytes data -> forall id, loadFolder depth data id <> Err OutOfFuel.
Proof.
  intros B. induction depth as [|d IH]; intros id; cbn [loadFolder]; [discriminate|].
  destruct (unpack_u 4 data (8 * Z.land id 0xFFF)) as [o|e] eqn:E; cbn [bind].
  2:{ unfold unpack_u, unpack_e, rd, struct_off in E. intros X. injection X as ->.
      repeat match type of E with context [if ?c then _ else _] => destruct c; cbn [bind] in E end; discriminate. }
  destruct (unpack_u 2 data (8 * Z.land id 0xFFF + 4)) as [i|e] eqn:E2; cbn [bind].
  2:{ unfold unpack_u, unpack_e, rd, struct_off in E2. intros X. injection X as ->.
      repeat match type of E2 with context [if ?c then _ else _] => destruct c; cbn [bind] in E2 end; discriminate. }
  apply unpack_u_range in E; [|assumption].
  pose proof (loadEntries_fuel (loadFolder d data) data (S (length data)) o [] [] ltac:(lia) ltac:(unfold zlen; lia) ltac:(lia) IH) as F.
  destruct (loadEntries (loadFolder d data) data (S (length data)) o [] []) as [[fo fi]|e]; cbn [bind]; [discriminate|].
  intros X. apply F. congruence.
Qed.
Lemma loadEntries_inv rec data n : is_bytes data -> forall off fo fi l files, 0 <= off ->
  loadEntries rec data n off fo fi = Ok (l, files) ->
  exists l' files', l = fo ++ l' /\ files = fi ++ files' /\ Forall (fun x => name_ok x /\ x <> []) files' /\
    Forall (fun p => name_ok (fst p) /\ exists id, rec id = Ok (snd p)) l'.
Proof.
  intros B. induction n as [|n IH]; intros off fo fi l files H0 H; cbn [loadEntries] in H; [discriminate|].
  apply bind_ok in H as (c & E & H). pose proof (unpack_u_range _ _ _ _ B E) as RC. apply unpack_u_lt in E; [|assumption]. cbv zeta in H. destruct (c =? 0) eqn:EC.
  - injection H as <- <-. exists [], []. rewrite !app_nil_r. repeat split; constructor.
  - p256. assert (LB : 0 <= Z.land c 0x7F <= 127 /\ (Z.land c 0x80 = 0 -> 0 < Z.land c 0x7F)).
    { assert (RC' : 0 <= c < 256) by lia.
      pose proof (sweep 256 (fun c => (c =? 0) || ((0 <=? Z.land c 0x7F) && (Z.land c 0x7F <=? 127) && (negb (Z.land c 0x80 =? 0) || (0 <? Z.land c 0x7F)))) ltac:(vm_compute; reflexivity) c RC') as S.
      cbv beta in S. rewrite EC in S. cbn [orb] in S. apply andb_prop in S as [S1 S2]. apply andb_prop in S1 as [S1 S3].
      split; [lia|]. intros Z. rewrite Z in S2. cbn in S2. lia. }
    destruct LB as [LB LP].
    assert (NO : name_ok (slice data (off + 1) (off + 1 + Z.land c 0x7F))).
    { split; [|apply is_bytes_slice, B]. eapply Z.le_trans; [apply zlen_slice_le; lia|lia]. }
    destruct (negb (Z.land c 128 =? 0)) eqn:EF.
    + apply bind_ok in H as (s & E2 & H). apply bind_ok in H as (f & ER & H).
      apply IH in H as (l' & files' & -> & -> & F1 & F2); [|lia].
      exists ((slice data (off + 1) (off + 1 + Z.land c 127), f) :: l'), files'. rewrite <- app_assoc. repeat split; [assumption|].
      constructor; [|assumption]. cbn [fst snd]. split; [assumption|eauto].
    + assert (off + 1 + Z.land c 127 < zlen data).
      { destruct n as [|n]; [discriminate|]. cbn [loadEntries] in H. apply bind_ok in H as (c' & E' & _). apply unpack_u_lt in E'; lia. }
      apply IH in H as (l' & files' & -> & -> & F1 & F2); [|lia].
      exists l', (slice data (off + 1) (off + 1 + Z.land c 127) :: files'). rewrite <- app_assoc. repeat split; [|assumption].
      constructor; [|assumption]. split; [assumption|]. intros X. apply (f_equal zlen) in X. rewrite zlen_slice in X by lia.
      change (zlen (@nil Z)) with 0 in X. lia.
Qed.
Lemma load_ok depth data : is_bytes data -> forall id r, loadFolder depth data id = Ok r ->
  tree_ok r /\ files_named r /\ (height r <= depth)%nat.
Proof.
  intros B. induction depth as [|d IH]; intros id r H; cbn [loadFolder] in H; [discriminate|].
  apply bind_ok in H as (o & E1 & H). apply bind_ok in H as (i & E2 & H). apply bind_ok in H as ([l files] & E3 & H). injection H as <-.
  apply unpack_u_range in E1; [|assumption]. apply unpack_u_range in E2; [|assumption]. p256.
  apply loadEntries_inv in E3 as (l' & files' & -> & -> & F1 & F2); [|assumption|lia]. cbn [app].
  rewrite Forall_forall in F1, F2. split; [|split].
  - intros g Hg. inversion Hg as [|? n f I Hg']; subst.
    + cbn [folder_ok fFiles fFolders fFirst]. split; [|split]; cbn [fFiles fFolders fFirst]; [| |lia]; rewrite Forall_forall; intros x I; [apply F1|apply F2]; exact I.
    + cbn [fFolders] in I. destruct (F2 _ I) as [_ [id' R]]. cbn [snd] in R. apply IH in R as (T & _). apply T, Hg'.
  - intros g Hg. inversion Hg as [|? n f I Hg']; subst.
    + cbn [fFiles]. rewrite Forall_forall. intros x I. apply F1, I.
    + cbn [fFolders] in I. destruct (F2 _ I) as [_ [id' R]]. cbn [snd] in R. apply IH in R as (_ & T & _). apply T, Hg'.
  - cbn [height]. apply le_n_S. assert (HF : forall p, In p l' -> (height (snd p) <= d)%nat).
    { intros p I. destruct (F2 _ I) as [_ [id' R]]. apply IH in R. apply R. }
    clear - HF. induction l' as [|p l IH]; [cbn; lia|]. cbn [map fold_right]. apply Nat.max_lub; [apply HF; left; reflexivity|].
    apply IH. intros; apply HF; right; assumption.
Qed.
Lemma load_save_load depth data r : is_bytes data -> load depth data = Ok r -> folder_count r <= 4096 -> table_size r < 2 ^ 32 ->
  exists d', save r = Ok d' /\ load depth d' = Ok r.
Proof.
  intros B H HC HS. apply load_ok in H as (T & N & HH); [|assumption]. destruct (save_ok r T HC HS) as [d' S]. exists d'. split; [exact S|].
  apply save_load; assumption.
Qed.
Lemma save_ok_size r : tree_ok r -> folder_count r <= 4096 -> table_size r < 2 ^ 32 ->
  exists data, save r = Ok data /\ zlen data = table_size r.
Proof. intros T HC HS. destruct (save_ok r T HC HS) as [d S]. exists d. split; [exact S|apply save_size, S]. Qed.
Lemma load_fuel depth data : is_bytes data -> load depth data <> Err OutOfFuel.
Proof. intros B. apply loadFolder_fuel, B. Qed.
Lemma save_long r g n : folder_in g r -> (In n (fFiles g) \/ In n (map fst (fFolders g))) -> 127 < zlen n ->
  exists e, save r = Err e /\ (folder_count r <= 4096 -> e = ValueError \/ e = UnicodeError).
Proof. intros H1 H2 H3. apply save_long_name. exists g, n. auto. Qed.
Lemma save_too_many r : 4096 < folder_count r -> exists e, save r = Err e.
Proof. intros H. destruct (save r) as [d|e] eqn:E; [apply save_ok_tree in E; lia|eauto]. Qed.

(** ** boolean checks used by the examples *)
Fixpoint descendants (f : folder) : list folder :=
  f :: let 'Folder l _ _ := f in flat_map (fun p => descendants (snd p)) l.
Lemma descendants_in r g : folder_in g r -> In g (descendants r).
Proof.
  induction 1 as [|r n f I H IH]; [destruct g; left; reflexivity|]. destruct r as [l files i]. cbn [fFolders] in I. right.
  apply in_flat_map. exists (n, f). split; [exact I|exact IH].
Qed.
Lemma check_all (P : folder -> Prop) (b : folder -> bool) r : (forall g, b g = true -> P g) -> forallb b (descendants r) = true ->
  forall g, folder_in g r -> P g.
Proof. intros HB H g Hg. rewrite forallb_forall in H. apply HB, H, descendants_in, Hg. Qed.
Lemma forallb_Forall {A} (P : A -> Prop) (b : A -> bool) l : (forall x, b x = true -> P x) -> forallb b l = true -> Forall P l.
Proof. intros HB H. rewrite forallb_forall in H. rewrite Forall_forall. intros x I. apply HB, H, I. Qed.
Definition name_okb n := (zlen n <=? 127) && forallb byteb n.
Lemma name_okb_ok n : name_okb n = true -> name_ok n.
Proof. unfold name_okb, name_ok. intros H. apply andb_prop in H as [H1 H2]. split; [lia|apply forallb_byteb, H2]. Qed.
Definition folder_okb g := forallb name_okb (fFiles g) && forallb (fun p => name_okb (fst p)) (fFolders g) && (0 <=? fFirst g) && (fFirst g <? 65536).
Lemma tree_okb_ok r : forallb folder_okb (descendants r) = true -> tree_ok r.
Proof.
  intros H g Hg. revert g Hg. apply (check_all _ folder_okb); [|exact H]. intros g E. unfold folder_okb in E.
  apply andb_prop in E as [E E4]. apply andb_prop in E as [E E3]. apply andb_prop in E as [E1 E2]. split; [|split; [|lia]].
  - eapply forallb_Forall; [apply name_okb_ok|exact E1].
  - eapply forallb_Forall; [|exact E2]. intros; apply name_okb_ok; assumption.
Qed.
Lemma files_namedb_ok r : forallb (fun g => forallb (fun n => negb (beq n [])) (fFiles g)) (descendants r) = true -> files_named r.
Proof.
  intros H g Hg. revert g Hg. eapply check_all; [|exact H]. intros g E. eapply forallb_Forall; [|exact E].
  intros n X ->. discriminate.
Qed.
Definition path_nameb n := negb (beq n []) && forallb (fun c => negb (c =? 47)) n.
Lemma path_nameb_ok n : path_nameb n = true -> path_name n.
Proof.
  intros H. apply andb_prop in H as [H1 H2]. split; [intros ->; discriminate|]. intros I. rewrite forallb_forall in H2.
  specialize (H2 _ I). discriminate.
Qed.
Lemma paths_okb_ok r : forallb (fun g => forallb path_nameb (fFiles g) && forallb (fun p => path_nameb (fst p)) (fFolders g)) (descendants r) = true -> paths_ok r.
Proof.
  intros H g Hg. revert g Hg. eapply check_all; [|exact H]. intros g E. cbv beta in E. apply andb_prop in E as [E1 E2]. split.
  - eapply forallb_Forall; [apply path_nameb_ok|exact E1].
  - eapply forallb_Forall; [|exact E2]. intros; apply path_nameb_ok; assumption.
Qed.
Fixpoint nodupb {A} (eqb : A -> A -> bool) (l : list A) : bool :=
  match l with [] => true | x :: r => negb (existsb (eqb x) r) && nodupb eqb r end.
Lemma nodupb_ok {A} (eqb : A -> A -> bool) l : (forall x y, x = y -> eqb x y = true) -> nodupb eqb l = true -> NoDup l.
Proof.
  intros R. induction l as [|x l IH]; cbn [nodupb]; intros H; [constructor|]. apply andb_prop in H as [H1 H2]. constructor; [|apply IH, H2].
  intros I. assert (existsb (eqb x) l = true) by (apply existsb_exists; exists x; split; [exact I|apply R; reflexivity]).
  rewrite H in H1. discriminate.
Qed.
Lemma names_uniqueb_ok r : forallb (fun g => nodupb beq (fFiles g) && nodupb beq (map fst (fFolders g))) (descendants r) = true -> names_unique r.
Proof.
  intros H g Hg. revert g Hg. eapply check_all; [|exact H]. intros g E. cbv beta in E. apply andb_prop in E as [E1 E2].
  split; eapply nodupb_ok; try eassumption; intros ? ? ->; apply beq_refl.
Qed.
(** all (path, id) pairs of a tree *)
Fixpoint all_files (f : folder) : list (list (list Z) * Z) :=
  let 'Folder l files i := f in
  combine (map (fun n => [n]) files) (range_z i (length files)) ++
  flat_map (fun p => map (fun q => (fst p :: fst q, snd q)) (all_files (snd p))) l.
Lemma all_files_in r p id : file_at r p id -> In (p, id) (all_files r).
Proof.
  induction 1 as [r n i E|r n f p id I H IH]; destruct r as [l files j]; cbn [fFiles fFirst fFolders all_files] in *; apply in_or_app.
  - left. revert j i E. induction files as [|x files IHf]; intros j i E; [destruct i; discriminate|]. destruct i as [|i]; cbn [nth_error] in E.
    + injection E as ->. cbn. left. f_equal. lia.
    + right. replace (j + Z.of_nat (S i)) with (j + 1 + Z.of_nat i) by lia. apply IHf, E.
  - right. apply in_flat_map. exists (n, f). split; [exact I|]. apply in_map_iff. exists (p, id). split; [reflexivity|exact IH].
Qed.
Lemma ids_uniqueb_ok r : nodupb Z.eqb (map snd (all_files r)) = true -> ids_unique r.
Proof.
  intros H p p' id H1 H2. apply nodupb_ok in H; [|intros; apply Z.eqb_eq; assumption]. apply all_files_in in H1, H2.
  revert H H1 H2. generalize (all_files r). induction l as [|[q k] l IH]; intros ND I1 I2; [destruct I1|].
  cbn [map snd] in ND. inversion ND as [|? ? NI ND']; subst. destruct I1 as [I1|I1], I2 as [I2|I2].
  - congruence.
  - injection I1 as -> ->. exfalso. apply NI. change id with (snd (p', id)). apply in_map, I2.
  - injection I2 as -> ->. exfalso. apply NI. change id with (snd (p, id)). apply in_map, I1.
  - apply IH; assumption.
Qed.
Lemma empty_filename : exists r data, tree_ok r /\ save r = Ok data /\ load 5 data <> Ok r /\ load 5 data = Ok (Folder [] [[97]] 0).
Proof.
  exists (Folder [] [[97]; []; [98]] 0). eexists. split; [apply tree_okb_ok; reflexivity|].
  split; [vm_compute; reflexivity|]. split; vm_compute; [discriminate|reflexivity].
Qed.
(** trailing bytes (padding) after the table do not matter *)
Lemma stored_app data tail e : 0 <= key e -> stored data e -> stored (data ++ tail) e.
Proof.
  destruct e as [k [[i par] tab]]. intros _ (pre & post & H1 & H2 & H3 & ->).
  assert (0 <= Z.land k 0xFFF) by (apply Z.land_nonneg; right; lia).
  exists pre, (post ++ tail).
  assert (L3 := H3). apply unpack_u_lt in L3; [|lia].
  rewrite !(unpack_u_app_l _ (pre ++ tab ++ post) tail) by lia. rewrite <- !app_assoc. auto.
Qed.
Lemma save_load_tail r data tail depth : save r = Ok data -> files_named r -> (height r <= depth)%nat -> load depth (data ++ tail) = Ok r.
Proof.
  intros H NE HD. apply save_inv in H as (n & ents & EP & _ & ST & _). unfold load. eapply parse_load; [exact EP|assumption| |assumption].
  intros e I. apply stored_app; [|apply ST, I].
  destruct (parse_shape _ _ _ _ _ _ _ EP) as (_ & _ & new & EE & K). cbn [app] in EE. subst new.
  assert (In (key e) (range_z 0xF000 (Z.to_nat (n - 0xF000)))) by (eapply Permutation_in; [exact K|apply in_map, I]).
  apply in_range_z in H. lia.
Qed.

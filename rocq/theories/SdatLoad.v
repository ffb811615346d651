(** * Loading the entries of a saved sound archive *)
From Coq Require Import String.
From Verif Require Import PyBase PyLemmas PyTac AtLemmas CommonModel WaveModel WaveLemmas SeqModel SeqLemmas SsarModel SbnkModel RomLoad SdatModel SdatFiles SdatSymb SdatFat SdatSave.

Lemma at_rd D o b n j : at_ D o b -> n = zlen b -> j = o -> rd D j n = Ok b.
Proof. intros A -> ->. apply at_split in A as (u & w & -> & <-). rewrite rd_skip by lia. apply rd_hit; lia. Qed.
Lemma at_any D o b n j : at_ D o b -> zlen b = Z.of_nat n -> j = o -> exists v, unpack_u n D j = Ok v.
Proof. intros A L E. eexists. unfold unpack_u, unpack_e. rewrite (at_rd _ _ _ _ _ A (eq_sym L) E). reflexivity. Qed.
Lemma les_cons n v r : les ((n, v) :: r) = le n v ++ les r.
Proof. reflexivity. Qed.
Lemma les_nth D fs : forall o tail k n v j, at_ D o (les fs ++ tail) -> in_fields fs -> nth_error fs k = Some (n, v) ->
  j = o + fold_right (fun p n => Z.of_nat (fst p) + n) 0 (firstn k fs) -> unpack_u n D j = Ok v.
Proof.
  induction fs as [|[m w] fs IH]; intros o tail k n v j A F N J; [destruct k; discriminate|]. inversion F as [|? ? F1 F2]; subst. rewrite les_cons, <- app_assoc in A. destruct k as [|k].
  - injection N as -> ->. cbn [firstn fold_right] in *. eapply at_unpack; [exact A|exact F1|lia].
  - apply (proj1 (at_app _ _ _ _)) in A as [_ A]. rewrite zlen_le in A. eapply IH; [exact A|exact F2|exact N|]. cbn [firstn fold_right fst]. lia.
Qed.
Ltac field k := match goal with
  | A : at_ ?D ?o (les ?fs ++ _), F : in_fields ?fs |- bind (unpack_u ?n ?D ?j) _ = _ <-> _ =>
      let v := match eval cbn [nth_error] in (nth_error fs k) with Some (_, ?v) => v end in
      rewrite (les_nth D fs o _ k n v j A F eq_refl ltac:(cbn [firstn fold_right fst]; lia)); cbn [bind]
  end.

(** ** The tables of offsets *)
Definition placed (D : bytes) (b : bytes) (o : Z) : Prop := at_ D o b.
Lemma offsets_placed D io bs : forall pos, 0 <= io -> 0 < pos -> at_ D (io + pos) (bodies bs) ->
  Forall2 (opt_rel (placed D)) bs (map (fun o => if o =? 0 then None else Some (io + o)) (offsets pos bs)).
Proof.
  induction bs as [|[b|] bs IH]; intros pos I P A; cbn [offsets map]; [constructor| |].
  - unfold bodies in A. cbn [map concat] in A. apply at_app in A as [A1 A2]. pose proof (zlen_nonneg b). replace (pos =? 0) with false by lia. constructor; [exact A1|].
    apply IH; [assumption|lia|]. replace (io + (pos + zlen b)) with (io + pos + zlen b) by lia. exact A2.
  - constructor; [exact Logic.I|]. apply IH; assumption.
Qed.
Lemma info_offsets_ok D io pos bs : 0 <= io -> 0 < pos -> at_ D (io + pos) (part_bytes pos bs) -> part_ok pos bs ->
  exists offs, info_offsets D io pos = Ok offs /\ Forall2 (opt_rel (placed D)) bs offs.
Proof.
  intros I P A [L F]. unfold part_bytes in A. apply at_app in A as [A1 A]. apply at_app in A as [A2 A3]. rewrite zlen_le in *. change (Z.of_nat 4) with 4 in *.
  rewrite (zlen_concat_map _ _ 4), zlen_offsets in A3 by (intros; apply zlen_le). pose proof (zlen_nonneg bs). eexists. split.
  - unfold info_offsets. rewrite (at_u 4 _ _ _ _ A1) by (p256; lia). cbn [bind]. rewrite (at_rd _ _ _ _ _ A2); [|rewrite (zlen_concat_map _ _ 4), zlen_offsets by (intros; apply zlen_le); lia|lia].
    cbn [bind]. replace (Z.to_nat (zlen bs)) with (length (offsets (pos + 4 + 4 * zlen bs) bs)) by (apply Nat2Z.inj; fold (zlen (offsets (pos + 4 + 4 * zlen bs) bs)); rewrite zlen_offsets; lia).
    apply (mapM_table _ (fun o => if o =? 0 then None else Some (io + o))). intros a x b E. rewrite E in A2, F.
    destruct (concat_at (le 4) 4 a x b) as (C1 & C2 & _); [intros; apply zlen_le|]. rewrite C1 in A2. apply at_app in A2 as [_ A2]. apply at_app in A2 as [A2 _]. rewrite C2 in A2.
    apply Forall_app in F as [_ F]. inversion F; subst. rewrite (at_u 4 _ _ _ _ A2) by (p256; lia). reflexivity.
  - apply offsets_placed; [assumption|lia|]. replace (io + (pos + 4 + 4 * zlen bs)) with (io + pos + 4 + zlen bs * 4) by lia. exact A3.
Qed.
Lemma poss_length bss : forall pos, length (poss pos bss) = length bss.
Proof. induction bss as [|b bss IH]; intros pos; cbn [poss length]; [reflexivity|]. rewrite IH. reflexivity. Qed.
Lemma pbytes_at D base bss : forall pos i, at_ D (base + pos) (pbytes pos bss) -> parts_ok pos bss -> (i < length bss)%nat ->
  at_ D (base + nth i (poss pos bss) 0) (part_bytes (nth i (poss pos bss) 0) (nth i bss [])) /\ part_ok (nth i (poss pos bss) 0) (nth i bss []) /\ pos <= nth i (poss pos bss) 0.
Proof.
  induction bss as [|bs bss IH]; intros pos i A O L; cbn [length] in L; [lia|]. cbn [pbytes parts_ok poss] in *. destruct O as (O1 & O2 & O3). apply at_app in A as [A1 A2].
  destruct i as [|i]; cbn [nth]; [split; [exact A1|split; [exact O2|lia]]|]. rewrite <- Z.add_assoc in A2. pose proof (zlen_nonneg (part_bytes pos bs)). edestruct (IH _ i A2 O3) as (X & Y & Z0); [lia|]. split; [exact X|]. split; [exact Y|lia].
Qed.
Lemma poss_range bss : forall pos, parts_ok pos bss -> Forall (fun v => 0 <= v < 2 ^ 32) (poss pos bss).
Proof. induction bss as [|bs bss IH]; intros pos O; cbn [poss parts_ok] in *; [constructor|]. destruct O as (A & _ & C). constructor; [exact A|apply IH; exact C]. Qed.

Section Info.
  Variables (D : bytes) (io : Z) (bss : list (list (option bytes))).
  Hypotheses (A : at_ D io (info_bytes bss)) (PO : parts_ok 0x40 bss) (L8 : length bss = 8%nat).
  Lemma info_at : at_ D io (asc "INFO") /\ (exists v, unpack_u 4 D (io + 4) = Ok v) /\ at_ D (io + 8) (concat (map (le 4) (poss 0x40 bss))) /\ at_ D (io + 0x40) (pbytes 0x40 bss).
  Proof.
    unfold info_bytes in A. rewrite <- !app_assoc in A. apply at_app in A as [A1 A2]. apply at_app in A2 as [A2 A3]. rewrite zlen_le in *. change (zlen (asc "INFO")) with 4 in *. change (Z.of_nat 4) with 4 in *.
    apply at_app in A3 as [A3 A4]. apply at_app in A4 as [A4 A5]. rewrite (zlen_concat_map _ _ 4) in A5 by (intros; apply zlen_le). change (zlen (zeros 24)) with 24 in A5.
    assert (zlen (poss 64 bss) = 8) as E by (unfold zlen; rewrite poss_length; lia). rewrite E in A5. split; [exact A1|]. split; [|split].
    - apply (at_any _ _ _ _ _ A2); [apply zlen_le|reflexivity].
    - replace (io + 8) with (io + 4 + 4) by lia. exact A3.
    - replace (io + 64) with (io + 4 + 4 + 8 * 4 + 24) by lia. exact A5.
  Qed.
  Lemma infos_read : mapM (fun i => unpack_u 4 D (io + 8 + 4 * i)) (range_z 0 8) = Ok (poss 0x40 bss).
  Proof.
    destruct info_at as (_ & _ & H & _). rewrite <- L8, <- (poss_length bss 0x40). rewrite <- (map_id (poss 64 bss)) at 2. apply mapM_table. pose proof (poss_range _ _ PO) as F.
    intros a x b E. rewrite E in H, F. destruct (concat_at (le 4) 4 a x b) as (C1 & C2 & _); [intros; apply zlen_le|]. rewrite C1 in H. apply at_app in H as [_ H]. apply at_app in H as [H _]. rewrite C2 in H.
    apply Forall_app in F as [_ F]. inversion F; subst. eapply at_u; [exact H|p256; lia|lia].
  Qed.
  Lemma offs_read i : (i < 8)%nat -> exists offs, info_offsets D io (nth i (poss 0x40 bss) 0) = Ok offs /\ Forall2 (opt_rel (placed D)) (nth i bss []) offs.
  Proof.
    intros I. destruct info_at as (_ & _ & _ & P). destruct (pbytes_at D io bss 0x40 i P PO) as (X & Y & Z0); [lia|]. apply info_offsets_ok; try assumption; [destruct A; assumption|lia].
  Qed.
End Info.

(** ** One part *)
Definition same_names {A B} (R : A -> B -> Prop) (p : name * option A) (q : name * option B) : Prop := fst q = fst p /\ opt_rel R (snd p) (snd q).
Definition names_of {A} (l : list (name * option A)) (names : list name) : Prop :=
  names = map fst l \/ (names = [] /\ Forall (fun p : name * option A => fst p = None) l).
Lemma mapM_cons_iff {A B} (f : A -> res B) x l r : mapM f (x :: l) = Ok r <-> exists y r', f x = Ok y /\ mapM f l = Ok r' /\ r = y :: r'.
Proof.
  cbn [mapM]. split.
  - intros H. apply bind_ok in H as (y & E & H). apply bind_ok in H as (r' & E' & H). injection H as <-. exists y, r'. auto.
  - intros (y & r' & E & E' & ->). rewrite E. cbn [bind]. rewrite E'. reflexivity.
Qed.
Lemma Forall2_cons_iff' {A B} (R : A -> B -> Prop) x l r : Forall2 R (x :: l) r <-> exists y r', R x y /\ Forall2 R l r' /\ r = y :: r'.
Proof. split; [intros H; inversion H; subst; eauto|intros (y & r' & H & F & ->); constructor; assumption]. Qed.
(** the loop body *)
Definition one_of {A} (one : Z -> res A) (p : option (option Z) * option name) : res (name * option A) :=
  x <- match join (fst p) with None => Ok None | Some o => x <- one o ;; Ok (Some x) end ;; Ok (join (snd p), x).
Lemma one_of_iff {A B} (one : Z -> res B) (T : A -> bytes -> Prop) (R : A -> B -> Prop) D (n n' : name) x b o y :
  (forall x b o y, T x b -> at_ D o b -> (one o = Ok y <-> R x y)) -> opt_rel T x b -> opt_rel (placed D) b o -> join (Some n') = n ->
  forall nn, join nn = n -> (one_of one (Some o, nn) = Ok y <-> same_names R (n, x) y).
Proof.
  intros H X O E nn E'. unfold one_of, same_names. destruct y as [n2 y]. cbn [fst snd join] in *. destruct x as [x|], b as [b|]; try contradiction; destruct o as [o|]; try contradiction; cbn [opt_rel] in *.
  - split.
    + intros G. apply bind_ok in G as (q & G & G2). apply bind_ok in G as (q' & G & G3). injection G3 as <-. injection G2 as <- <-. split; [exact E'|]. apply (H x b o); assumption.
    + intros [-> G]. destruct y as [y|]; [|contradiction]. cbn [opt_rel] in G. apply (H x b o) in G; try assumption. rewrite G. cbn [bind]. rewrite E'. reflexivity.
  - cbn [bind]. split; [intros [= <- <-]; split; [exact E'|exact Logic.I]|]. intros [-> G]. destruct y; [contradiction|]. rewrite E'. reflexivity.
Qed.
Lemma load_part_iff {A B} (one : Z -> res B) (T : A -> bytes -> Prop) (R : A -> B -> Prop) D :
  (forall x b o y, T x b -> at_ D o b -> (one o = Ok y <-> R x y)) ->
  forall l bs offs names r, Forall2 (opt_rel T) (map snd l) bs -> Forall2 (opt_rel (placed D)) bs offs -> names_of l names ->
  (load_part one offs names = Ok r <-> Forall2 (same_names R) l r).
Proof.
  intros H. unfold load_part. fold (one_of one).
  induction l as [|[n x] l IH]; intros bs offs names r F G N; cbn [map] in F.
  - inversion F; subst. inversion G; subst. assert (names = []) as -> by (destruct N as [N|[N _]]; exact N). cbn [zip_longest mapM]. split; [intros [= <-]; constructor|]. intros X. inversion X. reflexivity.
  - inversion F as [|? b ? bs' F1 F2]; subst. inversion G as [|? o ? offs' G1 G2]; subst. rewrite Forall2_cons_iff'. destruct N as [->|[-> N]].
    + cbn [map zip_longest]. rewrite mapM_cons_iff. split; intros (y & r' & E1 & E2 & ->); exists y, r'; (split; [|split; [|reflexivity]]).
      * eapply one_of_iff in E1; [exact E1|exact H|exact F1|exact G1|reflexivity|reflexivity].
      * eapply IH; [exact F2|exact G2|left; reflexivity|exact E2].
      * eapply one_of_iff; [exact H|exact F1|exact G1|reflexivity|reflexivity|exact E1].
      * eapply IH; [exact F2|exact G2|left; reflexivity|exact E2].
    + inversion N as [|? ? N1 N2]; subst. cbn [fst] in N1. subst n. cbn [zip_longest]. rewrite mapM_cons_iff. split; intros (y & r' & E1 & E2 & ->); exists y, r'; (split; [|split; [|reflexivity]]).
      * eapply one_of_iff in E1; [exact E1|exact H|exact F1|exact G1|reflexivity|reflexivity].
      * eapply IH; [exact F2|exact G2|right; split; [reflexivity|exact N2]|exact E2].
      * eapply one_of_iff; [exact H|exact F1|exact G1|reflexivity|reflexivity|exact E1].
      * eapply IH; [exact F2|exact G2|right; split; [reflexivity|exact N2]|exact E2].
Qed.

(** ** The entries *)
(** [i] numbers the file [f] of an object with merge ID [m]; [v] is what the file is loaded from *)
Definition back (FS : files) (vs : list bytes) (f : bytes) (m i : Z) (v : bytes) : Prop :=
  0 <= i /\ nth_error FS (Z.to_nat i) = Some (f, m) /\ nth_error vs (Z.to_nat i) = Some v.
Lemma back_unique FS vs f m i v i' v' : NoDup FS -> back FS vs f m i v -> back FS vs f m i' v' -> i' = i /\ v' = v.
Proof.
  intros N (I & A & B) (I' & A' & B'). assert (Z.to_nat i = Z.to_nat i') as E. { eapply NoDup_nth_error; [exact N| |congruence]. apply nth_error_Some. congruence. }
  split; [lia|]. rewrite <- E in B'. congruence.
Qed.
Lemma get_nth {A} (l : list A) i x : 0 <= i -> nth_error l (Z.to_nat i) = Some x -> get l i = Ok x.
Proof. intros I N. apply nth_error_split in N as (a & b & -> & L). apply get_mid. unfold zlen. lia. Qed.

Definition seq_back (FS : files) (vs : list bytes) (x y : merged sseq) : Prop :=
  exists f info v, sseq_save (snd x) = Ok (f, info) /\ back FS vs f (fst x) (fst y) v /\ sseq_load v info = Ok (snd y).
Definition arch_back (FS : files) (vs : list bytes) (x y : merged ssar) : Prop :=
  exists f unk02 names v, ssar_save (snd x) = Ok (f, unk02, names) /\ back FS vs f (fst x) (fst y) v /\ ssar_load v unk02 (map fst (rSeqs (snd x))) = Ok (snd y).
Definition bank_back (order : list Z) (FS : files) (vs : list bytes) (x y : merged sbnk) : Prop :=
  exists f unk02 wars v, sbnk_save (snd x) = Ok (f, unk02, wars) /\ back FS vs f (fst x) (fst y) v /\
    sbnk_load order v unk02 (Some (map (fun w => match w with Some (-1) => None | w => w end) wars ++ repeat None (4 - length wars))) = Ok (snd y).
Definition war_back (FS : files) (vs : list bytes) (x y : merged swar) : Prop :=
  exists f unk02 v, swar_save (snd x) = Ok (f, unk02) /\ back FS vs f (fst x) (fst y) v /\ swar_load v unk02 = Ok (snd y).
Definition strm_back (FS : files) (vs : list bytes) (x y : merged strm) : Prop :=
  exists f info v, strm_save0 (snd x) = Ok (f, info) /\ back FS vs f (fst x) (fst y) v /\ strm_load v info = Ok (snd y).
Definition player_back (x y : player) : Prop :=
  let '(maxSequences, channels, heapSize) := x in y = (maxSequences, filter (fun j => existsb (Z.eqb j) channels) (range_z 0 16), heapSize).
Definition group_back (x y : list groupEntry) : Prop := y = x /\ Forall (fun g => 0 <= gType g < 4) x.
Definition splayer_back (x y : list Z) : Prop := y = x.

Lemma mask_step channels l : forall m, (forall j, 0 <= j -> In j l -> Z.testbit m j = false) -> Forall (fun j => 0 <= j) l -> NoDup l ->
  forall j, 0 <= j -> Z.testbit (fold_left (fun m j => if existsb (Z.eqb j) channels then Z.lor m (Z.shiftl 1 j) else m) l m) j = Z.testbit m j || (existsb (Z.eqb j) l && existsb (Z.eqb j) channels).
Proof.
  induction l as [|k l IH]; intros m M P N j J; cbn [fold_left existsb]; [rewrite orb_false_r; reflexivity|]. inversion P; subst. inversion N; subst.
  assert (B : forall j, 0 <= j -> Z.testbit (if existsb (Z.eqb k) channels then Z.lor m (Z.shiftl 1 k) else m) j = Z.testbit m j || ((j =? k) && existsb (Z.eqb j) channels)).
  { intros j' J'. destruct (existsb (Z.eqb k) channels) eqn:E.
    - rewrite Z.lor_spec, Z.shiftl_spec by lia. f_equal. destruct (j' =? k) eqn:K.
      + apply Z.eqb_eq in K. subst. rewrite Z.sub_diag, E. reflexivity.
      + cbn [andb]. destruct (Z.ltb_spec j' k); [apply Z.testbit_neg_r; lia|]. change 1 with (2 ^ 0). apply Z.pow2_bits_false. lia.
    - destruct (j' =? k) eqn:K; [apply Z.eqb_eq in K; subst; rewrite E; cbn [andb]|cbn [andb]]; rewrite orb_false_r; reflexivity. }
  rewrite IH; try assumption.
  - rewrite B by exact J. destruct (Z.testbit m j), (j =? k), (existsb (Z.eqb j) l), (existsb (Z.eqb j) channels); reflexivity.
  - intros j' J' I'. rewrite B by exact J'. rewrite M by (try right; assumption). cbn [orb]. assert (j' <> k) by congruence. replace (j' =? k) with false by lia. reflexivity.
Qed.
Lemma mask_bit channels j : 0 <= j < 16 -> negb (Z.land (Z.shiftr (channel_mask channels) j) 1 =? 0) = existsb (Z.eqb j) channels.
Proof.
  intros J. change 1 with (Z.ones 1). rewrite Z.land_ones by lia. change (2 ^ 1) with 2. rewrite <- Z.bit0_mod, Z.shiftr_spec by lia. rewrite Z.add_0_l.
  unfold channel_mask. rewrite mask_step; [|intros; apply Z.bits_0|repeat constructor; lia|cbn [range_z]; repeat (constructor; [cbn [In]; lia|]); constructor|lia]. rewrite Z.bits_0. cbn [orb].
  replace (existsb (Z.eqb j) (range_z 0 16)) with true; [destruct (existsb (Z.eqb j) channels); reflexivity|]. symmetry. apply existsb_exists. exists j. split; [apply in_range_z; lia|apply Z.eqb_refl].
Qed.

Section Entries.
  Variables (D : bytes) (FS : files) (vs : list bytes).
  Hypotheses (ND : NoDup FS) (LV : length vs = length FS).
  Lemma view i f m : nth_error FS i = Some (f, m) -> exists v, nth_error vs i = Some v.
  Proof.
    intros N. destruct (nth_error vs i) as [v|] eqn:E; [exists v; reflexivity|]. apply nth_error_None in E. assert (i < length FS)%nat by (apply nth_error_Some; congruence). lia.
  Qed.
  Lemma seq_load_iff x b o y : seq_at FS x b -> at_ D o b -> (load_seq D vs o = Ok y <-> seq_back FS vs x y).
  Proof.
    intros (f & u & bk & vl & cp & pp & pl & S & i & I & N & -> & F) A. unfold load_seq. destruct (view _ _ _ N) as (v & V).
    field 0%nat. field 1%nat. field 2%nat. field 3%nat. field 4%nat. field 5%nat. field 6%nat. rewrite (get_nth vs i v I V). cbn [bind].
    unfold seq_back. rewrite S. split.
    - intros H. apply bind_ok in H as (q & Q & H). injection H as <-. exists f, (u, bk, vl, cp, pp, pl), v. cbn [fst snd]. split; [reflexivity|]. split; [split; [exact I|split; assumption]|exact Q].
    - intros (f' & info & v' & [= <- <-] & B & Q). destruct (back_unique FS vs f (fst x) i v _ _ ND (conj I (conj N V)) B) as [E ->]. rewrite Q. cbn [bind]. destruct y as [yi yq]. cbn [fst snd] in *. rewrite E. reflexivity.
  Qed.
  Lemma war_load_iff x b o y : war_at FS x b -> at_ D o b -> (load_war D vs o = Ok y <-> war_back FS vs x y).
  Proof.
    intros (f & u & S & i & I & N & -> & F) A. unfold load_war. destruct (view _ _ _ N) as (v & V).
    field 0%nat. field 1%nat. rewrite (get_nth vs i v I V). cbn [bind].
    unfold war_back. rewrite S. split.
    - intros H. apply bind_ok in H as (q & Q & H). injection H as <-. exists f, u, v. cbn [fst snd]. split; [reflexivity|]. split; [split; [exact I|split; assumption]|exact Q].
    - intros (f' & info & v' & [= <- <-] & B & Q). destruct (back_unique FS vs f (fst x) i v _ _ ND (conj I (conj N V)) B) as [E ->]. rewrite Q. cbn [bind]. destruct y as [yi yq]. cbn [fst snd] in *. rewrite E. reflexivity.
  Qed.
  Lemma strm_load_iff x b o y : strm_at FS x b -> at_ D o b -> (load_strm D vs o = Ok y <-> strm_back FS vs x y).
  Proof.
    intros (f & u & vl & pr & pl & u7 & S & i & I & N & -> & F) A. unfold load_strm. destruct (view _ _ _ N) as (v & V).
    field 0%nat. field 1%nat. field 2%nat. field 3%nat. field 4%nat. field 5%nat. rewrite (get_nth vs i v I V). cbn [bind].
    unfold strm_back. rewrite S. split.
    - intros H. apply bind_ok in H as (q & Q & H). injection H as <-. exists f, (u, vl, pr, pl, u7), v. cbn [fst snd]. split; [reflexivity|]. split; [split; [exact I|split; assumption]|exact Q].
    - intros (f' & info & v' & [= <- <-] & B & Q). destruct (back_unique FS vs f (fst x) i v _ _ ND (conj I (conj N V)) B) as [E ->]. rewrite Q. cbn [bind]. destruct y as [yi yq]. cbn [fst snd] in *. rewrite E. reflexivity.
  Qed.
  Lemma ssar_load_names v u names names' : (forall i, nth i names None = nth i names' None) -> ssar_load v u names = ssar_load v u names'.
  Proof.
    intros E. unfold ssar_load. assert (X : forall l, mapM (fun i => s <- ssar_loadSeq v i ;; Ok (nth (Z.to_nat i) names None, s)) l = mapM (fun i => s <- ssar_loadSeq v i ;; Ok (nth (Z.to_nat i) names' None, s)) l).
    { induction l as [|i l IH]; cbn [mapM]; [reflexivity|]. rewrite IH, E. reflexivity. }
    destruct (guard (prefixb (asc "SSAR") v) ValueError); cbn [bind]; [|reflexivity]. destruct (std_unpack v) as [s|]; cbn [bind]; [|reflexivity]. destruct (guard (hVersion s =? 256) ValueError); cbn [bind]; [|reflexivity].
    destruct (guard (beq (hMagic s) (asc "SSAR")) AssertionError); cbn [bind]; [|reflexivity]. destruct (rd v 16 4) as [dm|]; cbn [bind]; [|reflexivity]. destruct (unpack_u 4 v 20); cbn [bind]; [|reflexivity].
    destruct (unpack_u 4 v 24); cbn [bind]; [|reflexivity]. destruct (unpack_u 4 v 28); cbn [bind]; [|reflexivity]. destruct (guard (beq dm (asc "DATA")) AssertionError); cbn [bind]; [|reflexivity]. rewrite X. reflexivity.
  Qed.
  Lemma nth_none (l : list name) : existsb is_some l = false -> forall i, nth i l None = None.
  Proof. induction l as [|[s|] l IH]; cbn [existsb is_some orb]; intros E i; [destruct i; reflexivity|discriminate|]. destruct i as [|i]; [reflexivity|]. exact (IH E i). Qed.
  Definition subs_for (x : merged ssar) (subs : list name) : Prop := subs = map fst (rSeqs (snd x)) \/ (subs = [] /\ existsb is_some (map fst (rSeqs (snd x))) = false).
  Lemma arch_load_iff x b o y subs : subs_for x subs -> arch_at FS x b -> at_ D o b -> (load_arch D vs subs o = Ok y <-> arch_back FS vs x y).
  Proof.
    intros U (f & u & names & S & i & I & N & -> & F) A. unfold load_arch. destruct (view _ _ _ N) as (v & V).
    field 0%nat. field 1%nat. rewrite (get_nth vs i v I V). cbn [bind].
    assert (X : ssar_load v u subs = ssar_load v u (map fst (rSeqs (snd x)))).
    { destruct U as [->|[-> E]]; [reflexivity|]. apply ssar_load_names. intros k. etransitivity; [|symmetry; exact (nth_none _ E k)]. destruct k; reflexivity. }
    rewrite X. unfold arch_back. rewrite S. split.
    - intros H. apply bind_ok in H as (q & Q & H). injection H as <-. exists f, u, names, v. cbn [fst snd]. split; [reflexivity|]. split; [split; [exact I|split; assumption]|exact Q].
    - intros (f' & u' & names' & v' & [= <- <- <-] & B & Q). destruct (back_unique FS vs f (fst x) i v _ _ ND (conj I (conj N V)) B) as [E ->]. rewrite Q. cbn [bind]. destruct y as [yi yq]. cbn [fst snd] in *. rewrite E. reflexivity.
  Qed.
  Lemma shorts_read o l : at_ D o (concat (map (fun v => le 2 (v mod 65536)) l)) -> Forall (fun v => - 0x8000 <= v < 0x8000) l ->
    mapM (fun k => unpack_s 2 D (o + 2 * k)) (range_z 0 (length l)) = Ok l.
  Proof.
    intros A F. rewrite <- (map_id l) at 2. apply mapM_table. intros a x b ->. destruct (concat_at (fun v => le 2 (v mod 65536)) 2 a x b) as (C1 & C2 & _); [intros; apply zlen_le|].
    rewrite C1 in A. apply at_app in A as [_ A]. apply at_app in A as [A _]. rewrite C2 in A. apply Forall_app in F as [_ F]. inversion F; subst.
    unfold unpack_s. rewrite (at_u 2 _ _ _ _ A) by (try (p256; apply Z.mod_pos_bound); lia). cbn [bind]. f_equal. apply (sign_of_mod 2); p256; lia.
  Qed.
  Lemma bank_load_iff order x b o y : bank_at FS x b -> at_ D o b -> (load_bank order D vs o = Ok y <-> bank_back order FS vs x y).
  Proof.
    intros (f & u & wars & S & L & W & i & I & N & -> & F) A. unfold load_bank. destruct (view _ _ _ N) as (v & V).
    field 0%nat. field 1%nat.
    pose proof A as A'. apply at_app in A' as [_ A']. change (zlen (les [(2%nat, i); (2%nat, u)])) with 4 in A'.
    assert (L4 : length (swar_ids wars) = 4%nat) by (pose proof (zlen_swar_ids wars) as E; unfold zlen in *; lia).
    pose proof (shorts_read _ _ A' W) as R. rewrite L4 in R. rewrite R. cbn [bind]. rewrite (get_nth vs i v I V). cbn [bind].
    assert (X : map (fun z => if z =? -1 then None else Some z) (swar_ids wars) = map (fun w => match w with Some (-1) => None | w => w end) wars ++ repeat None (4 - length wars)).
    { unfold swar_ids. rewrite map_app, map_map. f_equal.
      - apply map_ext. intros [w|]; [|reflexivity]. destruct (w =? -1) eqn:E; [apply Z.eqb_eq in E; subst; reflexivity|]. destruct w as [|p|[p|p|]]; try reflexivity. discriminate.
      - unfold rep. rewrite zlen_map. replace (Z.to_nat (4 - zlen wars)) with (4 - length wars)%nat by (unfold zlen; lia). induction (4 - length wars)%nat as [|n IH]; cbn [repeat map]; [reflexivity|]. rewrite IH. reflexivity. }
    rewrite X. unfold bank_back. rewrite S. split.
    - intros H. apply bind_ok in H as (q & Q & H). injection H as <-. exists f, u, wars, v. cbn [fst snd]. split; [reflexivity|]. split; [split; [exact I|split; assumption]|exact Q].
    - intros (f' & u' & names' & v' & [= <- <- <-] & B & Q). destruct (back_unique FS vs f (fst x) i v _ _ ND (conj I (conj N V)) B) as [E ->]. rewrite Q. cbn [bind]. destruct y as [yi yq]. cbn [fst snd] in *. rewrite E. reflexivity.
  Qed.
  Lemma player_load_iff x b o y : player_at x b -> at_ D o b -> (load_player D o = Ok y <-> player_back x y).
  Proof.
    destruct x as [[a c] h]. cbn [player_at player_back]. intros [-> F] A. rewrite <- (app_nil_r (les _)) in A. unfold load_player.
    field 0%nat. field 1%nat. field 2%nat.
    assert (X : filter (fun i => negb (Z.land (Z.shiftr (channel_mask c) i) 1 =? 0)) (range_z 0 16) = filter (fun j => existsb (Z.eqb j) c) (range_z 0 16)).
    { apply filter_ext_in. intros j J. apply in_range_z in J. apply mask_bit. lia. }
    rewrite X. clear X. generalize (filter (fun j => existsb (Z.eqb j) c) (range_z 0 16)). intros cs. split; [intros [= <-]; reflexivity|]. intros ->. reflexivity.
  Qed.
  Lemma splayer_load_iff x b o y : splayer_at x b -> at_ D o b -> (load_splayer D o = Ok y <-> splayer_back x y).
  Proof.
    intros (L & B & k & K & -> & _) A. unfold load_splayer, splayer_back. apply at_app in A as [A1 A]. apply at_app in A as [A2 _]. change (zlen [zlen x]) with 1 in *. pose proof (zlen_nonneg x).
    assert (E : le 1 (zlen x) = [zlen x]) by (cbn [le]; rewrite Z.mod_small by lia; reflexivity). rewrite <- E in A1.
    rewrite (at_u 1 _ _ _ _ A1) by (p256; lia). cbn [bind]. rewrite (at_rd _ _ _ _ _ A2 eq_refl eq_refl). split; [intros [= <-]; reflexivity|intros ->; reflexivity].
  Qed.
  Lemma group_load_iff x b o y : group_at x b -> at_ D o b -> (load_group D o = Ok y <-> group_back x y).
  Proof.
    intros (L & F & ->) A. unfold load_group. apply at_app in A as [A1 A]. rewrite zlen_le in A. change (Z.of_nat 4) with 4 in A. pose proof (zlen_nonneg x).
    rewrite (at_u 4 _ _ _ _ A1) by (p256; lia). cbn [bind].
    set (rdg := fun k => _). assert (X : mapM rdg (range_z 0 (Z.to_nat (zlen x))) = mapM (fun g => let '(t, o, i) := group_save g in group_new t o i) x).
    { replace (Z.to_nat (zlen x)) with (length x) by (unfold zlen; lia).
      assert (G : forall r (k : Z), at_ D (o + 4 + 8 * k) (concat (map (fun g => les (group_fields g)) r)) -> Forall (fun g => in_fields (group_fields g)) r ->
        mapM rdg (range_z (k) (length r)) = mapM (fun g => let '(t, o, i) := group_save g in group_new t o i) r).
      { induction r as [|g r IH]; intros k T FF; cbn [length range_z mapM]; [reflexivity|]. cbn [map concat] in T. inversion FF as [|? ? F1 F2]; subst.
        assert (E : rdg (k) = (let '(t, o, i) := group_save g in group_new t o i)).
        { unfold rdg. unfold group_fields in T, F1. destruct (group_save g) as [[t op] i].
          rewrite (les_nth D _ _ _ 0 1 t _ T F1 eq_refl) by (cbn [firstn fold_right fst]; lia). cbn [bind].
          rewrite (les_nth D _ _ _ 1 2 op _ T F1 eq_refl) by (cbn [firstn fold_right fst]; lia). cbn [bind].
          rewrite (les_nth D _ _ _ 3 4 i _ T F1 eq_refl) by (cbn [firstn fold_right fst]; lia). reflexivity. }
        rewrite E. apply at_app in T as [_ T]. assert (Z8 : zlen (les (group_fields g)) = 8) by (unfold group_fields; destruct (group_save g) as [[t op] i]; rewrite zlen_les; reflexivity). rewrite Z8 in T.
        specialize (IH (k + 1)). rewrite IH; [reflexivity| |exact F2]. replace (o + 4 + 8 * (k + 1)) with (o + 4 + 8 * k + 8) by lia. exact T. }
      apply (G x 0); [|exact F]. rewrite Z.mul_0_r, Z.add_0_r. exact A. }
    rewrite X. clear. unfold group_back. revert y. induction x as [|g x IH]; intros y.
    - cbn [mapM]. split; [intros [= <-]; split; [reflexivity|constructor]|intros [-> _]; reflexivity].
    - rewrite mapM_cons_iff. split.
      + intros (g' & r & E & M & ->). apply IH in M as [-> M]. destruct ((0 <=? gType g) && (gType g <? 4)) eqn:B.
        * pose proof (group_save_new g ltac:(lia)) as G. destruct (group_save g) as [[t o] i]. destruct G as [G _]. rewrite G in E. injection E as <-. split; [reflexivity|]. constructor; [lia|exact M].
        * unfold group_save in E. unfold group_new in E. rewrite B in E. discriminate.
      + intros [-> F]. inversion F; subst. exists g, x. pose proof (group_save_new g ltac:(lia)) as G. destruct (group_save g) as [[t o] i]. destruct G as [G _]. split; [exact G|]. split; [|reflexivity]. apply IH. split; [reflexivity|assumption].
  Qed.
End Entries.

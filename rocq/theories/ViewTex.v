(** How texture blocks are read, proofs for C111. *)
From Coq Require Import String Permutation Sorted.
From Verif Require Import PyBase PyLemmas PyTac CommonModel CommonLemmas ColorModel ColorLemmas WaveModel SbnkModel SbnkBank TexModel TexBlock RomSpec ViewSpec ViewTexSpec ViewLemmas ViewFiles ViewWave ViewSdat ViewSdatLoad.

(** ** info blocks *)
Definition entry_at (d : bytes) (o each : Z) (i : nat) : infoEntry :=
  {| ieName := Some (info_name d o each i); ieUnk00 := info_unk00 d o i; ieUnk02 := info_unk02 d o i; ieData := part d (info_data d o each i) each |}.
Definition info_head (d : bytes) (o each : Z) : Prop :=
  let c := info_count d o in
  o + 12 <= zlen d /\ half d (o + 4) = 8 /\ half d (o + 6) = 12 + 4 * c /\ word d (o + 8) = 0x17F /\
  o + 16 + 4 * c <= zlen d /\ half d (o + 12 + 4 * c) = each /\ half d (o + 14 + 4 * c) = 4 + each * c.
Lemma info_iff d o each l : is_bytes d -> 0 <= o -> 0 <= each -> loadInfoBlock d o (Some each) = Ok l <-> info_head d o each /\ l = map (entry_at d o each) (seq 0 (Z.to_nat (info_count d o))).
Proof.
  intros B O E. unfold loadInfoBlock, info_head. cbv zeta. 
  assert (F : let c := info_count d o in 0 <= c -> o + 16 + 4 * c <= zlen d -> forall i, (i < Z.to_nat c)%nat -> loadInfoEntry d (o + 12) (o + 16 + 4 * c) (o + 16 + 4 * c + each * c) each (Z.of_nat i) = Ok (entry_at d o each i)).
  { intros c C0 L i I. unfold loadInfoEntry, entry_at, info_name, info_data. fold c. repeat fwd. rewrite !slice_part by lia.
    replace (o + 16 + 4 * c + each * Z.of_nat i + each - (o + 16 + 4 * c + each * Z.of_nat i)) with each by lia.
    replace (o + 16 + 4 * c + each * c + 16 * Z.of_nat i + 16 - (o + 16 + 4 * c + each * c + 16 * Z.of_nat i)) with 16 by lia. rewrite Z2Nat.id by lia.
    unfold info_unk00, info_unk02. replace (o + 12 + 4 * Z.of_nat i + 2) with (o + 14 + 4 * Z.of_nat i) by lia. reflexivity. }
  split.
  - intros H. apply bind_ok in H as (x & X & H). apply rd_inv in X as (X & _); [|lia|lia]. repeat stp H. pose proof (byte_range d (o + 1) B ltac:(lia)) as R. repeat stp H.
    change (ViewSpec.byte d (o + 1)) with (info_count d o) in *. set (c := info_count d o) in *.
    replace (o + 4 + 2) with (o + 6) in * by lia. replace (o + 4 + 4) with (o + 8) in * by lia. replace (o + 4 + 8) with (o + 12) in * by lia.
    replace (o + 12 + 4 * c + 2) with (o + 14 + 4 * c) in * by lia. replace (o + 12 + 4 * c + 4) with (o + 16 + 4 * c) in * by lia.
    apply Z.eqb_eq in G, G0, G1, G2, G3. rewrite G2 in *. split; [repeat split; try assumption; lia|].
    rewrite (mapM_range _ (entry_at d o each)) in H; [apply SeqRead.ok_inj in H; symmetry; exact H|]. intros i I. apply F; lia.
  - intros ((S1 & S2 & S3 & S4 & S5 & S6 & S7) & ->). pose proof (byte_range d (o + 1) B ltac:(lia)) as R. rewrite rd_in by lia. cbn [bind]. repeat fwd. 
    change (ViewSpec.byte d (o + 1)) with (info_count d o) in *. set (c := info_count d o) in *. 
    replace (o + 4 + 2) with (o + 6) by lia. replace (o + 4 + 4) with (o + 8) by lia. replace (o + 4 + 8) with (o + 12) by lia.
    replace (o + 12 + 4 * c + 2) with (o + 14 + 4 * c) in * by lia. replace (o + 12 + 4 * c + 4) with (o + 16 + 4 * c) in * by lia.
    rewrite S2, S3, S4, !Z.eqb_refl. cbn [guard bind]. repeat fwd. rewrite S6, S7, Z.eqb_refl, (proj2 (Z.eqb_eq _ _)) by lia. cbn [guard bind].
    apply mapM_range. intros i I. apply F; lia.
Qed.

(** ** textures *)
Lemma bits_table f : 0 <= f < 8 -> bpp1 f = texel_bits f.
Proof. intros F. assert (C : f = 0 \/ f = 1 \/ f = 2 \/ f = 3 \/ f = 4 \/ f = 5 \/ f = 6 \/ f = 7) by lia. decompose [or] C; subst f; reflexivity. Qed.
Lemma land7 v : Z.land v 7 = v mod 8.
Proof. change 7 with (Z.ones 3). rewrite Z.land_ones by lia. reflexivity. Qed.
Lemma land3 v : Z.land v 3 = v mod 4.
Proof. change 3 with (Z.ones 2). rewrite Z.land_ones by lia. reflexivity. Qed.
Lemma bit_is v i m : 0 <= i -> m = 2 ^ i -> bit v m = Z.testbit v i.
Proof. intros I ->. unfold bit. apply (ViewSdatLoad.land_bit []); exact I. Qed.
Definition tex_of (u0 u2 params u4 : Z) (d1 d2 : bytes) : texture :=
  {| tx00 := u0; tx02 := u2; txRepS := Z.testbit params 0; txRepT := Z.testbit params 1; txMirS := Z.testbit params 2; txMirT := Z.testbit params 3;
     txW := 8 * 2 ^ (params / 16 mod 8); txH := 8 * 2 ^ (params / 128 mod 8); txFmt := params / 1024 mod 8; txC0 := Z.testbit params 13; txMode := params / 16384 mod 4; tx04 := u4;
     txD1 := d1; txD2 := d2 |}.
Lemma tex_new_of u0 u2 p u4 d1 d2 : tex_new u0 u2 p u4 d1 d2 = tex_of u0 u2 p u4 d1 d2.
Proof.
  unfold tex_new, tex_of. rewrite (bit_is p 0 1), (bit_is p 1 2), (bit_is p 2 4), (bit_is p 3 8), (bit_is p 13 0x2000) by (lia || reflexivity).
  rewrite !land7, land3, !Z.shiftr_div_pow2 by lia. rewrite !Z.shiftl_mul_pow2 by (apply Z.mod_pos_bound; lia). reflexivity.
Qed.
Lemma count_range d o : is_bytes d -> 0 <= o -> o + 12 <= zlen d -> 0 <= info_count d o < 256.
Proof. intros B O L. apply byte_range; [exact B|lia]. Qed.
Lemma texture_iff d o i r : is_bytes d -> 0x3C <= zlen d -> o = half d 0x0E -> o + 12 <= zlen d ->
  read_texture d (word d 0x14) (word d 0x24) (word d 0x28) (entry_at d o 8 i) = Ok r <-> info_data d o 8 i + 8 <= zlen d /\ r = (Some (info_name d o 8 i), texture_at d i).
Proof.
  intros B L Eo Lo. pose proof (half_range d 0x0E B ltac:(lia) ltac:(lia)) as R0. pose proof (count_range d o B ltac:(lia) Lo) as RC.
  pose proof (word_range d 0x14 B ltac:(lia) ltac:(lia)) as R1. pose proof (word_range d 0x24 B ltac:(lia) ltac:(lia)) as R2. pose proof (word_range d 0x28 B ltac:(lia) ltac:(lia)) as R3.
  unfold read_texture. cbn [entry_at ieName ieUnk00 ieUnk02 ieData]. assert (P0 : 0 <= info_data d o 8 i) by (unfold info_data; lia).
  destruct (Z.eqb_spec (zlen (part d (info_data d o 8 i) 8)) 8) as [Z8|Z8]; rewrite zlen_part_min in Z8 by lia; cbn [guard bind]; [|split; [discriminate|intros (A & _); lia]].
  set (p := info_data d o 8 i) in *. assert (Lp : p + 8 <= zlen d) by lia. set (q := part d p 8). assert (Q : zlen q = 8) by (unfold q; apply zlen_part; lia).
  rewrite (unpack_half q 0), (unpack_half q 2), (unpack_word q 4) by lia. cbn [bind]. unfold q. rewrite (half_in d p 8 0), (half_in d p 8 2), (word_in d p 8 4) by lia.
  replace (p + 0) with p by lia. pose proof (half_range d p B ltac:(lia) ltac:(lia)) as RP. set (params := half d (p + 2)). set (u4 := word d (p + 4)).
  rewrite !tex_new_of. cbn [tex_of txW txH txFmt]. pose proof (Z.mod_pos_bound (params / 1024) 8 ltac:(lia)) as RF. pose proof (Z.mod_pos_bound (params / 16) 8 ltac:(lia)). pose proof (Z.mod_pos_bound (params / 128) 8 ltac:(lia)).
  assert (EQ : texture_at d i = let f := params / 1024 mod 8 in let w := 8 * 2 ^ (params / 16 mod 8) in let h := 8 * 2 ^ (params / 128 mod 8) in let place := 8 * half d p in
    tex_of (info_unk00 d o i) (info_unk02 d o i) params u4 (part d ((if f =? 5 then word d 0x24 else word d 0x14) + place) (w * h * texel_bits f / 8)) (if f =? 5 then part d (word d 0x28 + place / 2) (w * h / 8) else [])).
  { unfold texture_at. rewrite <- Eo. reflexivity. }
  rewrite EQ. clear EQ. cbv zeta. set (f := params / 1024 mod 8) in *. set (w := 8 * 2 ^ (params / 16 mod 8)). set (h := 8 * 2 ^ (params / 128 mod 8)).
  assert (WH : 0 <= w * h) by (unfold w, h; apply Z.mul_nonneg_nonneg; apply Z.mul_nonneg_nonneg; try lia; apply Z.pow_nonneg; lia).
  assert (TB : 0 <= texel_bits f <= 16) by (rewrite <- bits_table by exact RF; unfold bpp1; repeat (destruct (_ =? _); [lia|]); lia).
  assert (N1 : 0 <= w * h * texel_bits f / 8) by (apply Z.div_pos; [apply Z.mul_nonneg_nonneg; lia|lia]). rewrite bits_table by exact RF.
  rewrite (Z.mul_comm (half d p) 8). assert (N2 : 0 <= 8 * half d p / 2) by (apply Z.div_pos; lia). assert (N3 : 0 <= w * h / 8) by (apply Z.div_pos; lia).
  destruct (f =? 5) eqn:F5.
  - unfold bpp2. rewrite F5, Z.mul_1_r. rewrite !slice_part0 by lia. split.
    + intros H1. apply SeqRead.ok_inj in H1. rewrite tex_new_of in H1. split; [lia|symmetry; exact H1].
    + intros (_ & ->). rewrite tex_new_of. reflexivity.
  - rewrite !slice_part0 by lia. rewrite (Z.add_comm (8 * half d p)). split.
    + intros H1. apply SeqRead.ok_inj in H1. rewrite tex_new_of in H1. split; [lia|symmetry; exact H1].
    + intros (_ & ->). rewrite tex_new_of. reflexivity.
Qed.

(** ** where palettes stop *)
Lemma index_split s : forall l k i, TexModel.list_index s l k = Ok i <-> exists a b, l = a ++ s :: b /\ ~ In s a /\ i = k + zlen a.
Proof.
  induction l as [|y l IH]; intros k i; cbn [TexModel.list_index].
  - split; [discriminate|]. intros ([|x a] & b & E & _); discriminate.
  - destruct (Z.eqb_spec y s) as [E|E].
    + subst y. split.
      * intros H. apply SeqRead.ok_inj in H. exists [], l. unfold zlen. cbn. split; [reflexivity|]. split; [tauto|lia].
      * intros ([|x a] & b & E & N & I); cbn in E; [unfold zlen in I; cbn in I; f_equal; lia|]. injection E as E1 E2. exfalso. apply N. left. symmetry. exact E1.
    + rewrite IH. split.
      * intros (a & b & -> & N & ->). exists (y :: a), b. rewrite zlen_cons. split; [reflexivity|]. split; [intros [A|A]; [congruence|tauto]|lia].
      * intros ([|x a] & b & E1 & N & I); cbn in E1; injection E1 as E1 E2; [congruence|]. exists a, b. rewrite zlen_cons in I. split; [exact E2|]. split; [intros A; apply N; right; exact A|lia].
Qed.
Lemma stop_fun l s e e' : is_stop l s e -> is_stop l s e' -> e = e'.
Proof.
  intros [(C & ->)|(C & I & L & M)] [(C' & ->)|(C' & I' & L' & M')]; try lia. specialize (M e' I' L'). specialize (M' e I L). lia.
Qed.
Lemma sorted_mid (a b : list Z) s : StronglySorted Z.le (a ++ s :: b) -> (forall x, In x a -> x <= s) /\ (forall x, In x b -> s <= x) /\ StronglySorted Z.le b.
Proof.
  induction a as [|y a IH]; cbn [app]; intros S; apply StronglySorted_inv in S as (S & F); rewrite Forall_forall in F.
  - split; [intros x []|]. split; [exact F|exact S].
  - destruct (IH S) as (I1 & I2 & I3). split; [|split; assumption]. intros x [X|X]; [subst x; apply F; apply in_or_app; right; left; reflexivity|apply I1; exact X].
Qed.
Lemma count_none (l : list Z) s : ~ In s l -> count_occ Z.eq_dec l s = 0%nat.
Proof. apply count_occ_not_In. Qed.
Lemma stop_at a b s e : StronglySorted Z.le (a ++ s :: e :: b) -> ~ In s a -> is_stop (a ++ s :: e :: b) s e.
Proof.
  intros S N. destruct (sorted_mid _ _ _ S) as (A & E & S'). pose proof (E e (or_introl eq_refl)) as SE. apply StronglySorted_inv in S' as (_ & F). rewrite Forall_forall in F.
  unfold is_stop. rewrite count_occ_app, (count_none a s N). cbn [count_occ]. destruct (Z.eq_dec s s) as [_|X]; [|congruence].
  destruct (Z.eq_dec e s) as [Es|Es]; [left; split; [lia|exact Es]|]. right. rewrite (count_none b s) by (intros I; specialize (F s I); lia). split; [reflexivity|].
  split; [apply in_or_app; right; right; left; reflexivity|]. split; [lia|]. intros x I L. apply in_app_or in I as [I|[I|[I|I]]]; [specialize (A x I)| | |specialize (F x I)]; lia.
Qed.
Lemma stop_sorted l s e : StronglySorted Z.le l -> In s l -> (exists i, TexModel.list_index s l 0 = Ok i /\ get l (i + 1) = Ok e) <-> is_stop l s e.
Proof.
  intros S I. destruct (TexModel.list_index s l 0) as [i|x] eqn:IX.
  - pose proof IX as IX0. apply index_split in IX as (a & b & El & N & Ei).
    assert (G : get l (i + 1) = match b with [] => Err IndexError | y :: _ => Ok y end).
    { unfold get. pose proof (zlen_nonneg a). destruct (Z.ltb_spec (i + 1) 0); [lia|]. destruct (Z.ltb_spec (i + 1) 0); [lia|]. subst l. replace (Z.to_nat (i + 1)) with (List.length a + 1)%nat by (unfold zlen in Ei; lia). rewrite nth_error_app2 by lia. replace (List.length a + 1 - List.length a)%nat with 1%nat by lia.
      destruct b; reflexivity. }
    split.
    + intros (j & J & E). apply SeqRead.ok_inj in J. subst j. rewrite G in E. destruct b as [|y b]; [discriminate|]. apply SeqRead.ok_inj in E. subst y l. apply stop_at; assumption.
    + intros T. exists i. split; [reflexivity|]. rewrite G. destruct b as [|y b].
      * exfalso. subst l. destruct (sorted_mid _ _ _ S) as (A & _). destruct T as [(C & _)|(_ & I2 & L & _)].
        { rewrite count_occ_app, (count_none a s N) in C. cbn [count_occ] in C. destruct (Z.eq_dec s s); lia. }
        apply in_app_or in I2 as [I2|[I2|[]]]; [specialize (A e I2)|]; lia.
      * f_equal. subst l. apply (stop_fun _ s y e (stop_at a b s y S N) T).
  - exfalso. destruct (in_split s l I) as (a0 & b0 & El0). assert (X : exists i, TexModel.list_index s l 0 = Ok i).
    { clear - I. generalize 0. induction l as [|y l IH]; intros k; [destruct I|]. cbn [TexModel.list_index]. destruct (Z.eqb_spec y s); [eexists; reflexivity|]. apply IH. destruct I; [congruence|assumption]. }
    destruct X as (i & X). congruence.
Qed.
Lemma stop_perm l l' s e : Permutation l l' -> is_stop l s e -> is_stop l' s e.
Proof.
  intros P. unfold is_stop. pose proof (proj1 (Permutation_count_occ Z.eq_dec l l') P s) as C. rewrite C. intros [H|(C1 & I & L & M)]; [left; exact H|]. right. split; [exact C1|].
  split; [apply (Permutation_in _ P); exact I|]. split; [exact L|]. intros x X. apply M. apply (Permutation_in _ (Permutation_sym P)). exact X.
Qed.
Lemma stop_iff l s e : In s l -> (exists i, TexModel.list_index s (sort_by (fun x => x) l) 0 = Ok i /\ get (sort_by (fun x => x) l) (i + 1) = Ok e) <-> is_stop l s e.
Proof.
  intros I. pose proof (sort_perm (fun x : Z => x) l) as P. rewrite stop_sorted; [|apply sort_sorted|apply (Permutation_in _ (Permutation_sym P)); exact I].
  split; apply stop_perm; [exact P|apply Permutation_sym; exact P].
Qed.

(** ** where palettes start *)
Lemma find_last {A} (f : A -> bool) (g : nat -> A) : forall n p, find f (rev (map g (seq 0 n))) = Some p <->
  exists k, (k < n)%nat /\ p = g k /\ f (g k) = true /\ forall m, (k < m < n)%nat -> f (g m) = false.
Proof.
  induction n as [|n IH]; intros p.
  - cbn. split; [discriminate|intros (k & K & _); lia].
  - rewrite seq_S, map_app, rev_app_distr. cbn [Nat.add map rev app find]. destruct (f (g n)) eqn:F.
    + split.
      * intros H. injection H as <-. exists n. split; [lia|]. split; [reflexivity|]. split; [exact F|]. intros; lia.
      * intros (k & K & E & T & M). f_equal. destruct (Nat.eq_dec k n) as [->|NE]; [symmetry; exact E|]. rewrite M in F by lia. discriminate.
    + rewrite IH. split; intros (k & K & E & T & M); exists k.
      * split; [lia|]. split; [exact E|]. split; [exact T|]. intros m Mm. destruct (Nat.eq_dec m n) as [->|NE]; [exact F|]. apply M. lia.
      * assert (k <> n) by congruence. split; [lia|]. split; [exact E|]. split; [exact T|]. intros m Mm. apply M. lia.
Qed.
Section Pal.
  Variable d : bytes. Hypothesis B : is_bytes d. Hypothesis L0 : 0x3C <= zlen d. Hypothesis L1 : pal_info d + 12 <= zlen d.
  Definition ptv (i : nat) : ptuple * Z := ((Some (info_name d (pal_info d) 4 i), info_unk00 d (pal_info d) i, info_unk02 d (pal_info d) i, pal_unk d i), pal_place d i).
  Lemma pal_info_nonneg : 0 <= pal_info d.
  Proof. unfold pal_info. pose proof (word_range d 0x34 B ltac:(lia) ltac:(lia)). lia. Qed.
  Lemma data_nonneg i : 0 <= info_data d (pal_info d) 4 i.
  Proof. pose proof pal_info_nonneg. pose proof (count_range d (pal_info d) B ltac:(lia) L1). unfold info_data. lia. Qed.
  Lemma pt_iff i r : read_pt (word d 0x38) (entry_at d (pal_info d) 4 i) = Ok r <-> info_data d (pal_info d) 4 i + 4 <= zlen d /\ r = ptv i.
  Proof.
    pose proof (data_nonneg i) as P0. unfold read_pt, ptv, pal_place, pal_unk. cbn [entry_at ieName ieUnk00 ieUnk02 ieData]. set (p := info_data d (pal_info d) 4 i) in *.
    destruct (Z.eqb_spec (zlen (part d p 4)) 4) as [Z4|Z4]; rewrite zlen_part_min in Z4 by lia; cbn [guard bind]; [|split; [discriminate|intros (A & _); lia]].
    set (q := part d p 4). assert (Q : zlen q = 4) by (unfold q; apply zlen_part; lia). rewrite (unpack_half q 0), (unpack_half q 2) by lia. cbn [bind]. unfold q. rewrite (half_in d p 4 0), (half_in d p 4 2) by lia.
    replace (p + 0) with p by lia. replace (half d p * 8 + word d 0x38) with (word d 0x38 + 8 * half d p) by lia. split.
    - intros H. apply SeqRead.ok_inj in H. split; [lia|symmetry; exact H].
    - intros (_ & ->). reflexivity.
  Qed.
  Definition ptl : list (ptuple * Z) := map ptv (seq 0 (pal_count d)).
  Lemma key_iff i m : pt_eqb (fst (ptv m)) (fst (ptv i)) = true <-> pal_key d m = pal_key d i.
  Proof. rewrite pt_eqb_eq. unfold ptv, pal_key. cbn [fst]. split; intros H; injection H as H1 H2 H3 H4; congruence. Qed.
  Lemma start_iff i s : pt_offset ptl (fst (ptv i)) = Ok s <-> pal_start d i s.
  Proof.
    unfold pt_offset, pal_start, ptl. split.
    - destruct (find _ _) as [p|] eqn:F; [|discriminate]. intros H. apply SeqRead.ok_inj in H. apply find_last in F as (k & K & -> & T & M). exists k. split; [exact K|]. split; [apply key_iff; exact T|]. split; [symmetry; exact H|].
      intros m Mm E. apply key_iff in E. specialize (M m Mm). cbn beta in M. congruence.
    - intros (k & K & T & -> & M). rewrite (proj2 (find_last (fun p => pt_eqb (fst p) (fst (ptv i))) ptv (pal_count d) (ptv k))); [reflexivity|]. exists k. split; [exact K|]. split; [reflexivity|]. split; [apply key_iff; exact T|].
      intros m Mm. destruct (pt_eqb (fst (ptv m)) (fst (ptv i))) eqn:E; [|reflexivity]. apply key_iff in E. destruct (M m Mm E).
  Qed.
  Lemma places_eq : map snd ptl ++ [word d 0x38 + half d 0x30 * 8] = pal_places d.
  Proof. unfold ptl, pal_places. rewrite map_map, (Z.mul_comm _ 8). reflexivity. Qed.
  Lemma start_in i s : pal_start d i s -> In s (pal_places d).
  Proof. intros (k & K & _ & -> & _). unfold pal_places. apply in_or_app. left. apply in_map. apply in_seq. lia. Qed.
  Lemma colours_ok b : is_bytes b -> loadPalette b = Ok (colours b).
  Proof.
    intros Bb. unfold loadPalette, colours. rewrite (mapM_range _ (fun k => half b (2 * Z.of_nat k))).
    - cbn [bind]. rewrite map_map. f_equal. apply map_ext. intros k. apply unpack_div.
    - intros i I. pose proof (zlen_nonneg b). apply unpack_half; lia.
  Qed.
  Lemma place_nonneg i : info_data d (pal_info d) 4 i + 4 <= zlen d -> 0 <= pal_place d i.
  Proof. intros F. pose proof (data_nonneg i). pose proof (word_range d 0x38 B ltac:(lia) ltac:(lia)). pose proof (half_range d (info_data d (pal_info d) 4 i) B ltac:(lia) ltac:(lia)). unfold pal_place. lia. Qed.
  Lemma palette_iff i r : (forall k, (k < pal_count d)%nat -> info_data d (pal_info d) 4 k + 4 <= zlen d) ->
    read_palette d ptl (sort_by (fun x => x) (pal_places d)) (ptv i) = Ok r <-> fst r = Some (info_name d (pal_info d) 4 i) /\ palette_at d i (snd r).
  Proof.
    intros FIT. assert (POS : forall x, In x (pal_places d) -> 0 <= x).
    { intros x X. unfold pal_places in X. apply in_app_or in X as [X|[X|[]]].
      - apply in_map_iff in X as (k & <- & K). apply in_seq in K. apply place_nonneg, FIT. lia.
      - subst x. pose proof (word_range d 0x38 B ltac:(lia) ltac:(lia)). pose proof (half_range d 0x30 B ltac:(lia) ltac:(lia)). lia. }
    assert (STP : forall s e, In s (pal_places d) -> is_stop (pal_places d) s e -> 0 <= s /\ 0 <= e).
    { intros s e Is St. split; [apply POS; exact Is|]. destruct St as [(_ & ->)|(_ & I & _)]; apply POS; assumption. }
    unfold read_palette. split.
    - intros H. apply bind_ok in H as (s & S & H). apply start_iff in S. apply bind_ok in H as (j & J & H). apply bind_ok in H as (e & E & H).
      assert (ST : is_stop (pal_places d) s e) by (apply stop_iff; [apply (start_in i); exact S|exists j; split; assumption]). unfold ptv in H. cbn [fst] in H.
      apply bind_ok in H as (p & P & H). apply SeqRead.ok_inj in H. rewrite <- H. cbn [fst snd]. split; [reflexivity|]. exists s, e. split; [exact S|]. split; [exact ST|].
      destruct (STP s e (start_in i s S) ST). rewrite slice_part in P by lia. unfold pal_new in P. rewrite colours_ok in P by (apply is_bytes_part; exact B). cbn [bind] in P. apply SeqRead.ok_inj in P. symmetry. exact P.
    - intros (N & s & e & S & ST & P). pose proof (start_in i s S) as IN. destruct (STP s e IN ST). rewrite (proj2 (start_iff i s) S). cbn [bind].
      destruct (proj2 (stop_iff _ _ _ IN) ST) as (j & J & E). rewrite J. cbn [bind]. rewrite E. cbn [bind]. unfold ptv. cbn [fst]. rewrite slice_part by lia. unfold pal_new. rewrite colours_ok by (apply is_bytes_part; exact B). cbn [bind].
      destruct r as [n p]. cbn [fst snd] in N, P. rewrite N, P. reflexivity.
  Qed.
End Pal.

(** ** the whole block *)
Lemma mapM_view {A C} (f : A -> res C) (g : nat -> A) (h : nat -> C) (P : nat -> Prop) : (forall i r, f (g i) = Ok r <-> P i /\ r = h i) ->
  forall n r, mapM f (map g (seq 0 n)) = Ok r <-> (forall i, (i < n)%nat -> P i) /\ r = map h (seq 0 n).
Proof.
  intros E n. assert (Q : forall k r, mapM f (map g (seq k n)) = Ok r <-> (forall i, (k <= i < k + n)%nat -> P i) /\ r = map h (seq k n)).
  { induction n as [|n IH]; intros k r.
    - cbn [seq map mapM]. split; [intros H; apply SeqRead.ok_inj in H; split; [intros; lia|symmetry; exact H]|intros (_ & ->); reflexivity].
    - cbn [seq map mapM]. split.
      + intros H. apply bind_ok in H as (y & Y & H). apply bind_ok in H as (ys & Ys & H). apply SeqRead.ok_inj in H. apply E in Y as (Y1 & ->). apply IH in Ys as (Y2 & ->). split; [|symmetry; exact H].
        intros i I. destruct (Nat.eq_dec i k) as [->|]; [exact Y1|]. apply Y2. lia.
      + intros (F & ->). rewrite (proj2 (E k (h k))) by (split; [apply F; lia|reflexivity]). cbn [bind]. rewrite (proj2 (IH (Datatypes.S k) (map h (seq (Datatypes.S k) n)))); [reflexivity|]. split; [|reflexivity]. intros i I. apply F. lia. }
  intros r. rewrite (Q 0%nat). split; intros (F & G); split; try exact G; intros i I; apply F; lia.
Qed.
Lemma fit_iff d o each : 0 <= each -> 0 <= info_count d o -> o + 16 + 4 * info_count d o <= zlen d ->
  (forall i, (i < Z.to_nat (info_count d o))%nat -> info_data d o each i + each <= zlen d) <-> o + 16 + 4 * info_count d o + each * info_count d o <= zlen d.
Proof.
  intros E C L. unfold info_data. set (c := info_count d o) in *. split.
  - intros H. destruct (Z.eq_dec c 0) as [->|N]; [lia|]. specialize (H (Z.to_nat (c - 1)) ltac:(lia)). rewrite Z2Nat.id in H by lia. nia.
  - intros H i I. nia.
Qed.
Lemma count_nonneg d o : is_bytes d -> 0 <= info_count d o.
Proof.
  intros B. unfold info_count, ViewSpec.byte. destruct (nth_in_or_default (Z.to_nat (o + 1)) d 0) as [I|I]; [|rewrite I; lia].
  unfold is_bytes in B. rewrite Forall_forall in B. specialize (B _ I). unfold is_byte in B. lia.
Qed.
Lemma head_shape d o each : is_bytes d -> 0 <= each -> info_shape d o each <-> info_head d o each /\ o + 16 + 4 * info_count d o + each * info_count d o <= zlen d.
Proof.
  intros B E. pose proof (count_nonneg d o B) as C. pose proof (Z.mul_nonneg_nonneg _ _ E C) as M. unfold info_shape, info_head. cbv zeta. split.
  - intros (H1 & H2 & H3 & H4 & H5 & H6 & H7). split; [|exact H5]. repeat split; try assumption. lia.
  - intros ((H1 & H2 & H3 & H4 & H5 & H6 & H7) & H8). repeat split; assumption.
Qed.
Lemma textures_iff d r : is_bytes d -> 0x3C <= zlen d -> info_head d (half d 0x0E) 8 ->
  mapM (read_texture d (word d 0x14) (word d 0x24) (word d 0x28)) (map (entry_at d (half d 0x0E) 8) (seq 0 (Z.to_nat (info_count d (half d 0x0E))))) = Ok r <->
  info_shape d (half d 0x0E) 8 /\ r = map (fun i => (Some (info_name d (half d 0x0E) 8 i), texture_at d i)) (seq 0 (Z.to_nat (info_count d (half d 0x0E)))).
Proof.
  intros B L H. pose proof H as H0. destruct H as (H1 & _ & _ & _ & H5 & _). pose proof (half_range d 0x0E B ltac:(lia) ltac:(lia)) as R0. pose proof (count_range d _ B (proj1 R0) H1) as RC.
  rewrite (mapM_view _ _ (fun i => (Some (info_name d (half d 0x0E) 8 i), texture_at d i)) (fun i => info_data d (half d 0x0E) 8 i + 8 <= zlen d)) by (intros i x; apply texture_iff; [exact B|exact L|reflexivity|exact H1]).
  rewrite fit_iff by lia. rewrite head_shape by (exact B || lia). split; [intros (A & C); split; [split; assumption|exact C]|intros ((_ & A) & C); split; assumption].
Qed.
Lemma pts_iff d r : is_bytes d -> 0x3C <= zlen d -> info_head d (pal_info d) 4 ->
  mapM (read_pt (word d 0x38)) (map (entry_at d (pal_info d) 4) (seq 0 (pal_count d))) = Ok r <-> info_shape d (pal_info d) 4 /\ r = ptl d.
Proof.
  intros B L H. pose proof H as H0. destruct H as (H1 & _ & _ & _ & H5 & _). pose proof (pal_info_nonneg d B L) as R0. pose proof (count_range d _ B R0 H1) as RC.
  rewrite (mapM_view _ _ (ptv d) (fun i => info_data d (pal_info d) 4 i + 4 <= zlen d)) by (intros i x; apply pt_iff; assumption).
  unfold pal_count at 1. rewrite fit_iff by lia. rewrite head_shape by (exact B || lia). split; [intros (A & C); split; [split; assumption|exact C]|intros ((_ & A) & C); split; assumption].
Qed.
Lemma palettes_iff d r : is_bytes d -> 0x3C <= zlen d -> info_shape d (pal_info d) 4 ->
  mapM (read_palette d (ptl d) (sort_by (fun x => x) (map snd (ptl d) ++ [word d 0x38 + half d 0x30 * 8]))) (ptl d) = Ok r <->
  List.length r = pal_count d /\ forall i n p, nth_error r i = Some (n, p) -> n = Some (info_name d (pal_info d) 4 i) /\ palette_at d i p.
Proof.
  intros B L H. apply head_shape in H as (H & F); [|exact B|lia]. destruct H as (H1 & _ & _ & _ & H5 & _). pose proof (pal_info_nonneg d B L) as R0. pose proof (count_range d _ B R0 H1) as RC.
  pose proof (proj2 (fit_iff d (pal_info d) 4 ltac:(lia) (proj1 RC) H5) F) as FIT. rewrite places_eq, mapM_iff. unfold ptl at 1. rewrite map_length, seq_length.
  assert (NTH : forall j y, nth_error (ptl d) j = Some y <-> (j < pal_count d)%nat /\ y = ptv d j).
  { intros j y. unfold ptl. split.
    - intros N. assert (J : (j < pal_count d)%nat) by (rewrite <- (seq_length (pal_count d) 0), <- (map_length (ptv d)); apply nth_error_Some; congruence). split; [exact J|].
      rewrite (map_nth_error (ptv d) j (seq 0 (pal_count d)) (d := j)) in N; [congruence|]. rewrite nth_error_nth' with (d := 0%nat) by (rewrite seq_length; exact J). rewrite seq_nth by exact J. reflexivity.
    - intros (J & ->). apply map_nth_error. rewrite nth_error_nth' with (d := 0%nat) by (rewrite seq_length; exact J). rewrite seq_nth by exact J. reflexivity. }
  split; intros (N & A); split; try exact N.
  - intros i n p X. assert (I : (i < pal_count d)%nat) by (rewrite <- N; apply nth_error_Some; congruence). specialize (A i (ptv d i) (n, p) (proj2 (NTH i _) (conj I eq_refl)) X). apply palette_iff in A; assumption.
  - intros j y [n p] Y X. apply NTH in Y as (J & ->). apply palette_iff; try assumption. cbn [fst snd]. apply A. exact X.
Qed.
Theorem tex0_iff d x : is_bytes d -> readTEX0 d = Ok x <-> tex0_shape d /\ tex0_view d x.
Proof.
  intros B. unfold readTEX0, tex0_shape. split.
  - intros H. stp H. apply prefixb_part in G; [|reflexivity]. repeat stp H. assert (L00 : 0x3C <= zlen d) by lia.
    pose proof (half_range d 0x0E B ltac:(lia) ltac:(lia)) as R0. pose proof (word_range d 0x34 B ltac:(lia) ltac:(lia)) as R1.
    apply bind_ok in H as (es & ES & H). apply info_iff in ES as (S1 & ->); [|exact B|lia|lia].
    apply bind_ok in H as (ts & TS & H). apply textures_iff in TS as (S1' & ->); [|exact B|exact L00|exact S1].
    apply bind_ok in H as (ps & PS & H). apply info_iff in PS as (S2 & ->); [|exact B|lia|lia].
    apply bind_ok in H as (pts & PT & H). apply pts_iff in PT as (S2' & ->); [|exact B|exact L00|exact S2].
    apply bind_ok in H as (pals & PL & H). apply palettes_iff in PL; [|exact B|exact L00|exact S2']. apply SeqRead.ok_inj in H. rewrite <- H.
    split; [split; [exact L00|]; split; [exact G|]; split; assumption|]. constructor; cbn [x08 x10 x18 x20 x2C x32 xTextures xPalettes]; [reflexivity|reflexivity|exact PL].
  - intros ((L & M & S1 & S2) & [U T P]). pose proof (proj1 (proj1 (head_shape d (half d 0x0E) 8 B ltac:(lia)) S1)) as I1. pose proof (proj1 (proj1 (head_shape d (word d 0x34) 4 B ltac:(lia)) S2)) as I2. pose proof (half_range d 0x0E B ltac:(lia) ltac:(lia)) as R0. pose proof (word_range d 0x34 B ltac:(lia) ltac:(lia)) as R1.
    rewrite (proj2 (prefixb_part d (asc "TEX0") eq_refl) M). cbn [guard bind]. repeat fwd.
    rewrite (proj2 (info_iff d (half d 0x0E) 8 _ B ltac:(lia) ltac:(lia)) (conj I1 eq_refl)). cbn [bind].
    rewrite (proj2 (textures_iff d _ B L I1) (conj S1 eq_refl)). cbn [bind].
    rewrite (proj2 (info_iff d (word d 0x34) 4 _ B ltac:(lia) ltac:(lia)) (conj I2 eq_refl)). cbn [bind].
    pose proof (proj2 (pts_iff d _ B L I2) (conj S2 eq_refl)) as E. unfold pal_count, pal_info in E. rewrite E. cbn [bind].
    rewrite (proj2 (palettes_iff d (xPalettes x) B L S2) P). cbn [bind]. f_equal. destruct x as [u1 u2 u3 u4 u5 u6 ts ps]. cbn [x08 x10 x18 x20 x2C x32 xTextures xPalettes] in *. injection U as -> -> -> -> -> ->. rewrite T. reflexivity.
Qed.

(** ** NSBTX files *)
Lemma rest_part (f : bytes) : slice_from f 0x14 = part f 0x14 (zlen f - 0x14).
Proof. pose proof (zlen_nonneg f). unfold slice_from. apply slice_part; lia. Qed.
Theorem nsbtx_iff f x : is_bytes f -> nsbtx_load f = Ok x <-> nsbtx_shape f /\ tex0_view (nsbtx_block f) x.
Proof.
  intros B. unfold nsbtx_load, nsbtx_shape, nsbtx_block. rewrite rest_part. set (t := part f 0x14 (zlen f - 0x14)). assert (Bt : is_bytes t) by (apply is_bytes_part; exact B). split.
  - intros H. stp H. apply prefixb_part in G; [|reflexivity]. apply bind_ok in H as (h & HH & H). apply std_inv in HH as (L & ->). cbn [hVersion hBlocks] in H. cbv zeta in H. repeat stp H.
    apply Z.eqb_eq in G0, G1. apply (proj1 (tex0_iff t x Bt)) in H as (S & V). split; [|exact V]. split; [exact G|]. split; [exact G0|]. split; [exact G1|exact S].
  - intros ((M & V1 & N1 & S) & V). pose proof S as (L & Mt & _).
    assert (Lf : 0x50 <= zlen f).
    { destruct (Z.le_gt_cases 20 (zlen f)) as [C|C]; [unfold t in L; rewrite zlen_part_min in L by lia; lia|]. exfalso. revert L. unfold t, part. replace (Z.to_nat (zlen f - 20)) with 0%nat by lia. unfold zlen. cbn. lia. }
    rewrite (proj2 (prefixb_part f (asc "BTX0") eq_refl) M). cbn [guard bind]. rewrite std_view by lia. cbn [bind hVersion hBlocks]. rewrite V1, N1. cbn [Z.eqb Pos.eqb guard bind]. cbv zeta.
    rewrite (proj2 (prefixb_part t (asc "TEX0") eq_refl) Mt). cbn [guard bind]. apply (proj2 (tex0_iff t x Bt)). split; assumption.
Qed.

(** ** which files are accepted *)
Lemma start_key d i j s : pal_key d i = pal_key d j -> pal_start d i s <-> pal_start d j s.
Proof. intros K. unfold pal_start. rewrite K. reflexivity. Qed.
Lemma start_fun d i s s' : pal_start d i s -> pal_start d i s' -> s = s'.
Proof.
  intros (k & K & E & -> & M) (k' & K' & E' & -> & M'). destruct (Nat.lt_trichotomy k k') as [C|[C|C]]; [destruct (M k' ltac:(lia) E')|congruence|destruct (M' k ltac:(lia) E)].
Qed.
Lemma start_some d i : (i < pal_count d)%nat -> exists s, pal_start d i s.
Proof.
  intros I. unfold pal_start. assert (H : forall r, (r <= pal_count d - i)%nat -> (exists s k, (k < pal_count d)%nat /\ pal_key d k = pal_key d i /\ s = pal_place d k /\ forall m, (k < m < pal_count d)%nat -> pal_key d m <> pal_key d i) \/
     forall m, (pal_count d - r <= m < pal_count d)%nat -> pal_key d m <> pal_key d i).
  { induction r as [|r IH]; intros R; [right; intros; lia|]. destruct (IH ltac:(lia)) as [H|H]; [left; exact H|]. set (k := (pal_count d - Datatypes.S r)%nat).
    assert (D : {pal_key d k = pal_key d i} + {pal_key d k <> pal_key d i}) by (repeat decide equality). destruct D as [D|D].
    - left. exists (pal_place d k), k. split; [unfold k; lia|]. split; [exact D|]. split; [reflexivity|]. intros m M. apply H. unfold k in M. lia.
    - right. intros m M. destruct (Nat.eq_dec m k) as [->|N]; [exact D|]. apply H. unfold k in N. lia. }
  destruct (H (pal_count d - i)%nat ltac:(lia)) as [Y|Y]; [exact Y|]. destruct (Y i ltac:(lia) eq_refl).
Qed.
Lemma stop_some l s : In s l -> (2 <= count_occ Z.eq_dec l s)%nat \/ (exists y, In y l /\ s < y) -> exists e, is_stop l s e.
Proof.
  intros I H. destruct (Nat.le_gt_cases 2 (count_occ Z.eq_dec l s)) as [C|C]; [exists s; left; split; [exact C|reflexivity]|]. destruct H as [H|(y & Y & L)]; [lia|].
  pose proof (proj1 (count_occ_In Z.eq_dec l s) I) as C1. assert (MIN : exists e, In e l /\ s < e /\ forall x, In x l -> s < x -> e <= x).
  { clear - Y L. induction l as [|a l IH]; [destruct Y|]. assert (D : (exists e, In e l /\ s < e) \/ forall x, In x l -> x <= s).
    { clear. induction l as [|b l [(e & E & F)|IH]]; [right; intros x []|left; exists e; split; [right; exact E|exact F]|].
      destruct (Z.le_gt_cases b s); [right; intros x [<-|X]; [assumption|apply IH; exact X]|left; exists b; split; [left; reflexivity|lia]]. }
    destruct D as [(e & E & F)|N].
    - assert (IH' : exists e, In e l /\ s < e /\ forall x, In x l -> s < x -> e <= x).
      { destruct Y as [Y|Y]; [|apply IH; exact Y]. clear - E F. revert e E F. induction l as [|b l IH]; intros e E F; [destruct E|].
        assert (D : (exists e, In e l /\ s < e) \/ forall x, In x l -> x <= s).
        { clear. induction l as [|b l [(e & E & F)|IH]]; [right; intros x []|left; exists e; split; [right; exact E|exact F]|].
          destruct (Z.le_gt_cases b s); [right; intros x [<-|X]; [assumption|apply IH; exact X]|left; exists b; split; [left; reflexivity|lia]]. }
        destruct D as [(e' & E' & F')|N].
        - destruct (IH e' E' F') as (z & Z1 & Z2 & Z3). destruct (Z.le_gt_cases b s) as [C|C].
          + exists z. split; [right; exact Z1|]. split; [exact Z2|]. intros x [<-|X] Xs; [lia|apply Z3; assumption].
          + exists (Z.min b z). split; [destruct (Z.min_spec b z) as [(_ & ->)|(_ & ->)]; [left; reflexivity|right; exact Z1]|]. split; [lia|]. intros x [<-|X] Xs; [lia|specialize (Z3 x X Xs); lia].
        - destruct E as [<-|E]; [|specialize (N e E); lia]. exists b. split; [left; reflexivity|]. split; [exact F|]. intros x [<-|X] Xs; [lia|specialize (N x X); lia]. }
      destruct IH' as (z & Z1 & Z2 & Z3). destruct (Z.le_gt_cases a s) as [C|C].
      + exists z. split; [right; exact Z1|]. split; [exact Z2|]. intros x [<-|X] Xs; [lia|apply Z3; assumption].
      + exists (Z.min a z). split; [destruct (Z.min_spec a z) as [(_ & ->)|(_ & ->)]; [left; reflexivity|right; exact Z1]|]. split; [lia|]. intros x [<-|X] Xs; [lia|specialize (Z3 x X Xs); lia].
    - destruct Y as [<-|Y]; [|specialize (N y Y); lia]. exists a. split; [left; reflexivity|]. split; [exact L|]. intros x [<-|X] Xs; [lia|specialize (N x X); lia]. }
  destruct MIN as (e & E & F & G). exists e. right. split; [lia|]. split; [exact E|]. split; [exact F|exact G].
Qed.
Lemma palette_stops d x i : tex0_view d x -> (i < pal_count d)%nat -> exists s e, pal_start d i s /\ is_stop (pal_places d) s e.
Proof.
  intros [_ _ (N & V)] I. destruct (nth_error (xPalettes x) i) as [[n p]|] eqn:E; [|apply nth_error_None in E; lia]. destruct (V _ _ _ E) as (_ & s & e & P & St & _). exists s, e. split; assumption.
Qed.
Lemma list_exists {A} (P : nat -> A -> Prop) : forall n, (forall i, (i < n)%nat -> exists y, P i y) -> exists l, List.length l = n /\ forall i y, nth_error l i = Some y -> P i y.
Proof.
  induction n as [|n IH]; intros H; [exists []; split; [reflexivity|intros [|i] y Y; discriminate]|]. destruct IH as (l & L & Q); [intros i I; apply H; lia|]. destruct (H n ltac:(lia)) as (y & Y).
  exists (l ++ [y]). split; [rewrite app_length, L; cbn; lia|]. intros i z Z. destruct (Nat.lt_ge_cases i n) as [C|C].
  - rewrite nth_error_app1 in Z by lia. apply Q. exact Z.
  - rewrite nth_error_app2 in Z by lia. rewrite L in Z. destruct (i - n)%nat as [|k] eqn:K; [|destruct k; discriminate]. injection Z as <-. replace i with n by lia. exact Y.
Qed.
Lemma tex0_exists d : (forall i s, (i < pal_count d)%nat -> pal_start d i s -> (2 <= count_occ Z.eq_dec (pal_places d) s)%nat \/ exists y, In y (pal_places d) /\ s < y) -> exists x, tex0_view d x.
Proof.
  intros H. destruct (list_exists (fun i y => fst y = Some (info_name d (pal_info d) 4 i) /\ palette_at d i (snd y)) (pal_count d)) as (ps & N & V).
  { intros i I. destruct (start_some d i I) as (s & P). destruct (stop_some (pal_places d) s (start_in d i s P) (H i s I P)) as (e & St).
    eexists (Some (info_name d (pal_info d) 4 i), _). cbn [fst snd]. split; [reflexivity|]. exists s, e. split; [exact P|]. split; [exact St|reflexivity]. }
  eexists {| x08 := _; xTextures := _; xPalettes := ps |}. constructor; cbn; [reflexivity|reflexivity|]. split; [exact N|]. intros i n p E. exact (V i (n, p) E).
Qed.

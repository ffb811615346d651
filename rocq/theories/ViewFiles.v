(** * Lemmas for ViewFilesProps: reading other files *)
From Coq Require Import String.
From Verif Require Import PyBase PyLemmas PyTac CommonModel FntModel NarcModel CodeModel BnModel WaveModel RomSpec ViewSpec ViewLemmas.

Lemma rd_in d o n : 0 <= o -> 0 <= n -> o + n <= zlen d -> rd d o n = Ok (part d o n).
Proof. intros. rewrite rd_slice, slice_part0 by lia. reflexivity. Qed.
Lemma rd_inv d o n b : 0 <= o -> 0 <= n -> rd d o n = Ok b -> o + n <= zlen d /\ b = part d o n.
Proof. intros O N H. pose proof (rd_ok_inv _ _ _ _ O H) as L. rewrite rd_in in H by lia. split; [exact L|congruence]. Qed.
Lemma word_inv d o v : 0 <= o -> unpack_u 4 d o = Ok v -> o + 4 <= zlen d /\ v = word d o.
Proof. intros O H. assert (L : o + 4 <= zlen d) by exact (unpack_u_lt _ _ _ _ O H). rewrite unpack_word in H by lia. split; [exact L|congruence]. Qed.
Lemma half_inv d o v : 0 <= o -> unpack_u 2 d o = Ok v -> o + 2 <= zlen d /\ v = half d o.
Proof. intros O H. assert (L : o + 2 <= zlen d) by exact (unpack_u_lt _ _ _ _ O H). rewrite unpack_half in H by lia. split; [exact L|congruence]. Qed.
Lemma byte_inv d o v : 0 <= o -> unpack_u 1 d o = Ok v -> o < zlen d /\ v = byte d o.
Proof. intros O H. assert (L : o + 1 <= zlen d) by exact (unpack_u_lt _ _ _ _ O H). rewrite unpack_byte in H by lia. split; [lia|congruence]. Qed.
Lemma guard_inv c e u : guard c e = Ok u -> c = true.
Proof. destruct c; [reflexivity|discriminate]. Qed.
Lemma mapM_range {A} (f : Z -> res A) (g : nat -> A) n : (forall i, (i < n)%nat -> f (Z.of_nat i) = Ok (g i)) -> mapM f (range_z 0 n) = Ok (map g (seq 0 n)).
Proof.
  intros H. assert (G : forall m k, (k + m = n)%nat -> mapM f (range_z (Z.of_nat k) m) = Ok (map g (seq k m))).
  { induction m as [|m IH]; intros k K; [reflexivity|]. cbn [range_z mapM seq map]. rewrite H by lia. cbn [bind]. replace (Z.of_nat k + 1) with (Z.of_nat (S k)) by lia. rewrite IH by lia. reflexivity. }
  apply (G n 0%nat). reflexivity.
Qed.
Lemma mapM_range_inv {A} (f : Z -> res A) n l : mapM f (range_z 0 n) = Ok l -> List.length l = n /\ forall i x, nth_error l i = Some x -> f (Z.of_nat i) = Ok x.
Proof.
  intros H. assert (G : forall m k l, mapM f (range_z (Z.of_nat k) m) = Ok l -> List.length l = m /\ forall i x, nth_error l i = Some x -> f (Z.of_nat (k + i)) = Ok x).
  { induction m as [|m IH]; intros k l0 E; cbn [range_z mapM] in E; [injection E as <-; split; [reflexivity|intros [|i] x X; discriminate]|].
    apply bind_ok in E as (y & E1 & E). apply bind_ok in E as (ys & E2 & E). injection E as <-. replace (Z.of_nat k + 1) with (Z.of_nat (S k)) in E2 by lia. apply IH in E2 as (L & E2).
    split; [cbn; lia|]. intros [|i] x X; [cbn in X; injection X as <-; rewrite Nat.add_0_r; exact E1|]. cbn in X. rewrite <- Nat.add_succ_comm. apply E2. exact X. }
  exact (G n 0%nat l H).
Qed.
Lemma list_of_nth {A} (l : list A) n (f : nat -> A) : List.length l = n -> (forall i x, nth_error l i = Some x -> x = f i) -> l = map f (seq 0 n).
Proof.
  intros L H. assert (G : forall l k, (forall i x, nth_error l i = Some x -> x = f (k + i)%nat) -> l = map f (seq k (List.length l))).
  { induction l0 as [|x l0 IH]; intros k E; [reflexivity|]. cbn [List.length seq map]. rewrite (E 0%nat x eq_refl) at 1. rewrite Nat.add_0_r. f_equal. apply IH. intros i y Y. rewrite (E (S i) y Y). f_equal. lia. }
  rewrite <- L. apply G. exact H.
Qed.

(** ** NARC *)
Lemma swapped v : 0 <= v < 65536 -> (Z.lor (Z.shiftl (Z.land v 0xFF) 8) (Z.shiftr v 8) =? 1) = (v =? 0x100).
Proof.
  intros R. assert (E : Z.lor (Z.shiftl (Z.land v 0xFF) 8) (Z.shiftr v 8) = 256 * (v mod 256) + v / 256).
  { change 0xFF with (Z.ones 8). rewrite Z.land_ones, Z.shiftr_div_pow2 by lia. change (2 ^ 8) with 256.
    rewrite Z.lor_comm. rewrite (lor_add (v / 256) (v mod 256) 8) by (change (2 ^ 8) with 256; Z.to_euclidean_division_equations; lia). change (2 ^ 8) with 256. lia. }
  rewrite E. destruct (Z.eqb_spec v 0x100) as [->|N]; [reflexivity|]. apply Z.eqb_neq. Z.to_euclidean_division_equations. lia.
Qed.
(** one read of a loader that succeeds *)
Ltac stp H := match type of H with
  | bind (rd _ _ _) _ = Ok _ => let x := fresh "x" in let E := fresh "E" in let L := fresh "L" in apply bind_ok in H as (x & E & H); apply rd_inv in E as (L & ->); [|lia|lia]
  | bind (unpack_u 4 _ _) _ = Ok _ => let x := fresh "x" in let E := fresh "E" in let L := fresh "L" in apply bind_ok in H as (x & E & H); apply word_inv in E as (L & ->); [|lia]
  | bind (unpack_u 2 _ _) _ = Ok _ => let x := fresh "x" in let E := fresh "E" in let L := fresh "L" in apply bind_ok in H as (x & E & H); apply half_inv in E as (L & ->); [|lia]
  | bind (unpack_u 1 _ _) _ = Ok _ => let x := fresh "x" in let E := fresh "E" in let L := fresh "L" in apply bind_ok in H as (x & E & H); apply byte_inv in E as (L & ->); [|lia]
  | bind (guard _ _) _ = Ok _ => let x := fresh "x" in let G := fresh "G" in apply bind_ok in H as (x & G & H); apply guard_inv in G; clear x
  end; cbv beta in H.
Lemma narc_inv depth d n : is_bytes d -> narc_load depth d = Ok n -> narc_shape d /\ nEndian n = (if half d 4 =? 0xFFFE then BE else LE) /\
  nFiles n = map (narc_file d) (seq 0 (Z.to_nat (word d 0x18))) /\ FntModel.load depth (part d (narc_fntb d + 8) (word d (narc_fntb d + 4) - 8)) = Ok (nFilenames n).
Proof.
  intros B H. unfold narc_load in H. repeat stp H. pose proof (half_range d 6 B ltac:(lia) ltac:(lia)) as R6.
  assert (H' : exists e, e = (if half d 4 =? 0xFFFE then BE else LE) /\ ((half d 4 = 0xFFFE /\ half d 6 = 0x100) \/ (half d 4 <> 0xFFFE /\ half d 6 = 1)) /\
     (_ <- guard (beq (part d 0 4) (asc "NARC")) ValueError ;;
      fatbMagic <- rd d 0x10 4 ;;
      fatbSize <- unpack_u 4 d 0x14 ;;
      fileCount <- unpack_u 4 d 0x18 ;;
      _ <- guard (beq fatbMagic (rev (asc "FATB"))) AssertionError ;;
      let fntbOffset := 0x10 + fatbSize in
      fntbMagic <- rd d fntbOffset 4 ;;
      fntbSize <- unpack_u 4 d (fntbOffset + 4) ;;
      _ <- guard (beq fntbMagic (rev (asc "FNTB"))) AssertionError ;;
      let fimgOffset := fntbOffset + fntbSize in
      fimgMagic <- rd d fimgOffset 4 ;;
      _ <- unpack_u 4 d (fimgOffset + 4) ;;
      _ <- guard (beq fimgMagic (rev (asc "FIMG"))) AssertionError ;;
      let rawDataOffset := fimgOffset + 8 in
      files <- mapM (narc_loadFile d rawDataOffset) (range_z 0 (Z.to_nat fileCount)) ;;
      names <- load depth (slice d (fntbOffset + 8) (fntbOffset + fntbSize)) ;;
      Ok {| nFilenames := names; nFiles := files; nEndian := e |}) = Ok n).
  { destruct (half d 4 =? 0xFFFE) eqn:E4; stp H; [rewrite swapped in G by exact R6|]; eexists; (split; [reflexivity|]); (split; [|exact H]); [left|right]; split; lia. }
  clear H R6. destruct H' as (e & E4 & VV & H). repeat stp H. pose proof (word_range d 0x14 B ltac:(lia) ltac:(lia)) as R14. cbv zeta in H. fold (narc_fntb d) in H. assert (0 <= narc_fntb d) by (unfold narc_fntb; lia). repeat stp H.
  pose proof (word_range d (narc_fntb d + 4) B ltac:(lia) ltac:(lia)) as RF. cbv zeta in H. fold (narc_fimg d) in H. assert (0 <= narc_fimg d) by (unfold narc_fimg; lia). repeat stp H. cbv zeta in H.
  apply bind_ok in H as (fs & FS & H). apply bind_ok in H as (names & NS & H). injection H as <-. cbn [nEndian nFiles nFilenames].
  apply beq_eq in G, G0, G1, G2. pose proof (word_range d 0x18 B ltac:(lia) ltac:(lia)) as R18.
  apply mapM_range_inv in FS as (LF & FS).
  assert (FE : forall i x, nth_error fs i = Some x -> 0x1C + 8 * Z.of_nat i + 8 <= zlen d /\ x = narc_file d i).
  { intros i x X. apply FS in X. unfold narc_loadFile in X. repeat stp X. replace (28 + 8 * Z.of_nat i + 4) with (32 + 8 * Z.of_nat i) in * by lia. split; [lia|]. injection X as <-.
    pose proof (word_range d (28 + 8 * Z.of_nat i) B ltac:(lia) ltac:(lia)). pose proof (word_range d (32 + 8 * Z.of_nat i) B ltac:(lia) ltac:(lia)). unfold narc_file. cbv zeta. rewrite slice_part by lia. f_equal. lia. }
  split.
  - unfold narc_shape. assert (C : 28 + 8 * word d 24 <= zlen d).
    { destruct (Z.to_nat (word d 24)) as [|k] eqn:K; [lia|]. destruct (nth_error fs k) as [x|] eqn:X; [|apply nth_error_None in X; lia]. apply FE in X as (X & _). lia. }
    split; [lia|]. split; [exact G|]. split; [exact VV|]. split; [exact G0|]. split; [exact C|]. split; [exact G1|]. split; [lia|]. split; [exact G2|lia].
  - split; [exact E4|]. split; [|rewrite slice_part in NS by lia; replace (narc_fimg d - (narc_fntb d + 8)) with (word d (narc_fntb d + 4) - 8) in NS by (unfold narc_fimg; lia); exact NS].
    apply (list_of_nth fs _ (narc_file d) LF). intros i x X. apply FE in X as (_ & ->). reflexivity.
Qed.
Ltac fwd := match goal with
  | |- bind (rd ?d ?o ?n) _ = _ => rewrite (rd_in d o n) by lia
  | |- bind (unpack_u 4 ?d ?o) _ = _ => rewrite (unpack_word d o) by lia
  | |- bind (unpack_u 2 ?d ?o) _ = _ => rewrite (unpack_half d o) by lia
  | |- bind (unpack_u 1 ?d ?o) _ = _ => rewrite (unpack_byte d o) by lia
  end; cbn [bind].
Lemma narc_fwd depth d names : is_bytes d -> narc_shape d -> FntModel.load depth (part d (narc_fntb d + 8) (word d (narc_fntb d + 4) - 8)) = Ok names ->
  narc_load depth d = Ok {| nFilenames := names; nFiles := map (narc_file d) (seq 0 (Z.to_nat (word d 0x18))); nEndian := if half d 4 =? 0xFFFE then BE else LE |}.
Proof.
  intros B (S1 & S2 & S3 & S4 & S5 & S6 & S7 & S8 & S9) N. pose proof (half_range d 6 B ltac:(lia) ltac:(lia)) as R6.
  pose proof (word_range d 0x14 B ltac:(lia) ltac:(lia)) as R14. pose proof (word_range d 0x18 B ltac:(lia) ltac:(lia)) as R18. assert (0 <= narc_fntb d) by (unfold narc_fntb; lia).
  pose proof (word_range d (narc_fntb d + 4) B ltac:(lia) ltac:(lia)) as RF. assert (0 <= narc_fimg d) by (unfold narc_fimg; lia).
  unfold narc_load. repeat fwd. rewrite S2.
  assert (K : forall e, (_ <- guard (beq [78; 65; 82; 67] (asc "NARC")) ValueError ;;
      fatbMagic <- rd d 0x10 4 ;;
      fatbSize <- unpack_u 4 d 0x14 ;;
      fileCount <- unpack_u 4 d 0x18 ;;
      _ <- guard (beq fatbMagic (rev (asc "FATB"))) AssertionError ;;
      let fntbOffset := 0x10 + fatbSize in
      fntbMagic <- rd d fntbOffset 4 ;;
      fntbSize <- unpack_u 4 d (fntbOffset + 4) ;;
      _ <- guard (beq fntbMagic (rev (asc "FNTB"))) AssertionError ;;
      let fimgOffset := fntbOffset + fntbSize in
      fimgMagic <- rd d fimgOffset 4 ;;
      _ <- unpack_u 4 d (fimgOffset + 4) ;;
      _ <- guard (beq fimgMagic (rev (asc "FIMG"))) AssertionError ;;
      let rawDataOffset := fimgOffset + 8 in
      files <- mapM (narc_loadFile d rawDataOffset) (range_z 0 (Z.to_nat fileCount)) ;;
      names <- load depth (slice d (fntbOffset + 8) (fntbOffset + fntbSize)) ;;
      Ok {| nFilenames := names; nFiles := files; nEndian := e |}) = Ok {| nFilenames := names; nFiles := map (narc_file d) (seq 0 (Z.to_nat (word d 0x18))); nEndian := e |}).
  { intros e. change (beq [78; 65; 82; 67] (asc "NARC")) with true. cbn [guard bind]. repeat fwd. rewrite S4. change (beq [66; 84; 65; 70] (rev (asc "FATB"))) with true. cbn [guard bind]. cbv zeta. fold (narc_fntb d). repeat fwd. fold (narc_fimg d).
    rewrite S6. change (beq [66; 84; 78; 70] (rev (asc "FNTB"))) with true. cbn [guard bind]. cbv zeta. repeat fwd. rewrite S8. change (beq [71; 77; 73; 70] (rev (asc "FIMG"))) with true. cbn [guard bind].
    rewrite (mapM_range _ (narc_file d)).
    - cbn [bind]. rewrite slice_part by lia. replace (narc_fimg d - (narc_fntb d + 8)) with (word d (narc_fntb d + 4) - 8) by (unfold narc_fimg; lia). rewrite N. reflexivity.
    - intros i I. unfold narc_loadFile. repeat fwd. replace (28 + 8 * Z.of_nat i + 4) with (32 + 8 * Z.of_nat i) by lia.
      pose proof (word_range d (28 + 8 * Z.of_nat i) B ltac:(lia) ltac:(lia)). pose proof (word_range d (32 + 8 * Z.of_nat i) B ltac:(lia) ltac:(lia)). unfold narc_file. cbv zeta. rewrite slice_part by lia. do 2 f_equal. lia. }
  destruct S3 as [(E4 & E6)|(E4 & E6)].
  - rewrite E4, Z.eqb_refl, E6. cbn [bind guard]. apply K.
  - rewrite (proj2 (Z.eqb_neq _ _) E4), E6. cbn [bind guard Z.eqb Pos.eqb]. apply K.
Qed.

(** ** overlay tables *)
Section Dict.
Context {V : Type}.
Lemma dset_in' (d : list (Z * V)) k v a b : NoDup (map fst d) -> In (a, b) (dset d k v) <-> (a = k /\ b = v) \/ (a <> k /\ In (a, b) d).
Proof.
  induction d as [|[k' v'] d IH]; cbn [dset map fst]; intros N.
  - cbn [In]. split; [intros [H|[]]; injection H as <- <-; left; split; reflexivity|]. intros [(-> & ->)|(_ & [])]. left. reflexivity.
  - inversion N; subst. destruct (Z.eqb_spec k' k) as [->|NE]; cbn [In].
    + split.
      * intros [H|H]; [injection H as <- <-; left; split; reflexivity|]. right. split; [|right; exact H]. intros ->. apply H1. apply in_map_iff. exists (k, b). split; [reflexivity|exact H].
      * intros [(-> & ->)|(NE & [H|H])]; [left; reflexivity|congruence|right; exact H].
    + rewrite IH by assumption. split.
      * intros [H|[H|(H & H')]]; [injection H as <- <-; right; split; [exact NE|left; reflexivity]|left; exact H|right; split; [exact H|right; exact H']].
      * intros [H|(H & [H'|H'])]; [right; left; exact H|left; exact H'|right; right; split; assumption].
Qed.
Lemma dset_keys' (d : list (Z * V)) k v : map fst (dset d k v) = map fst d ++ (if existsb (Z.eqb k) (map fst d) then [] else [k]).
Proof.
  induction d as [|[k' v'] d IH]; [reflexivity|]. cbn [dset map fst existsb]. rewrite Z.eqb_sym. destruct (Z.eqb_spec k k') as [->|NE]; cbn [map fst orb app]; [rewrite app_nil_r; reflexivity|]. f_equal. exact IH.
Qed.
End Dict.
Lemma firsts_in l x : In x (firsts l) <-> In x l.
Proof.
  induction l as [|y l IH]; [tauto|]. cbn [firsts In]. rewrite filter_In, IH. destruct (Z.eqb_spec x y) as [->|N]; cbn [negb]; intuition congruence.
Qed.
Lemma firsts_nodup l : NoDup (firsts l).
Proof.
  induction l as [|y l IH]; cbn [firsts]; [constructor|]. constructor; [|apply NoDup_filter; exact IH]. rewrite filter_In, Z.eqb_refl. intros (_ & X). discriminate.
Qed.
Lemma firsts_snoc l x : firsts (l ++ [x]) = firsts l ++ (if existsb (Z.eqb x) l then [] else [x]).
Proof.
  induction l as [|y l IH]; [reflexivity|]. cbn [app firsts existsb]. rewrite IH, filter_app. destruct (Z.eqb_spec x y) as [->|N]; cbn [orb].
  - destruct (existsb (Z.eqb y) l); cbn [filter]; rewrite ?Z.eqb_refl; cbn [negb]; rewrite !app_nil_r; reflexivity.
  - destruct (existsb (Z.eqb x) l); cbn [filter]; [rewrite !app_nil_r; reflexivity|]. rewrite (proj2 (Z.eqb_neq x y) N). reflexivity.
Qed.
Lemma existsb_firsts l x : existsb (Z.eqb x) (firsts l) = existsb (Z.eqb x) l.
Proof.
  apply Bool.eq_iff_eq_true. rewrite !existsb_exists. split; intros (y & I & E); exists y; (split; [apply firsts_in; exact I|exact E]).
Qed.
Definition selected (ids : option (Z -> bool)) (id : Z) : bool := match ids with None => true | Some f => f id end.
Lemma wanted_iff ids id : wanted ids id <-> selected ids id = true.
Proof. destruct ids; cbn; tauto. Qed.
Lemma odd_land v : negb (Z.land v 1 =? 0) = Z.odd v.
Proof. change 1 with (Z.ones 1). rewrite Z.land_ones by lia. change (2 ^ 1) with 2. rewrite Zmod_odd. destruct (Z.odd v); reflexivity. Qed.
Lemma row_word d i k b : 0 <= k < 8 -> b = part d (32 * Z.of_nat i) 32 -> unle (slice b (4 * k) (4 * k + 4)) = row d i k.
Proof. intros K ->. unfold row. rewrite slice_part0, part_part by lia. rewrite word_part by lia. reflexivity. Qed.
Section Rows.
Context (d : bytes) (cb : Z -> Z -> res bytes) (ids : option (Z -> bool)) (B : is_bytes d).
Definition one_row (t : list (Z * overlay)) (i : nat) : res (list (Z * overlay)) := load_ov d cb ids t (32 * Z.of_nat i).
Lemma one_row_inv t i t' : one_row t i = Ok t' -> 32 * Z.of_nat i + 32 <= zlen d /\
  ((selected ids (row d i 0) = false /\ t' = t) \/ (selected ids (row d i 0) = true /\ exists ov, overlay_at d cb i ov /\ t' = dset t (row d i 0) ov)).
Proof.
  unfold one_row, load_ov. intros H. stp H. cbv zeta beta in H. split; [lia|]. pose proof (fun k K => row_word d i k _ K eq_refl) as E. rewrite !E in H by lia. clear E.
  assert (S : match ids with None => false | Some f => negb (f (row d i 0)) end = negb (selected ids (row d i 0))) by (destruct ids; reflexivity). rewrite S in H. clear S.
  destruct (selected ids (row d i 0)); cbn [negb] in H; [right|left; split; [reflexivity|congruence]]. split; [reflexivity|]. apply bind_ok in H as (f & F & H). apply bind_ok in H as (ov & O & H). injection H as <-. exists ov. split; [|reflexivity].
  unfold overlay_new in O. apply bind_ok in O as (x & X & O). injection O as <-. unfold overlay_at. cbn [oFlags oData oRamAddress oRamSize oBssSize oSiStart oSiEnd oFileID oCompressedSize].
  split; [|split; [reflexivity|]]. 2:{ change 0xFFFFFF with (Z.ones 24). rewrite Z.land_ones, Z.shiftr_div_pow2 by lia. split; reflexivity. }
  exists f. split; [exact F|]. unfold flags_compressed in X. rewrite odd_land in X. destruct (Z.odd _); [exact X|congruence].
Qed.
Lemma one_row_fwd t i : 32 * Z.of_nat i + 32 <= zlen d -> (wanted ids (row d i 0) -> exists ov, overlay_at d cb i ov) -> exists t', one_row t i = Ok t'.
Proof.
  intros L H. unfold one_row, load_ov. rewrite rd_in by lia. cbn [bind]. cbv zeta beta. pose proof (fun k K => row_word d i k _ K eq_refl) as E. rewrite !E by lia. clear E.
  assert (S : match ids with None => false | Some f => negb (f (row d i 0)) end = negb (selected ids (row d i 0))) by (destruct ids; reflexivity). rewrite S. clear S.
  destruct (selected ids (row d i 0)) eqn:S; cbn [negb]; [|eexists; reflexivity]. destruct (H (proj2 (wanted_iff _ _) S)) as (ov & (f & F & D) & _ & _ & G). rewrite F. cbn [bind]. unfold overlay_new, flags_compressed. rewrite odd_land.
  rewrite Z.shiftr_div_pow2 by lia. rewrite <- G. destruct (Z.odd (oFlags ov)); [rewrite D; cbn [bind]|cbn [bind]]; eexists; reflexivity.
Qed.
Definition table_of (n : nat) (t : list (Z * overlay)) : Prop :=
  32 * Z.of_nat n <= zlen d /\ map fst t = firsts (filter (selected ids) (map (fun i => row d i 0) (seq 0 n))) /\
  (forall id ov, In (id, ov) t -> exists i, (i < n)%nat /\ row d i 0 = id /\ wanted ids id /\ overlay_at d cb i ov /\ forall j, (i < j < n)%nat -> row d j 0 <> id) /\
  (forall i, (i < n)%nat -> wanted ids (row d i 0) -> exists ov, overlay_at d cb i ov).
Lemma table_step n t t' : table_of n t -> one_row t n = Ok t' -> table_of (S n) t'.
Proof.
  intros (L & K & IN & AV) H. destruct (one_row_inv _ _ _ H) as (L2 & C). assert (SQ : map (fun i => row d i 0) (seq 0 (S n)) = map (fun i => row d i 0) (seq 0 n) ++ [row d n 0]) by (rewrite seq_S, map_app; reflexivity).
  unfold table_of. split; [lia|]. rewrite SQ, filter_app. cbn [filter]. destruct C as [(W & ->)|(W & ov & O & ->)]; rewrite W.
  - split; [rewrite app_nil_r; exact K|]. split.
    + intros id ov I. destruct (IN id ov I) as (i & I1 & I2 & I3 & I4 & I5). exists i. split; [lia|]. split; [exact I2|]. split; [exact I3|]. split; [exact I4|]. intros j J. destruct (Nat.eq_dec j n) as [->|N]; [|apply I5; lia].
      intros X. apply wanted_iff in I3. congruence.
    + intros i I X. destruct (Nat.eq_dec i n) as [->|N]; [apply wanted_iff in X; congruence|]. apply AV; [lia|exact X].
  - assert (ND : NoDup (map fst t)) by (rewrite K; apply firsts_nodup). split; [rewrite dset_keys', K, existsb_firsts, firsts_snoc; reflexivity|]. split.
    + intros id v I. apply dset_in' in I as [(-> & ->)|(NE & I)]; [|destruct (IN id v I) as (i & I1 & I2 & I3 & I4 & I5)|exact ND].
      * exists n. split; [lia|]. split; [reflexivity|]. split; [apply wanted_iff; exact W|]. split; [exact O|]. intros j J. lia.
      * exists i. split; [lia|]. split; [exact I2|]. split; [exact I3|]. split; [exact I4|]. intros j J. destruct (Nat.eq_dec j n) as [->|N]; [congruence|apply I5; lia].
    + intros i I X. destruct (Nat.eq_dec i n) as [->|N]; [exists ov; exact O|]. apply AV; [lia|exact X].
Qed.
Lemma rows_fold n t : foldM (load_ov d cb ids) [] (map (fun n => 32 * n) (range_z 0 n)) = Ok t -> table_of n t.
Proof.
  revert t. induction n as [|n IH]; intros t H.
  - injection H as <-. split; [pose proof (zlen_nonneg d); lia|]. split; [reflexivity|]. split; [intros id ov []|intros i I; lia].
  - rewrite range_z_snoc, map_app, foldM_app in H. apply bind_ok in H as (t0 & H0 & H). cbn [map foldM] in H. rewrite Z.add_0_l in H. apply bind_ok in H as (t1 & H1 & H). injection H as <-. exact (table_step n t0 t1 (IH t0 H0) H1).
Qed.
Lemma rows_fwd n : 32 * Z.of_nat n <= zlen d -> (forall i, (i < n)%nat -> wanted ids (row d i 0) -> exists ov, overlay_at d cb i ov) -> exists t, foldM (load_ov d cb ids) [] (map (fun n => 32 * n) (range_z 0 n)) = Ok t.
Proof.
  induction n as [|n IH]; intros L H; [eexists; reflexivity|]. destruct IH as (t & E); [lia|intros i I; apply H; lia|]. rewrite range_z_snoc, map_app, foldM_app, E. cbn [bind map foldM]. rewrite Z.add_0_l.
  destruct (one_row_fwd t n) as (t' & T); [lia|apply H; lia|]. unfold one_row in T. rewrite T. eexists. reflexivity.
Qed.
Lemma overlays_read t : loadOverlayTable d cb ids = Ok t -> zlen d mod 32 = 0 /\ table_of (Z.to_nat (zlen d / 32)) t.
Proof.
  intros H. unfold loadOverlayTable in H. apply rows_fold in H. pose proof (zlen_nonneg d). assert (M : zlen d mod 32 = 0) by (destruct H as (L & _); lia). split; [exact M|]. replace ((zlen d + 31) / 32) with (zlen d / 32) in H by lia. exact H.
Qed.
Lemma overlays_accepted : (exists t, loadOverlayTable d cb ids = Ok t) <-> zlen d mod 32 = 0 /\ forall i, 32 * Z.of_nat i < zlen d -> wanted ids (row d i 0) -> exists ov, overlay_at d cb i ov.
Proof.
  pose proof (zlen_nonneg d). split.
  - intros (t & H1). apply overlays_read in H1 as (M & _ & _ & _ & A). split; [exact M|]. intros i I. apply A. lia.
  - intros (M & A). unfold loadOverlayTable. apply rows_fwd; [lia|]. intros i I. apply A. lia.
Qed.
End Rows.

(** ** touch areas and image positions *)
Lemma align_view x y : 0 <= x < 65536 -> 0 <= y < 65536 -> unpackAlignmentFromPos x y = (x mod 4096, y mod 4096, h_align x + v_align y).
Proof.
  intros X Y. unfold unpackAlignmentFromPos, h_align, v_align. change 0xFFF with (Z.ones 12). change 3 with (Z.ones 2). rewrite !Z.land_ones, !Z.shiftr_div_pow2 by lia. change (2 ^ 12) with 4096. change (2 ^ 2) with 4. f_equal.
  assert (A : x / 4096 mod 4 = 0 \/ x / 4096 mod 4 = 1 \/ x / 4096 mod 4 = 2 \/ x / 4096 mod 4 = 3) by lia. assert (C : y / 4096 mod 4 = 0 \/ y / 4096 mod 4 = 1 \/ y / 4096 mod 4 = 2 \/ y / 4096 mod 4 = 3) by lia.
  destruct A as [A|[A|[A|A]]]; destruct C as [C|[C|[C|C]]]; rewrite A, C; reflexivity.
Qed.
Lemma half_in d o n i : 0 <= o -> 0 <= n -> 0 <= i -> i + 2 <= n -> half (part d o n) i = half d (o + i).
Proof. intros. rewrite !half_part, part_part by lia. reflexivity. Qed.
Lemma byte_in d o n i : 0 <= o -> 0 <= i < n -> o + i < zlen d -> byte (part d o n) i = byte d (o + i).
Proof.
  intros O I L. assert (E : unpack_u 1 (part d o n) i = unpack_u 1 d (o + i)).
  { rewrite !unpack_in by (rewrite ?zlen_part_min by lia; lia). rewrite part_part by lia. reflexivity. }
  rewrite !unpack_byte in E by (rewrite ?zlen_part_min by lia; lia). congruence.
Qed.
Lemma magic_view d s : zlen d >= 0 -> beq (slice_to d 4) s = true <-> part d 0 4 = s.
Proof. intros _. unfold slice_to. rewrite slice_part by lia. rewrite Z.sub_0_r. split; [apply beq_eq|intros E; rewrite E; apply beq_refl]. Qed.
Lemma bnbl_view d b : is_bytes d -> bnbl_load d = Ok b <-> part d 0 4 = asc "JNBL" /\ 8 <= zlen d /\ 8 + 6 * half d 6 <= zlen d /\
  b = {| blUnk04 := half d 4; blAreas := map (fun i => area_at d (8 + 6 * Z.of_nat i)) (seq 0 (Z.to_nat (half d 6))) |}.
Proof.
  intros B. split.
  - intros H. unfold bnbl_load in H. repeat stp H. apply magic_view in G; [|unfold zlen; lia]. apply bind_ok in H as (l & M & H). injection H as <-. apply mapM_range_inv in M as (LL & M).
    assert (FE : forall i x, nth_error l i = Some x -> 8 + 6 * Z.of_nat i + 6 <= zlen d /\ x = area_at d (8 + 6 * Z.of_nat i)).
    { intros i x X. apply M in X. unfold touchArea_fromData in X. rewrite slice_part in X by lia. replace (8 + Z.of_nat i * 6 + 6 - (8 + Z.of_nat i * 6)) with 6 in X by lia. repeat stp X. rewrite zlen_part_min in L4 by lia.
      rewrite !half_in, !byte_in in X by lia. replace (8 + Z.of_nat i * 6) with (8 + 6 * Z.of_nat i) in X by lia. split; [lia|]. rewrite Z.add_0_r in X.
      rewrite align_view in X by (apply half_range; [exact B|lia|lia]). injection X as <-. reflexivity. }
    pose proof (half_range d 6 B ltac:(lia) ltac:(lia)). split; [exact G|]. split; [lia|]. split.
    + destruct (Z.to_nat (half d 6)) as [|k] eqn:K; [lia|]. destruct (nth_error l k) as [x|] eqn:X; [|apply nth_error_None in X; lia]. apply FE in X as (X & _). lia.
    + f_equal. apply list_of_nth; [exact LL|]. intros i x X. apply FE in X as (_ & X). exact X.
  - intros (G & L & L2 & ->). unfold bnbl_load. rewrite (proj2 (magic_view d _ ltac:(unfold zlen; lia)) G). cbn [guard bind]. repeat fwd. pose proof (half_range d 6 B ltac:(lia) ltac:(lia)).
    rewrite (mapM_range _ (fun i => area_at d (8 + 6 * Z.of_nat i))); [reflexivity|]. intros i I. unfold touchArea_fromData. rewrite slice_part by lia. replace (8 + Z.of_nat i * 6 + 6 - (8 + Z.of_nat i * 6)) with 6 by lia.
    rewrite !(unpack_half (part d _ 6)), !(unpack_byte (part d _ 6)) by (rewrite ?zlen_part by lia; lia). cbn [bind]. rewrite !half_in, !byte_in by lia. replace (8 + Z.of_nat i * 6) with (8 + 6 * Z.of_nat i) by lia. rewrite Z.add_0_r.
    rewrite align_view by (apply half_range; [exact B|lia|lia]). reflexivity.
Qed.
Lemma bncl_view d b : is_bytes d -> bncl_load d = Ok b <-> part d 0 4 = asc "JNCL" /\ 8 <= zlen d /\ 8 + 8 * half d 6 <= zlen d /\
  b = {| clUnk04 := half d 4; clPositions := map (fun i => position_at d (8 + 8 * Z.of_nat i)) (seq 0 (Z.to_nat (half d 6))) |}.
Proof.
  intros B. split.
  - intros H. unfold bncl_load in H. repeat stp H. apply magic_view in G; [|unfold zlen; lia]. apply bind_ok in H as (l & M & H). injection H as <-. apply mapM_range_inv in M as (LL & M).
    assert (FE : forall i x, nth_error l i = Some x -> 8 + 8 * Z.of_nat i + 8 <= zlen d /\ x = position_at d (8 + 8 * Z.of_nat i)).
    { intros i x X. apply M in X. unfold imagePosition_fromData in X. rewrite slice_part in X by lia. replace (8 + Z.of_nat i * 8 + 8 - (8 + Z.of_nat i * 8)) with 8 in X by lia. repeat stp X. rewrite zlen_part_min in L3 by lia.
      rewrite !half_in, !word_in in X by lia. replace (8 + Z.of_nat i * 8) with (8 + 8 * Z.of_nat i) in X by lia. split; [lia|]. rewrite Z.add_0_r in X.
      rewrite align_view in X by (apply half_range; [exact B|lia|lia]). injection X as <-. reflexivity. }
    pose proof (half_range d 6 B ltac:(lia) ltac:(lia)). split; [exact G|]. split; [lia|]. split.
    + destruct (Z.to_nat (half d 6)) as [|k] eqn:K; [lia|]. destruct (nth_error l k) as [x|] eqn:X; [|apply nth_error_None in X; lia]. apply FE in X as (X & _). lia.
    + f_equal. apply list_of_nth; [exact LL|]. intros i x X. apply FE in X as (_ & X). exact X.
  - intros (G & L & L2 & ->). unfold bncl_load. rewrite (proj2 (magic_view d _ ltac:(unfold zlen; lia)) G). cbn [guard bind]. repeat fwd. pose proof (half_range d 6 B ltac:(lia) ltac:(lia)).
    rewrite (mapM_range _ (fun i => position_at d (8 + 8 * Z.of_nat i))); [reflexivity|]. intros i I. unfold imagePosition_fromData. rewrite slice_part by lia. replace (8 + Z.of_nat i * 8 + 8 - (8 + Z.of_nat i * 8)) with 8 by lia.
    rewrite !(unpack_half (part d _ 8)), !(unpack_word (part d _ 8)) by (rewrite ?zlen_part by lia; lia). cbn [bind]. rewrite !half_in, !word_in by lia. replace (8 + Z.of_nat i * 8) with (8 + 8 * Z.of_nat i) by lia. rewrite Z.add_0_r.
    rewrite align_view by (apply half_range; [exact B|lia|lia]). reflexivity.
Qed.

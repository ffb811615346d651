(** * Loading a saved sound archive, in the terms of SdatSpec.v *)
From Coq Require Import String.
From Verif Require Import PyBase PyLemmas PyTac AtLemmas CommonModel WaveModel WaveLemmas SeqModel SeqLemmas SsarModel SbnkModel RomSpec RomLayout RomLoad
  SdatModel SdatFiles SdatSymb SdatFat SdatSave SdatLoad SdatBack SdatSpec SdatLayout.

Lemma reloads_iff {A B} (Q : A -> B -> Prop) (R : nat -> A -> B -> Prop) (l : list (name * option A)) l' :
  (forall j n x y, nth_error l j = Some (n, Some x) -> (Q x y <-> R j x y)) -> (Forall2 (same_names Q) l l' <-> reloads R l l').
Proof.
  intros H. split.
  - intros F. split; [clear H; induction F; cbn [length]; congruence|]. intros j n x N. destruct (Forall2_nth _ _ _ _ _ F N) as ([n' y] & Y & E & O). cbn [fst snd] in *. subst n'. exists y. split; [exact Y|].
    destruct x as [x|], y as [y|]; try contradiction; [|exact I]. exact (proj1 (H _ _ _ _ N) O).
  - intros [L F]. revert R l' L F H. induction l as [|[n x] l IH]; intros R l' L F H; destruct l' as [|[n' y] l']; try discriminate; constructor.
    + destruct (F 0%nat n x eq_refl) as (y' & Y & E). injection Y as -> ->. split; [reflexivity|]. cbn [fst snd]. destruct x as [x|], y' as [y'|]; try contradiction; [|exact I]. exact (proj2 (H 0%nat _ _ _ eq_refl) E).
    + apply (IH (fun j => R (S j))); [injection L as L; exact L| |].
      * intros j n0 x0 N. exact (F (S j) n0 x0 N).
      * intros j n0 x0 y0 N. exact (H (S j) n0 x0 y0 N).
Qed.
Lemma divide_fold g l : forall a, (g | fold_left Z.gcd l a) <-> (g | a) /\ forall x, In x l -> (g | x).
Proof.
  induction l as [|x l IH]; intros a; cbn [fold_left]; [split; [intros H; split; [exact H|intros x []]|intros [H _]; exact H]|]. rewrite IH. split.
  - intros [H F]. split; [exact (Z.divide_trans _ _ _ H (Z.gcd_divide_l _ _))|]. intros z [<-|I]; [exact (Z.divide_trans _ _ _ H (Z.gcd_divide_r _ _))|exact (F z I)].
  - intros [H F]. split; [apply Z.gcd_greatest; [exact H|apply F; left; reflexivity]|]. intros z I. apply F. right. exact I.
Qed.
Lemma gaps_iff l : gaps l = true <-> forall i a b, nth_error l i = Some a -> nth_error l (S i) = Some b -> fst b - fst a = snd a.
Proof.
  induction l as [|x [|z l] IH].
  - split; [intros _ [|i] a b N; discriminate|reflexivity].
  - split; [intros _ [|[|i]] a b N N'; discriminate|reflexivity].
  - change (gaps (x :: z :: l)) with ((fst z - fst x =? snd x) && gaps (z :: l)). rewrite andb_true_iff, IH, Z.eqb_eq. split.
    + intros [E F] [|i] a b N N'; [injection N as <-; injection N' as <-; exact E|exact (F i a b N N')].
    + intros F. split; [exact (F 0%nat x z eq_refl eq_refl)|]. intros i a b N N'. exact (F (S i) a b N N').
Qed.
Lemma last_end_nth l : forall e x, nth_error l (length l - 1) = Some x -> last_end e l = fst x + snd x.
Proof.
  induction l as [|a l IH]; intros e x N; [discriminate|]. cbn [last_end length] in *. destruct l as [|b l]; [injection N as <-; reflexivity|]. apply IH. cbn [length] in *.
  replace (S (S (length l)) - 1)%nat with (S (S (length l) - 1)) in N by lia. exact N.
Qed.
Lemma zlen_strs l : zlen (strs l) = fold_right (fun n k => match n with Some n => zlen n + 1 + k | None => k end) 0 l.
Proof. induction l as [|[n|] l IH]; cbn [fold_right]; [reflexivity| |]; rewrite strs_cons, zlen_app, IH; cbn [nstr]; [rewrite zlen_app; reflexivity|reflexivity]. Qed.
Lemma names_eq s : all_names s = names s.
Proof.
  unfold all_names, name_lists, names. cbn [concat]. rewrite app_nil_r. f_equal. f_equal. unfold flat, nested_names. generalize (dArchs s) as l. clear.
  induction l as [|[n [[m a]|]] l IH]; cbn [map flat_map fst snd subNames subs_of]; [reflexivity| |]; rewrite IH; reflexivity.
Qed.
Lemma nul_eq n : no_nul n <-> nul_free n.
Proof. reflexivity. Qed.

Section Saved.
  Variables (s : sdat) (D : bytes) (y : symb) (bss : list (list (option bytes))) (FS : files) (infoOff fatOff fileOff : Z).
  Hypotheses (SV : saved s D y bss FS infoOff fatOff fileOff) (NN : Forall no_nul (all_names s)).
  Lemma fat_len : length (fat_of s FS fileOff) = length FS.
  Proof. unfold fat_of, fat_list. rewrite combine_length, map_length, foffs_length, map_length. lia. Qed.
  Lemma fat_nth' i : 0 <= i < file_count D -> nth_error (fat_of s FS fileOff) (Z.to_nat i) = Some (file_start D i, file_length D i).
  Proof.
    intros I. rewrite (count_files s D y bss FS infoOff fatOff fileOff SV) in I. destruct (nth_error (fat_of s FS fileOff) (Z.to_nat i)) as [[o e]|] eqn:E.
    - apply (fat_nth s D y bss FS infoOff fatOff fileOff SV) in E as [<- <-]. rewrite Z2Nat.id by lia. reflexivity.
    - apply nth_error_None in E. rewrite fat_len in E. unfold zlen in I. lia.
  Qed.
  Lemma view_eq i : 0 <= i < file_count D -> nth_error (views_of s FS) (Z.to_nat i) = Some (file_view D i).
  Proof.
    intros I. pose proof (views_ok s D y bss FS infoOff fatOff fileOff SV) as V. cbv zeta in V. rewrite <- V, nth_error_map, (fat_nth' i I). reflexivity.
  Qed.
  Lemma views_len : length (views_of s FS) = length FS.
  Proof. pose proof (views_ok s D y bss FS infoOff fatOff fileOff SV) as V. cbv zeta in V. rewrite <- V, map_length. exact fat_len. Qed.
  Lemma back_file f m k j b rest tail : refers FS f m rest tail b -> at_ D (entry D k j) b ->
    forall i v, back FS (views_of s FS) f m i v <-> i = file_id D k j /\ v = file_view D i.
  Proof.
    intros R A i v. destruct (refers_id D FS _ _ _ _ _ _ _ R A) as (I & N & _).
    assert (C : 0 <= file_id D k j < file_count D) by (rewrite (count_files s D y bss FS infoOff fatOff fileOff SV); split; [exact I|]; assert (Z.to_nat (file_id D k j) < length FS)%nat by (apply nth_error_Some; congruence); unfold zlen; lia).
    assert (B : back FS (views_of s FS) f m (file_id D k j) (file_view D (file_id D k j))) by (split; [exact I|split; [exact N|exact (view_eq _ C)]]).
    split; [|intros [-> ->]; exact B]. intros X. destruct (back_unique _ _ _ _ _ _ _ _ (ND s D y bss FS infoOff fatOff fileOff SV) B X) as [-> ->]. split; reflexivity.
  Qed.
  (** each kind *)
  Lemma seqs_iff l' : Forall2 (same_names (seq_back FS (views_of s FS))) (dSeqs s) l' <->
    reloads (fun j x y => exists f info, sseq_save (snd x) = Ok (f, info) /\ from_file D 0 j (fun v => sseq_load v info) y) (dSeqs s) l'.
  Proof.
    apply reloads_iff. intros j n x z N. destruct (entry_of s D y bss FS infoOff fatOff fileOff SV _ 0 _ _ _ _ ltac:(lia) (is_seq _ _ _ (sv_spec _ _ _ _ _ _ _ _ SV)) N) as (_ & b & (f & u & bk & v & cp & pp & pl & S & R) & A).
    unfold seq_back. rewrite S. split.
    - intros (f' & info & w & [= <- <-] & B & Q). apply (back_file _ _ _ _ _ _ _ R A) in B as [B ->]. exists f, (u, bk, v, cp, pp, pl). split; [reflexivity|]. split; [exact B|exact Q].
    - intros (f' & info & [= <- <-] & B & Q). exists f, (u, bk, v, cp, pp, pl), (file_view D (fst z)). split; [reflexivity|]. split; [apply (back_file _ _ _ _ _ _ _ R A); split; [exact B|reflexivity]|exact Q].
  Qed.
  Lemma archs_iff l' : Forall2 (same_names (arch_back FS (views_of s FS))) (dArchs s) l' <->
    reloads (fun j x y => exists f u l, ssar_save (snd x) = Ok (f, u, l) /\ from_file D 1 j (fun v => ssar_load v u (map fst (rSeqs (snd x)))) y) (dArchs s) l'.
  Proof.
    apply reloads_iff. intros j n x z N. destruct (entry_of s D y bss FS infoOff fatOff fileOff SV _ 1 _ _ _ _ ltac:(lia) (is_arch _ _ _ (sv_spec _ _ _ _ _ _ _ _ SV)) N) as (_ & b & (f & u & l & S & R) & A).
    unfold arch_back. rewrite S. split.
    - intros (f' & u' & l0 & w & [= <- <- <-] & B & Q). apply (back_file _ _ _ _ _ _ _ R A) in B as [B ->]. exists f, u, l. split; [reflexivity|]. split; [exact B|exact Q].
    - intros (f' & u' & l0 & [= <- <- <-] & B & Q). exists f, u, l, (file_view D (fst z)). split; [reflexivity|]. split; [apply (back_file _ _ _ _ _ _ _ R A); split; [exact B|reflexivity]|exact Q].
  Qed.
  Lemma banks_iff order l' : Forall2 (same_names (bank_back order FS (views_of s FS))) (dBanks s) l' <->
    reloads (fun j x y => exists f u l, sbnk_save (snd x) = Ok (f, u, l) /\ from_file D 2 j (fun v => sbnk_load order v u (Some (four_ids l))) y) (dBanks s) l'.
  Proof.
    apply reloads_iff. intros j n x z N. destruct (entry_of s D y bss FS infoOff fatOff fileOff SV _ 2 _ _ _ _ ltac:(lia) (is_bank _ _ _ (sv_spec _ _ _ _ _ _ _ _ SV)) N) as (_ & b & (f & u & l & S & _ & _ & R) & A).
    unfold bank_back. rewrite S. split.
    - intros (f' & u' & l0 & w & [= <- <- <-] & B & Q). apply (back_file _ _ _ _ _ _ _ R A) in B as [B ->]. exists f, u, l. split; [reflexivity|]. split; [exact B|exact Q].
    - intros (f' & u' & l0 & [= <- <- <-] & B & Q). exists f, u, l, (file_view D (fst z)). split; [reflexivity|]. split; [apply (back_file _ _ _ _ _ _ _ R A); split; [exact B|reflexivity]|exact Q].
  Qed.
  Lemma wars_iff l' : Forall2 (same_names (war_back FS (views_of s FS))) (dWars s) l' <->
    reloads (fun j x y => exists f u, swar_save (snd x) = Ok (f, u) /\ from_file D 3 j (fun v => swar_load v u) y) (dWars s) l'.
  Proof.
    apply reloads_iff. intros j n x z N. destruct (entry_of s D y bss FS infoOff fatOff fileOff SV _ 3 _ _ _ _ ltac:(lia) (is_war _ _ _ (sv_spec _ _ _ _ _ _ _ _ SV)) N) as (_ & b & (f & u & S & R) & A).
    unfold war_back. rewrite S. split.
    - intros (f' & u' & w & [= <- <-] & B & Q). apply (back_file _ _ _ _ _ _ _ R A) in B as [B ->]. exists f, u. split; [reflexivity|]. split; [exact B|exact Q].
    - intros (f' & u' & [= <- <-] & B & Q). exists f, u, (file_view D (fst z)). split; [reflexivity|]. split; [apply (back_file _ _ _ _ _ _ _ R A); split; [exact B|reflexivity]|exact Q].
  Qed.
  Lemma strms_iff l' : Forall2 (same_names (strm_back FS (views_of s FS))) (dStrms s) l' <->
    reloads (fun j x y => exists f info, strm_save0 (snd x) = Ok (f, info) /\ from_file D 7 j (fun v => strm_load v info) y) (dStrms s) l'.
  Proof.
    apply reloads_iff. intros j n x z N. destruct (entry_of s D y bss FS infoOff fatOff fileOff SV _ 7 _ _ _ _ ltac:(lia) (is_strm _ _ _ (sv_spec _ _ _ _ _ _ _ _ SV)) N) as (_ & b & (f & u & v & pr & pl & u7 & S & R) & A).
    unfold strm_back. rewrite S. split.
    - intros (f' & info & w & [= <- <-] & B & Q). apply (back_file _ _ _ _ _ _ _ R A) in B as [B ->]. exists f, (u, v, pr, pl, u7). split; [reflexivity|]. split; [exact B|exact Q].
    - intros (f' & info & [= <- <-] & B & Q). exists f, (u, v, pr, pl, u7), (file_view D (fst z)). split; [reflexivity|]. split; [apply (back_file _ _ _ _ _ _ _ R A); split; [exact B|reflexivity]|exact Q].
  Qed.
  Lemma plain_iff {A B} (Q : A -> B -> Prop) (l : list (name * option A)) l' : Forall2 (same_names Q) l l' <-> reloads (fun _ => Q) l l'.
  Proof. apply reloads_iff. intros. reflexivity. Qed.

  (** ** The flags *)
  Definition al : Z := fold_left Z.gcd (map fst (fat_of s FS fileOff)) 0x200.
  Lemma al_spec : 0 < al /\ forall g, (g | al) <-> (g | 0x200) /\ forall i, 0 <= i < file_count D -> (g | file_start D i).
  Proof.
    assert (S : forall g, (g | al) <-> (g | 0x200) /\ forall i, 0 <= i < file_count D -> (g | file_start D i)).
    { intros g. unfold al. rewrite divide_fold. split; (intros [H F]; split; [exact H|]).
      - intros i I. apply F. apply in_map_iff. exists (file_start D i, file_length D i). split; [reflexivity|]. exact (nth_error_In _ _ (fat_nth' i I)).
      - intros x I. apply in_map_iff in I as ([o e] & <- & I). apply In_nth_error in I as (i & N). assert (i < length FS)%nat by (rewrite <- fat_len; apply nth_error_Some; congruence).
        apply (fat_nth s D y bss FS infoOff fatOff fileOff SV) in N as [<- _]. apply F. rewrite (count_files s D y bss FS infoOff fatOff fileOff SV). unfold zlen. lia. }
    split; [|exact S]. assert (0 <= al) by (unfold al; generalize 0x200 (eq_refl : (0 <? 0x200) = true); induction (map fst (fat_of s FS fileOff)) as [|x l IH]; cbn [fold_left]; intros a P; [lia|]; apply IH; apply Z.ltb_lt; pose proof (Z.gcd_nonneg a x); destruct (Z.eq_dec (Z.gcd a x) 0) as [E|]; [apply Z.gcd_eq_0_l in E; lia|lia]).
    destruct (Z.eq_dec al 0) as [E|]; [|lia]. pose proof (proj1 (S al) (Z.divide_refl _)) as [X _]. rewrite E in X. apply Z.divide_0_l in X. discriminate.
  Qed.
  Lemma al_detect : fold_left detect (map fst (fat_of s FS fileOff)) 0x200 = al.
  Proof. apply detect_all; [lia|apply Z.divide_refl]. Qed.
  Lemma first_eq : match (match fat_of s FS fileOff with x :: _ => Some (detect 0x200 (fst x)) | [] => None end) with Some a => if a =? al then None else Some a | None => None end =
    if file_count D =? 0 then None else let a := Z.gcd 0x200 (file_start D 0) in if a =? al then None else Some a.
  Proof.
    pose proof fat_len as L. rewrite (count_files s D y bss FS infoOff fatOff fileOff SV). destruct (fat_of s FS fileOff) as [|[o e] l] eqn:E.
    - destruct FS; [reflexivity|discriminate].
    - destruct FS as [|p r] eqn:EF; [discriminate|]. replace (zlen (p :: r) =? 0) with false by (rewrite zlen_cons; pose proof (zlen_nonneg r); lia). rewrite <- EF in *. rewrite detect_gcd by (try lia; apply Z.divide_refl).
      assert (N : nth_error (fat_of s FS fileOff) 0 = Some (o, e)) by (rewrite E; reflexivity). apply (fat_nth s D y bss FS infoOff fatOff fileOff SV) in N as [<- _]. reflexivity.
  Qed.
  Lemma pad_iff : gaps (fat_of s FS fileOff) = true <-> forall i, 0 <= i < file_count D - 1 -> file_start D (i + 1) - file_start D i = file_length D i.
  Proof.
    rewrite gaps_iff. split.
    - intros F i I. pose proof (fat_nth' i ltac:(lia)) as A. pose proof (fat_nth' (i + 1) ltac:(lia)) as B. replace (Z.to_nat (i + 1)) with (S (Z.to_nat i)) in B by lia. exact (F _ _ _ A B).
    - intros F i [o e] [o' e'] A B. assert (S i < length FS)%nat by (rewrite <- fat_len; apply nth_error_Some; congruence). apply (fat_nth s D y bss FS infoOff fatOff fileOff SV) in A as [<- <-]. apply (fat_nth s D y bss FS infoOff fatOff fileOff SV) in B as [<- <-]. cbn [fst snd].
      replace (Z.of_nat (S i)) with (Z.of_nat i + 1) by lia. apply F. rewrite (count_files s D y bss FS infoOff fatOff fileOff SV). unfold zlen. lia.
  Qed.
  Lemma end_eq : last_end (fileOff + 8) (fat_of s FS fileOff) = files_end D.
  Proof.
    unfold files_end. destruct (block_words s D y bss FS infoOff fatOff fileOff SV) as (_ & _ & _ & ->). pose proof (count_files s D y bss FS infoOff fatOff fileOff SV) as C. pose proof fat_len as L. destruct (file_count D =? 0) eqn:E.
    - destruct (fat_of s FS fileOff); [reflexivity|]. cbn [length] in L. unfold zlen in C. lia.
    - pose proof (zlen_nonneg FS). rewrite (last_end_nth _ _ (file_start D (file_count D - 1), file_length D (file_count D - 1))); [reflexivity|]. rewrite <- fat_nth' by lia. f_equal. rewrite L. unfold zlen in C. lia.
  Qed.
  Lemma symb_iff : (symb_size s y mod 4 =? 0) && negb (upto s y 8 mod 4 =? 0) = true <-> padSymb s = true /\ (exists n, In (Some n) (names s)) /\ ~ (4 | strings_size s).
  Proof.
    pose proof (sv_symbols _ _ _ _ _ _ _ _ SV) as Y. assert (U : upto s y 8 = if yAny y then ysize y else 0).
    { unfold upto, upd_last. change (firstn 8 (name_lists s)) with (name_lists s). fold (all_names s). rewrite <- (ss_any _ _ Y). destruct (yAny y); [|reflexivity]. unfold ysize. rewrite (ss_st _ _ Y). reflexivity. }
    assert (M : ysize y mod 4 = strings_size s mod 4). { unfold ysize, ybase. rewrite (ss_st _ _ Y), zlen_strs, names_eq. fold (strings_size s). replace (64 + 4 * zlen (yVals y) + strings_size s) with (strings_size s + (16 + zlen (yVals y)) * 4) by lia. apply Z.mod_add. lia. }
    assert (E : (exists n, In (Some n) (names s)) <-> yAny y = true).
    { rewrite (ss_any _ _ Y), names_eq, existsb_exists. split; [intros (n & I); exists (Some n); split; [exact I|reflexivity]|intros ([n|] & I & S); [exists n; exact I|discriminate]]. }
    rewrite E, U. rewrite <- Z.mod_divide by lia. rewrite <- M. unfold symb_size. destruct (yAny y); [|cbn [Z.modulo Z.eqb Z.div_eucl negb andb]; rewrite andb_false_r; split; [discriminate|intros (_ & X & _); discriminate]].
    rewrite andb_true_iff, negb_true_iff, Z.eqb_eq, Z.eqb_neq. pose proof (mod4_up (ysize y)) as [_ Z4]. destruct (padSymb s).
    - split; [intros [_ X]; repeat split; assumption|intros (_ & _ & X); split; assumption].
    - split; [intros [X X']; contradiction|intros (X & _); discriminate].
  Qed.
  Lemma end_iff e a : 0 < a -> (negb ((e =? zlen D) && negb (e mod a =? 0)) = true <-> (e = zlen D -> (a | e))).
  Proof.
    intros P. rewrite negb_true_iff, andb_false_iff, negb_false_iff, Z.eqb_neq, Z.eqb_eq, Z.mod_divide by lia. split; [intros [X|X] X'; [contradiction|exact X]|]. intros X. destruct (Z.eq_dec e (zlen D)) as [E|E]; [right; exact (X E)|left; exact E].
  Qed.

  Lemma reload_iff order s' : sdat_load order D = Ok s' <-> reloaded order D s s'.
  Proof.
    destruct (sdat_load_eq s D y bss FS infoOff fatOff fileOff SV NN order) as (o0 & o1 & o2 & o3 & o4 & o5 & o6 & o7 & -> & F0 & F1 & F2 & F3 & F4 & F5 & F6 & F7). fold (views_of s FS). pose proof (sv_spec _ _ _ _ _ _ _ _ SV) as IS.
    pose proof (ND s D y bss FS infoOff fatOff fileOff SV) as ND. pose proof views_len as LV. pose proof (sv_symbols _ _ _ _ _ _ _ _ SV) as Y.
    assert (G : forall A i (l : list (name * option A)), nth_error (name_lists s) i = Some (map fst l) -> names_of l (given y (map fst l))).
    { intros A i l N. unfold names_of, given. destruct (yAny y) eqn:E; [left; reflexivity|right]. split; [reflexivity|]. apply none_all. exact (none_in _ _ _ _ Y E N). }
    assert (G1 : nested_of (dArchs s) (given y (out_names (nested_names s)))).
    { unfold nested_of, given. destruct (yAny y) eqn:E; [left; reflexivity|right]. split; [reflexivity|]. exact (none_in s y 1 _ Y E eq_refl). }
    pose proof (fun r => load_part_iff (load_seq D (views_of s FS)) (seq_at FS) (seq_back FS (views_of s FS)) D (fun x b o z => seq_load_iff D FS (views_of s FS) ND LV x b o z) (dSeqs s) _ o0 _ r (is_seq _ _ _ IS) F0 (G _ 0%nat _ eq_refl)) as X0.
    pose proof (fun r => load_archs_iff D FS (views_of s FS) ND LV (dArchs s) _ o1 _ r (is_arch _ _ _ IS) F1 G1) as X1.
    pose proof (fun r => load_part_iff (load_bank order D (views_of s FS)) (bank_at FS) (bank_back order FS (views_of s FS)) D (fun x b o z => bank_load_iff D FS (views_of s FS) ND LV order x b o z) (dBanks s) _ o2 _ r (is_bank _ _ _ IS) F2 (G _ 2%nat _ eq_refl)) as X2.
    pose proof (fun r => load_part_iff (load_war D (views_of s FS)) (war_at FS) (war_back FS (views_of s FS)) D (fun x b o z => war_load_iff D FS (views_of s FS) ND LV x b o z) (dWars s) _ o3 _ r (is_war _ _ _ IS) F3 (G _ 3%nat _ eq_refl)) as X3.
    pose proof (fun r => load_part_iff (load_player D) player_at player_back D (fun x b o z => player_load_iff D FS (views_of s FS) LV x b o z) (dPlayers s) _ o4 _ r (is_player _ _ _ IS) F4 (G _ 4%nat _ eq_refl)) as X4.
    pose proof (fun r => load_part_iff (load_group D) group_at group_back D (fun x b o z => group_load_iff D FS (views_of s FS) LV x b o z) (dGroups s) _ o5 _ r (is_group _ _ _ IS) F5 (G _ 5%nat _ eq_refl)) as X5.
    pose proof (fun r => load_part_iff (load_splayer D) splayer_at splayer_back D (fun x b o z => splayer_load_iff D FS (views_of s FS) LV x b o z) (dSPlayers s) _ o6 _ r (is_splayer _ _ _ IS) F6 (G _ 6%nat _ eq_refl)) as X6.
    pose proof (fun r => load_part_iff (load_strm D (views_of s FS)) (strm_at FS) (strm_back FS (views_of s FS)) D (fun x b o z => strm_load_iff D FS (views_of s FS) ND LV x b o z) (dStrms s) _ o7 _ r (is_strm _ _ _ IS) F7 (G _ 7%nat _ eq_refl)) as X7.
    assert (TA : tAlign (fin s FS fileOff) = al) by exact al_detect. assert (TE : tEnd (fin s FS fileOff) = files_end D) by exact end_eq.
    destruct al_spec as [AP AS]. unfold rest_load. rewrite TA, TE. split.
    - intros H. apply bind_ok in H as (r0 & R0 & H). apply bind_ok in H as (r1 & R1 & H). apply bind_ok in H as (r2 & R2 & H). apply bind_ok in H as (r3 & R3 & H). apply bind_ok in H as (r4 & R4 & H). apply bind_ok in H as (r5 & R5 & H). apply bind_ok in H as (r6 & R6 & H). apply bind_ok in H as (r7 & R7 & H).
      injection H as <-. constructor; cbn [dSeqs dArchs dBanks dWars dPlayers dGroups dSPlayers dStrms fileAlign firstAlign fatPad padEnd padSymb].
      + apply seqs_iff, X0, R0.
      + apply archs_iff, X1, R1.
      + apply banks_iff, X2, R2.
      + apply wars_iff, X3, R3.
      + apply X4, plain_iff in R4. exact R4.
      + apply X5, plain_iff in R5. exact R5.
      + apply X6, plain_iff in R6. exact R6.
      + apply strms_iff, X7, R7.
      + split; [exact AP|exact AS].
      + exact first_eq.
      + exact pad_iff.
      + apply end_iff. exact AP.
      + exact symb_iff.
    - intros [B0 B1 B2 B3 B4 B5 B6 B7 [BP BA] BF BD BE BS]. apply seqs_iff, X0 in B0. apply archs_iff, X1 in B1. apply banks_iff, X2 in B2. apply wars_iff, X3 in B3. apply (plain_iff player_back), X4 in B4. apply (plain_iff group_back), X5 in B5. apply (plain_iff splayer_back), X6 in B6. apply strms_iff, X7 in B7.
      rewrite B0. cbn [bind]. rewrite B1. cbn [bind]. rewrite B2. cbn [bind]. rewrite B3. cbn [bind]. rewrite B4. cbn [bind]. rewrite B5. cbn [bind]. rewrite B6. cbn [bind]. rewrite B7. cbn [bind].
      assert (EA : fileAlign s' = al). { apply Z.divide_antisym_nonneg; [lia|lia| |]; [apply AS, BA, Z.divide_refl|apply BA, AS, Z.divide_refl]. }
      rewrite EA in BF, BE. f_equal. destruct s' as [e0 e1 e2 e3 e4 e5 e6 e7 p1 p2 p3 p4 p5]. cbn [dSeqs dArchs dBanks dWars dPlayers dGroups dSPlayers dStrms fileAlign firstAlign fatPad padEnd padSymb] in *.
      f_equal.
      + apply eq_true_iff_eq. rewrite BD. exact pad_iff.
      + rewrite BF. exact first_eq.
      + symmetry. exact EA.
      + apply eq_true_iff_eq. rewrite BE. apply end_iff. exact AP.
      + apply eq_true_iff_eq. rewrite BS. exact symb_iff.
  Qed.
End Saved.

(** ** What the objects become *)
Lemma fviews_nth fp pe a : 0 < a -> forall fs i f, nth_error fs i = Some f -> exists z, 0 <= z < a /\ nth_error (fviews fp pe a fs) i = Some (f ++ zeros z) /\ (fp = false -> z = 0).
Proof.
  intros P. induction fs as [|g fs IH]; intros [|i] f N; cbn [nth_error fviews] in *; try discriminate; [|exact (IH _ _ N)]. injection N as ->. pose proof (Z.mod_pos_bound (- zlen f) a P).
  exists (if fp && (match fs with [] => pe | _ => true end) then (- zlen f) mod a else 0). split; [destruct (fp && _); lia|]. split; [reflexivity|]. intros ->. reflexivity.
Qed.
Lemma views_file s D y bss FS infoOff fatOff fileOff : saved s D y bss FS infoOff fatOff fileOff -> forall k j f m, saves_as s k j f m ->
  exists z, 0 <= z < Z.abs (fileAlign s) /\ file_view D (file_id D k j) = f ++ zeros z /\ (fatPad s = false -> z = 0).
Proof.
  intros SV k j f m S. destruct (saves_refers s D y bss FS infoOff fatOff fileOff SV _ _ _ _ S) as (_ & I & N). pose proof (id_range s D y bss FS infoOff fatOff fileOff SV _ _ _ _ S) as R.
  pose proof (align_pos s D y bss FS infoOff fatOff fileOff SV _ _ N) as P. pose proof (view_eq s D y bss FS infoOff fatOff fileOff SV _ R) as V. unfold views_of in V.
  destruct (fviews_nth (fatPad s) (padEnd s) (align_ s) P (map fst FS) (Z.to_nat (file_id D k j)) f) as (z & Z1 & Z2 & Z3); [rewrite nth_error_map, N; reflexivity|].
  exists z. split; [exact Z1|]. split; [congruence|exact Z3].
Qed.
Lemma reloads_imp {A B} (R R' : nat -> A -> B -> Prop) l l' : reloads R l l' -> (forall j n x y, nth_error l j = Some (n, Some x) -> R j x y -> R' j x y) -> reloads R' l l'.
Proof.
  intros [L F] H. split; [exact L|]. intros j n x N. destruct (F j n x N) as (y & Y & E). exists y. split; [exact Y|]. destruct x as [x|], y as [y|]; try contradiction; [|exact I]. exact (H _ _ _ _ N E).
Qed.
Lemma reloads_some {A B} (R : nat -> A -> B -> Prop) (l : list (name * option A)) :
  (forall j n x, nth_error l j = Some (n, Some x) -> exists y, R j x y) -> exists l', reloads R l l'.
Proof.
  revert R. induction l as [|[n x] l IH]; intros R H.
  - exists []. split; [reflexivity|]. intros [|j] n x N; discriminate.
  - destruct (IH (fun j => R (S j))) as (l' & L & F); [intros j n0 x0 N; exact (H (S j) n0 x0 N)|].
    assert (Y : exists y, match x, y with Some x, Some y => R 0%nat x y | None, None => True | _, _ => False end).
    { destruct x as [x|]; [|exists None; exact I]. destruct (H 0%nat n x eq_refl) as (y & Y). exists (Some y). exact Y. }
    destruct Y as (y & Y). exists ((n, y) :: l'). split; [cbn [length]; congruence|]. intros [|j] n0 x0 N; [injection N as <- <-; exists y; split; [reflexivity|exact Y]|exact (F j n0 x0 N)].
Qed.

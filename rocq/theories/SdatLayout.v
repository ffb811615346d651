(** * The saved sound archive in the terms of SdatSpec.v *)
From Coq Require Import String.
From Verif Require Import PyBase PyLemmas PyTac AtLemmas CommonModel WaveModel WaveLemmas SeqModel SeqLemmas SsarModel SbnkModel RomSpec RomLayout RomLoad
  SdatModel SdatFiles SdatSymb SdatFat SdatSave SdatLoad SdatBack SdatSpec.

Lemma field_at D fs : forall o tail k n v j, at_ D o (les fs ++ tail) -> in_fields fs -> nth_error fs k = Some (n, v) ->
  j = o + fold_right (fun p n => Z.of_nat (fst p) + n) 0 (firstn k fs) -> at_ D j (le n v) /\ 0 <= v < 256 ^ Z.of_nat n.
Proof.
  induction fs as [|[m w] fs IH]; intros o tail k n v j A F N J; [destruct k; discriminate|]. inversion F as [|? ? F1 F2]; subst. rewrite les_cons, <- app_assoc in A. destruct k as [|k].
  - injection N as -> ->. cbn [firstn fold_right] in *. rewrite Z.add_0_r. apply at_app in A as [A _]. split; [exact A|exact F1].
  - apply at_app in A as [_ A]. rewrite zlen_le in A. eapply IH; [exact A|exact F2|exact N|]. cbn [firstn fold_right fst]. lia.
Qed.
Lemma byte_at d o v : at_ d o (le 1 v) -> 0 <= v < 256 ^ Z.of_nat 1 -> byte d o = v.
Proof. intros A V. unfold byte. rewrite (at_slice _ _ _ _ A) by (rewrite zlen_le; reflexivity). rewrite unle_le. apply Z.mod_small. exact V. Qed.
Lemma short_at d o v : at_ d o (le 2 (v mod 65536)) -> - 0x8000 <= v < 0x8000 -> short d o = v.
Proof.
  intros A V. unfold short. rewrite (half_at _ _ _ A) by (p256; apply Z.mod_pos_bound; lia). destruct (v mod 65536 <? 32768) eqn:E.
  - destruct (Z.ltb_spec v 0); [|apply Z.mod_small; lia]. exfalso. rewrite <- (Z.mod_add v 1 65536), Z.mod_small in E by lia. lia.
  - destruct (Z.ltb_spec v 0); [|rewrite Z.mod_small in E by lia; lia]. rewrite <- (Z.mod_add v 1 65536), Z.mod_small by lia. lia.
Qed.
Ltac fieldz A F k lem := let X := fresh in let Y := fresh in
  edestruct (field_at _ _ _ _ k _ _ _ A F eq_refl eq_refl) as [X Y]; cbn [firstn fold_right fst] in X; pose proof (lem _ _ _ X Y); clear X Y.

Ltac fieldn A F k lem N := let X := fresh in let Y := fresh in
  edestruct (field_at _ _ _ _ k _ _ _ A F eq_refl eq_refl) as [X Y]; cbn [firstn fold_right fst] in X; pose proof (lem _ _ _ X Y) as N; clear X Y.

(** ** The tables of offsets *)
Lemma offsets_nth D io bs : forall pos j ob, 0 < pos -> at_ D (io + pos) (bodies bs) -> nth_error bs j = Some ob ->
  exists o, nth_error (offsets pos bs) j = Some o /\ match ob with Some b => 0 < o /\ at_ D (io + o) b | None => o = 0 end.
Proof.
  induction bs as [|[b|] bs IH]; intros pos j ob P A N; [destruct j; discriminate| |]; cbn [offsets]; destruct j as [|j]; cbn [nth_error] in *.
  - injection N as <-. exists pos. split; [reflexivity|]. split; [exact P|]. unfold bodies in A. cbn [map concat] in A. apply at_app in A as [A _]. exact A.
  - unfold bodies in A. cbn [map concat] in A. apply at_app in A as [_ A]. pose proof (zlen_nonneg b). rewrite <- Z.add_assoc in A. eapply IH; [|exact A|exact N]. lia.
  - injection N as <-. exists 0. split; reflexivity.
  - eapply IH; [exact P|exact A|exact N].
Qed.
Lemma part_words D io pos bs j ob : 0 <= pos -> at_ D (io + pos) (part_bytes pos bs) -> part_ok pos bs -> nth_error bs j = Some ob ->
  let o := word D (io + pos + 4 + 4 * Z.of_nat j) in match ob with Some b => 0 < o /\ at_ D (io + o) b | None => o = 0 end.
Proof.
  intros P A [L F] N. unfold part_bytes in A. apply at_app in A as [_ A]. apply at_app in A as [A2 A3]. rewrite zlen_le in *. change (Z.of_nat 4) with 4 in *.
  rewrite (zlen_concat_map _ _ 4), zlen_offsets in A3 by (intros; apply zlen_le). pose proof (zlen_nonneg bs).
  replace (io + pos + 4 + zlen bs * 4) with (io + (pos + 4 + 4 * zlen bs)) in A3 by lia. destruct (offsets_nth D io bs (pos + 4 + 4 * zlen bs) j ob ltac:(lia) A3 N) as (o & O & H0).
  apply nth_error_split in O as (a & b & E & LA). rewrite E in A2, F. destruct (concat_at (le 4) 4 a o b) as (C1 & C2 & _); [intros; apply zlen_le|]. rewrite C1 in A2. apply at_app in A2 as [_ A2]. apply at_app in A2 as [A2 _]. rewrite C2 in A2.
  apply Forall_app in F as [_ F]. inversion F; subst. cbn zeta. replace (io + pos + 4 + 4 * Z.of_nat (length a)) with (io + pos + 4 + zlen a * 4) by (unfold zlen; lia). rewrite (word_at _ _ _ A2) by (p256; lia). exact H0.
Qed.
Lemma Forall2_nth {A B} (R : A -> B -> Prop) l r j x : Forall2 R l r -> nth_error l j = Some x -> exists y, nth_error r j = Some y /\ R x y.
Proof. intros F. revert j. induction F as [|a b l r H F IH]; intros j N; [destruct j; discriminate|]. destruct j as [|j]; [injection N as <-; exists b; split; [reflexivity|exact H]|]. exact (IH j N). Qed.

Section Saved.
  Variables (s : sdat) (D : bytes) (y : symb) (bss : list (list (option bytes))) (FS : files) (infoOff fatOff fileOff : Z).
  Hypothesis (SV : saved s D y bss FS infoOff fatOff fileOff).
  Lemma block_words : word D 0x14 = symb_size s y /\ word D 0x18 = infoOff /\ word D 0x20 = fatOff /\ word D 0x28 = fileOff.
  Proof.
    pose proof (sv_heads _ _ _ _ _ _ _ _ SV) as A. pose proof (sv_range _ _ _ _ _ _ _ _ SV) as F. rewrite <- (app_nil_r (les _)) in A.
    fieldz A F 1%nat word_at. fieldz A F 2%nat word_at. fieldz A F 4%nat word_at. fieldz A F 6%nat word_at. repeat split; assumption.
  Qed.
  Lemma info_part_eq k : (k < 8)%nat -> info_part D k = infoOff + nth k (poss 0x40 bss) 0.
  Proof.
    intros K. unfold info_part. destruct block_words as (_ & -> & _). f_equal. destruct (info_at D infoOff bss (sv_info _ _ _ _ _ _ _ _ SV) (sv_len8 _ _ _ _ _ _ _ _ SV)) as (_ & _ & A & _).
    pose proof (poss_range _ _ (sv_parts _ _ _ _ _ _ _ _ SV)) as F. assert (N : nth_error (poss 64 bss) k = Some (nth k (poss 64 bss) 0)) by (apply nth_error_nth'; rewrite poss_length, (sv_len8 _ _ _ _ _ _ _ _ SV); lia).
    apply nth_error_split in N as (a & b & E & LA). set (v := nth k (poss 64 bss) 0) in *. rewrite E in A, F. destruct (concat_at (le 4) 4 a v b) as (C1 & C2 & _); [intros; apply zlen_le|]. rewrite C1 in A. apply at_app in A as [_ A]. apply at_app in A as [A _]. rewrite C2 in A.
    apply Forall_app in F as [_ F]. inversion F; subst. replace (infoOff + 8 + 4 * Z.of_nat (length a)) with (infoOff + 8 + zlen a * 4) by (unfold zlen; lia). apply (word_at _ _ _ A). p256; lia.
  Qed.
  Lemma part_at k : (k < 8)%nat -> at_ D (info_part D k) (part_bytes (nth k (poss 0x40 bss) 0) (nth k bss [])) /\ part_ok (nth k (poss 0x40 bss) 0) (nth k bss []) /\ 0x40 <= nth k (poss 0x40 bss) 0.
  Proof.
    intros K. rewrite (info_part_eq k K). destruct (info_at D infoOff bss (sv_info _ _ _ _ _ _ _ _ SV) (sv_len8 _ _ _ _ _ _ _ _ SV)) as (_ & _ & _ & A).
    apply pbytes_at; [exact A|exact (sv_parts _ _ _ _ _ _ _ _ SV)|rewrite (sv_len8 _ _ _ _ _ _ _ _ SV); exact K].
  Qed.
  Lemma count_eq k : (k < 8)%nat -> entry_count D k = zlen (nth k bss []).
  Proof.
    intros K. destruct (part_at k K) as (A & (L & _) & _). unfold entry_count. unfold part_bytes in A. apply at_app in A as [A _]. apply (word_at _ _ _ A). pose proof (zlen_nonneg (nth k bss [])). p256; lia.
  Qed.
  Lemma entry_at k j ob : (k < 8)%nat -> nth_error (nth k bss []) j = Some ob ->
    match ob with Some b => 0 < entry_offset D k j /\ at_ D (entry D k j) b | None => entry_offset D k j = 0 end.
  Proof.
    intros K N. destruct (part_at k K) as (A & O & P). pose proof (info_part_eq k K) as E. rewrite E in A. pose proof (part_words D infoOff (nth k (poss 0x40 bss) 0) (nth k bss []) j ob ltac:(lia) A O N) as W. cbn zeta in W.
    unfold entry, entry_offset. rewrite E. destruct block_words as (_ & -> & _). exact W.
  Qed.
  (** one part *)
  Lemma entry_of {A} (T : A -> bytes -> Prop) k (l : list (name * option A)) j n x : (k < 8)%nat -> Forall2 (opt_rel T) (map snd l) (nth k bss []) ->
    nth_error l j = Some (n, x) -> match x with Some x => 0 < entry_offset D k j /\ exists b, T x b /\ at_ D (entry D k j) b | None => entry_offset D k j = 0 end.
  Proof.
    intros K F N. assert (N' : nth_error (map snd l) j = Some x) by (rewrite nth_error_map, N; reflexivity).
    destruct (Forall2_nth _ _ _ _ _ F N') as (ob & B & R). pose proof (entry_at k j ob K B) as E. destruct x as [x|], ob as [b|]; try contradiction; [|exact E]. destruct E as [E1 E2]. split; [exact E1|]. exists b. split; [exact R|exact E2].
  Qed.
  Lemma refers_id f m rest tail b k j : refers FS f m rest tail b -> at_ D (entry D k j) b ->
    0 <= file_id D k j /\ nth_error FS (Z.to_nat (file_id D k j)) = Some (f, m) /\ at_ D (entry D k j) (les ((2%nat, file_id D k j) :: rest) ++ tail) /\ in_fields ((2%nat, file_id D k j) :: rest).
  Proof.
    intros (i & I & N & -> & F) A. assert (E : file_id D k j = i).
    { unfold file_id. pose proof A as X. rewrite les_cons, <- app_assoc in X. apply at_app in X as [X _]. inversion F; subst. apply (half_at _ _ _ X). assumption. }
    rewrite E. split; [exact I|]. split; [exact N|]. split; assumption.
  Qed.

  (** ** The files *)
  Lemma ND : NoDup FS.
  Proof. rewrite (sv_files _ _ _ _ _ _ _ _ SV). apply adds_nodup. constructor. Qed.
  Lemma count_files : file_count D = zlen FS.
  Proof.
    unfold file_count. destruct block_words as (_ & _ & -> & _). pose proof (sv_fat _ _ _ _ _ _ _ _ SV) as A. apply at_app in A as [_ A]. change (zlen (asc "FAT ")) with 4 in A.
    assert (FF : in_fields [(4%nat, 0xC + 0x10 * zlen FS); (4%nat, zlen FS)]).
    { pose proof (sv_range _ _ _ _ _ _ _ _ SV) as RG. unfold in_fields in RG. rewrite Forall_forall in RG. specialize (RG (4%nat, 12 + 16 * zlen FS)).
      cbn [map In sdat_heads word4 fst snd] in RG. pose proof (zlen_nonneg FS). specialize (RG ltac:(right; right; right; right; right; left; reflexivity)). repeat constructor; cbn [fst snd]; p256; lia. }
    fieldz A FF 1%nat word_at. replace (fatOff + 8) with (fatOff + 4 + (Z.of_nat 4 + 0)) by lia. assumption.
  Qed.
  Lemma fat_nth i o e : nth_error (fat_of s FS fileOff) i = Some (o, e) -> file_start D (Z.of_nat i) = o /\ file_length D (Z.of_nat i) = e.
  Proof.
    intros N. unfold file_start, file_length. destruct block_words as (_ & _ & -> & _). pose proof (sv_fat _ _ _ _ _ _ _ _ SV) as A. apply at_app in A as [_ A]. apply at_app in A as [_ A].
    rewrite zlen_les in A. change (zlen (asc "FAT ")) with 4 in A. cbn [fold_right fst] in A. pose proof (sv_fat_ok _ _ _ _ _ _ _ _ SV) as O. fold (fat_of s FS fileOff) in *.
    apply nth_error_split in N as (a & b & E & L). rewrite E in A, O. apply Forall_app in O as [_ O]. inversion O as [|? ? [O1 O2] _]; subst. cbn [fst snd] in *.
    unfold fat_bytes in A. destruct (concat_at (fun p : Z * Z => le 4 (fst p) ++ le 4 (snd p) ++ zeros 8) 16 a (o, e) b) as (C1 & C2 & _); [intros p _; rewrite !zlen_app, !zlen_le, zlen_zeros by lia; reflexivity|].
    rewrite C1 in A. apply at_app in A as [_ A]. apply at_app in A as [A _]. rewrite C2 in A. cbn [fst snd] in A. apply at_app in A as [A1 A]. apply at_app in A as [A2 _]. rewrite zlen_le in A2. change (Z.of_nat 4) with 4 in *.
    replace (fatOff + 12 + 16 * Z.of_nat (length a)) with (fatOff + 4 + (4 + (4 + 0)) + zlen a * 16) by (unfold zlen; lia). split; [apply (word_at _ _ _ A1)|apply (word_at _ _ _ A2)]; p256; lia.
  Qed.
  Lemma fat_entry i f m : nth_error FS i = Some (f, m) -> exists o, nth_error (foffs (align_ s) (cur0 s fileOff) (map fst FS)) i = Some o /\
    file_start D (Z.of_nat i) = o /\ file_length D (Z.of_nat i) = flen (fatPad s) (align_ s) f.
  Proof.
    intros N. assert (N' : nth_error (map fst FS) i = Some f) by (rewrite nth_error_map, N; reflexivity).
    destruct (nth_error (foffs (align_ s) (cur0 s fileOff) (map fst FS)) i) as [o|] eqn:E.
    - exists o. split; [reflexivity|]. apply fat_nth. unfold fat_of, fat_list. clear - E N'. revert i E N'. generalize (cur0 s fileOff) as c.
      induction (map fst FS) as [|g l IH]; intros c [|i] E N'; try discriminate; cbn [foffs map combine nth_error] in *; [injection E as <-; injection N' as ->; reflexivity|]. apply IH; assumption.
    - apply nth_error_None in E. rewrite foffs_length, map_length in E. assert (i < length FS)%nat by (apply nth_error_Some; congruence). lia.
  Qed.
  Lemma align_pos i p : nth_error FS i = Some p -> 0 < align_ s.
  Proof. intros N. destruct (sv_align _ _ _ _ _ _ _ _ SV) as [E|P]; [|exact P]. rewrite E in N. destruct i; discriminate. Qed.
  Lemma file_stored i f m : nth_error FS i = Some (f, m) -> stored D (file_start D (Z.of_nat i)) f /\ (fileAlign s | file_start D (Z.of_nat i)) /\ word D 0x28 + 0xC <= file_start D (Z.of_nat i).
  Proof.
    intros N. pose proof (align_pos _ _ N) as P. destruct (fat_entry _ _ _ N) as (o & O & E & _). rewrite E. assert (N' : nth_error (map fst FS) i = Some f) by (rewrite nth_error_map, N; reflexivity).
    destruct (foffs_spec D (align_ s) P (map fst FS) _ _ i f (file_at s D y bss FS infoOff fatOff fileOff SV) N') as (o' & O' & A & M & C). assert (o' = o) by congruence. subst o'.
    split; [apply at_stored; exact A|]. split.
    - apply Z.divide_abs_l. fold (align_ s). apply Z.mod_divide; [lia|exact M].
    - destruct block_words as (_ & _ & _ & ->). unfold cur0 in C. assert (0 <= first_gap s (fileOff + 12)). { unfold first_gap. pose proof (sv_first _ _ _ _ _ _ _ _ SV). destruct (firstAlign s) as [a|]; [|lia]. apply Z.mod_pos_bound. assert (a <> 0) by congruence. lia. } lia.
  Qed.
  Lemma files_apart i j f m f' m' : (i < j)%nat -> nth_error FS i = Some (f, m) -> nth_error FS j = Some (f', m') ->
    file_start D (Z.of_nat i) + up (align_ s) (zlen f) <= file_start D (Z.of_nat j).
  Proof.
    intros L N N'. pose proof (align_pos _ _ N) as P. destruct (fat_entry _ _ _ N) as (o & O & E & _). destruct (fat_entry _ _ _ N') as (o' & O' & E' & _). rewrite E, E'.
    assert (N1 : nth_error (map fst FS) i = Some f) by (rewrite nth_error_map, N; reflexivity). exact (foffs_order (align_ s) P _ _ i j f o o' L N1 O O').
  Qed.
  Lemma flen_up i f m : nth_error FS i = Some (f, m) -> zlen f <= file_length D (Z.of_nat i) <= up (align_ s) (zlen f).
  Proof.
    intros N. destruct (fat_entry _ _ _ N) as (o & _ & _ & ->). pose proof (up_ge (align_ s) (zlen f) (align_pos _ _ N)). unfold flen. destruct (fatPad s); lia.
  Qed.

  (** ** The objects *)
  Lemma saves_refers k j f m : saves_as s k j f m -> 0 < entry_offset D k j /\ 0 <= file_id D k j /\ nth_error FS (Z.to_nat (file_id D k j)) = Some (f, m).
  Proof.
    pose proof (sv_spec _ _ _ _ _ _ _ _ SV) as IS. unfold saves_as. intros H.
    destruct k as [|[|[|[|[|[|[|[|k]]]]]]]]; try contradiction.
    - destruct H as (n & x & info & N & S). destruct (entry_of _ 0 _ _ _ _ ltac:(lia) (is_seq _ _ _ IS) N) as (P & b & (f' & u & bk & v & cp & pp & pl & S' & R) & A). cbn [fst snd] in *. rewrite S in S'. injection S' as <- ->.
      destruct (refers_id _ _ _ _ _ _ _ R A) as (X & Y & _). split; [exact P|]. split; assumption.
    - destruct H as (n & x & u & l & N & S). destruct (entry_of _ 1 _ _ _ _ ltac:(lia) (is_arch _ _ _ IS) N) as (P & b & (f' & u' & l' & S' & R) & A). cbn [fst snd] in *. rewrite S in S'. injection S' as <- <- <-.
      destruct (refers_id _ _ _ _ _ _ _ R A) as (X & Y & _). split; [exact P|]. split; assumption.
    - destruct H as (n & x & u & l & N & S). destruct (entry_of _ 2 _ _ _ _ ltac:(lia) (is_bank _ _ _ IS) N) as (P & b & (f' & u' & l' & S' & _ & _ & R) & A). cbn [fst snd] in *. rewrite S in S'. injection S' as <- <- <-.
      destruct (refers_id _ _ _ _ _ _ _ R A) as (X & Y & _). split; [exact P|]. split; assumption.
    - destruct H as (n & x & u & N & S). destruct (entry_of _ 3 _ _ _ _ ltac:(lia) (is_war _ _ _ IS) N) as (P & b & (f' & u' & S' & R) & A). cbn [fst snd] in *. rewrite S in S'. injection S' as <- <-.
      destruct (refers_id _ _ _ _ _ _ _ R A) as (X & Y & _). split; [exact P|]. split; assumption.
    - destruct H as (n & x & info & N & S). destruct (entry_of _ 7 _ _ _ _ ltac:(lia) (is_strm _ _ _ IS) N) as (P & b & (f' & u & v & pr & pl & u7 & S' & R) & A). cbn [fst snd] in *. rewrite S in S'. injection S' as <- ->.
      destruct (refers_id _ _ _ _ _ _ _ R A) as (X & Y & _). split; [exact P|]. split; assumption.
  Qed.
  Lemma id_range k j f m : saves_as s k j f m -> 0 <= file_id D k j < file_count D.
  Proof.
    intros H. destruct (saves_refers _ _ _ _ H) as (_ & I & N). rewrite count_files. split; [exact I|]. assert (Z.to_nat (file_id D k j) < length FS)%nat by (apply nth_error_Some; congruence). unfold zlen. lia.
  Qed.
  Lemma file_ok k j f m : saves_as s k j f m -> let i := file_id D k j in
    stored D (file_start D i) f /\ (fileAlign s | file_start D i) /\ word D 0x28 + 0xC <= file_start D i /\
    (if fatPad s then zlen f <= file_length D i < zlen f + Z.abs (fileAlign s) /\ (fileAlign s | file_length D i) else file_length D i = zlen f).
  Proof.
    intros H. destruct (saves_refers _ _ _ _ H) as (_ & I & N). cbn zeta. destruct (file_stored _ _ _ N) as (A & B & C). destruct (fat_entry _ _ _ N) as (o & _ & _ & L). rewrite Z2Nat.id in * by exact I.
    split; [exact A|]. split; [exact B|]. split; [exact C|]. unfold flen in L. pose proof (align_pos _ _ N) as P. destruct (fatPad s); [|exact L]. rewrite L. split; [exact (up_ge _ _ P)|]. apply Z.divide_abs_l. apply Z.mod_divide; [unfold align_ in P; lia|]. apply up_mod. exact P.
  Qed.
  Lemma sharing k j f m k' j' f' m' : saves_as s k j f m -> saves_as s k' j' f' m' -> (file_id D k j = file_id D k' j' <-> f = f' /\ m = m').
  Proof.
    intros H H'. destruct (saves_refers _ _ _ _ H) as (_ & I & N). destruct (saves_refers _ _ _ _ H') as (_ & I' & N'). split.
    - intros E. rewrite <- E in N'. rewrite N in N'. injection N' as -> ->. split; reflexivity.
    - intros [-> ->]. assert (Z.to_nat (file_id D k j) = Z.to_nat (file_id D k' j')); [|lia]. eapply NoDup_nth_error; [exact ND| |congruence]. apply nth_error_Some. congruence.
  Qed.
  Lemma no_overlap i i' : 0 <= i < i' -> i' < file_count D -> file_start D i + file_length D i <= file_start D i'.
  Proof.
    intros L C. rewrite count_files in C. destruct (nth_error FS (Z.to_nat i)) as [[f m]|] eqn:N; [|apply nth_error_None in N; unfold zlen in C; lia].
    destruct (nth_error FS (Z.to_nat i')) as [[f' m']|] eqn:N'; [|apply nth_error_None in N'; unfold zlen in C; lia].
    pose proof (files_apart (Z.to_nat i) (Z.to_nat i') _ _ _ _ ltac:(lia) N N') as X. pose proof (flen_up _ _ _ N) as Y. rewrite (Z2Nat.id i), (Z2Nat.id i') in X by lia. rewrite (Z2Nat.id i) in Y by lia. lia.
  Qed.
  Lemma in_somes {A} (l : list (name * option A)) x : In x (somes (map snd l)) -> exists j n, nth_error l j = Some (n, Some x).
  Proof.
    unfold somes. intros H. apply in_flat_map in H as (o & I & X). destruct o as [x'|]; [|destruct X]. destruct X as [<-|[]]. apply in_map_iff in I as ((n & o) & E & I). cbn [snd] in E. subst o.
    apply In_nth_error in I as (j & J). exists j, n. exact J.
  Qed.
  Lemma all_used i : 0 <= i < file_count D -> exists k j f m, saves_as s k j f m /\ file_id D k j = i.
  Proof.
    rewrite count_files. intros I. destruct (nth_error FS (Z.to_nat i)) as [[f m]|] eqn:N; [|apply nth_error_None in N; unfold zlen in I; lia].
    assert (X : exists k j, saves_as s k j f m).
    { pose proof (nth_error_In _ _ N) as IN. rewrite (sv_files _ _ _ _ _ _ _ _ SV) in IN. apply adds_in in IN as [[]|IN]. unfold all_files in IN. rewrite !in_app_iff in IN.
      destruct IN as [IN|[IN|[IN|[IN|IN]]]]; apply in_flat_map in IN as ((m' & x) & X & IN); apply in_somes in X as (j & n & J).
      - unfold seq_file in IN. cbn [fst snd] in IN. destruct (sseq_save x) as [[f' info]|] eqn:S; [|destruct IN]. destruct IN as [[= -> ->]|[]]. exists 0%nat, j, n, x, info. split; assumption.
      - unfold arch_file in IN. cbn [fst snd] in IN. destruct (ssar_save x) as [[[f' u] l]|] eqn:S; [|destruct IN]. destruct IN as [[= -> ->]|[]]. exists 1%nat, j, n, x, u, l. split; assumption.
      - unfold bank_file in IN. cbn [fst snd] in IN. destruct (sbnk_save x) as [[[f' u] l]|] eqn:S; [|destruct IN]. destruct IN as [[= -> ->]|[]]. exists 2%nat, j, n, x, u, l. split; assumption.
      - unfold war_file in IN. cbn [fst snd] in IN. destruct (swar_save x) as [[f' u]|] eqn:S; [|destruct IN]. destruct IN as [[= -> ->]|[]]. exists 3%nat, j, n, x, u. split; assumption.
      - unfold strm_file in IN. cbn [fst snd] in IN. destruct (strm_save0 x) as [[f' info]|] eqn:S; [|destruct IN]. destruct IN as [[= -> ->]|[]]. exists 7%nat, j, n, x, info. split; assumption. }
    destruct X as (k & j & X). exists k, j, f, m. split; [exact X|]. destruct (saves_refers _ _ _ _ X) as (_ & I' & N'). assert (Z.to_nat (file_id D k j) = Z.to_nat i); [|lia].
    eapply NoDup_nth_error; [exact ND| |congruence]. apply nth_error_Some. congruence.
  Qed.
  (** the parts *)
  Lemma parts_present k j p : present s k j = Some p -> (entry_offset D k j = 0 <-> p = false).
  Proof.
    pose proof (sv_spec _ _ _ _ _ _ _ _ SV) as IS. unfold present.
    assert (G : forall A (T : A -> bytes -> Prop) k (l : list (name * option A)), (k < 8)%nat -> Forall2 (opt_rel T) (map snd l) (nth k bss []) ->
      option_map (fun p => is_some (snd p)) (nth_error l j) = Some p -> (entry_offset D k j = 0 <-> p = false)).
    { intros A T k' l K F E. destruct (nth_error l j) as [[n x]|] eqn:N; [|discriminate]. cbn [option_map snd] in E. injection E as <-. pose proof (entry_of T k' l j n x K F N) as X.
      destruct x as [x|]; cbn [is_some]; [destruct X as [X _]; split; [lia|discriminate]|]. split; [reflexivity|intros _; exact X]. }
    destruct k as [|[|[|[|[|[|[|[|k]]]]]]]]; try discriminate; intros E.
    - eapply G; [|exact (is_seq _ _ _ IS)|exact E]. lia.
    - eapply G; [|exact (is_arch _ _ _ IS)|exact E]. lia.
    - eapply G; [|exact (is_bank _ _ _ IS)|exact E]. lia.
    - eapply G; [|exact (is_war _ _ _ IS)|exact E]. lia.
    - eapply G; [|exact (is_player _ _ _ IS)|exact E]. lia.
    - eapply G; [|exact (is_group _ _ _ IS)|exact E]. lia.
    - eapply G; [|exact (is_splayer _ _ _ IS)|exact E]. lia.
    - eapply G; [|exact (is_strm _ _ _ IS)|exact E]. lia.
  Qed.
  Lemma counts k : (k < 8)%nat -> entry_count D k = part_length s k.
  Proof.
    intros K. rewrite (count_eq k K). pose proof (sv_spec _ _ _ _ _ _ _ _ SV) as IS.
    assert (G : forall A (T : A -> bytes -> Prop) (l : list (name * option A)) bs, Forall2 (opt_rel T) (map snd l) bs -> zlen bs = zlen l).
    { intros A T l bs F. assert (E : length (map snd l) = length bs) by (clear - F; induction F; cbn [length]; congruence). rewrite map_length in E. unfold zlen. lia. }
    destruct k as [|[|[|[|[|[|[|[|k]]]]]]]]; cbn [part_length]; [..|lia].
    - exact (G _ _ _ _ (is_seq _ _ _ IS)).
    - exact (G _ _ _ _ (is_arch _ _ _ IS)).
    - exact (G _ _ _ _ (is_bank _ _ _ IS)).
    - exact (G _ _ _ _ (is_war _ _ _ IS)).
    - exact (G _ _ _ _ (is_player _ _ _ IS)).
    - exact (G _ _ _ _ (is_group _ _ _ IS)).
    - exact (G _ _ _ _ (is_splayer _ _ _ IS)).
    - exact (G _ _ _ _ (is_strm _ _ _ IS)).
  Qed.
  (** the fields of the entries *)
  Lemma seq_fields j n m x f u b v cp pp pl : nth_error (dSeqs s) j = Some (n, Some (m, x)) -> sseq_save x = Ok (f, (u, b, v, cp, pp, pl)) -> let p := entry D 0 j in
    half D (p + 2) = u /\ half D (p + 4) = b /\ byte D (p + 6) = v /\ byte D (p + 7) = cp /\ byte D (p + 8) = pp /\ byte D (p + 9) = pl.
  Proof.
    intros N S. destruct (entry_of _ 0 _ _ _ _ ltac:(lia) (is_seq _ _ _ (sv_spec _ _ _ _ _ _ _ _ SV)) N) as (P & w & (f' & u' & bk & v' & cp' & pp' & pl' & S' & R) & A). cbn [fst snd] in *. rewrite S in S'. injection S' as <- <- <- <- <- <- <-.
    destruct (refers_id _ _ _ _ _ _ _ R A) as (_ & _ & X & F). cbn zeta. fieldz X F 1%nat half_at. fieldz X F 2%nat half_at. fieldz X F 3%nat byte_at. fieldz X F 4%nat byte_at. fieldz X F 5%nat byte_at. fieldz X F 6%nat byte_at.
    repeat split; assumption.
  Qed.
  Lemma arch_fields j n m x f u l : nth_error (dArchs s) j = Some (n, Some (m, x)) -> ssar_save x = Ok (f, u, l) -> half D (entry D 1 j + 2) = u.
  Proof.
    intros N S. destruct (entry_of _ 1 _ _ _ _ ltac:(lia) (is_arch _ _ _ (sv_spec _ _ _ _ _ _ _ _ SV)) N) as (P & w & (f' & u' & l' & S' & R) & A). cbn [fst snd] in *. rewrite S in S'. injection S' as <- <- <-.
    destruct (refers_id _ _ _ _ _ _ _ R A) as (_ & _ & X & F). fieldz X F 1%nat half_at. assumption.
  Qed.
  Lemma bank_fields j n m x f u l : nth_error (dBanks s) j = Some (n, Some (m, x)) -> sbnk_save x = Ok (f, u, l) -> let p := entry D 2 j in
    half D (p + 2) = u /\ zlen l <= 4 /\ forall i, 0 <= i < 4 -> short D (p + 4 + 2 * i) = match nth_error l (Z.to_nat i) with Some (Some w) => w | _ => -1 end.
  Proof.
    intros N S. destruct (entry_of _ 2 _ _ _ _ ltac:(lia) (is_bank _ _ _ (sv_spec _ _ _ _ _ _ _ _ SV)) N) as (P & w & (f' & u' & l' & S' & L & B & R) & A). cbn [fst snd] in *. rewrite S in S'. injection S' as <- <- <-.
    destruct (refers_id _ _ _ _ _ _ _ R A) as (_ & _ & X & F). cbn zeta. fieldz X F 1%nat half_at. split; [assumption|]. split; [exact L|]. intros i I.
    apply at_app in X as [_ X]. change (zlen (les [(2%nat, file_id D 2 j); (2%nat, u)])) with 4 in X.
    assert (E : nth_error (swar_ids l) (Z.to_nat i) = Some (match nth_error l (Z.to_nat i) with Some (Some w) => w | _ => -1 end)).
    { unfold swar_ids. rewrite zlen_map. destruct (nth_error l (Z.to_nat i)) as [o|] eqn:E.
      - rewrite nth_error_app1 by (rewrite map_length; apply nth_error_Some; congruence). rewrite nth_error_map, E. destruct o; reflexivity.
      - apply nth_error_None in E. rewrite nth_error_app2 by (rewrite map_length; exact E). rewrite map_length. unfold rep. apply nth_error_repeat. unfold zlen. lia. }
    apply nth_error_split in E as (a & b & E & LA). set (v := match nth_error l (Z.to_nat i) with Some (Some w) => w | _ => -1 end) in *. rewrite E in X, B.
    destruct (concat_at (fun v => le 2 (v mod 65536)) 2 a v b) as (C1 & C2 & _); [intros; apply zlen_le|]. rewrite C1 in X. apply at_app in X as [_ X]. apply at_app in X as [X _]. rewrite C2 in X.
    apply Forall_app in B as [_ B]. inversion B; subst. replace (entry D 2 j + 4 + 2 * i) with (entry D 2 j + 4 + zlen a * 2) by (unfold zlen; lia). apply (short_at _ _ _ X). assumption.
  Qed.
  Lemma war_fields j n m x f u : nth_error (dWars s) j = Some (n, Some (m, x)) -> swar_save x = Ok (f, u) -> half D (entry D 3 j + 2) = u.
  Proof.
    intros N S. destruct (entry_of _ 3 _ _ _ _ ltac:(lia) (is_war _ _ _ (sv_spec _ _ _ _ _ _ _ _ SV)) N) as (P & w & (f' & u' & S' & R) & A). cbn [fst snd] in *. rewrite S in S'. injection S' as <- <-.
    destruct (refers_id _ _ _ _ _ _ _ R A) as (_ & _ & X & F). fieldz X F 1%nat half_at. assumption.
  Qed.
  Lemma strm_fields j n m x f u v pr pl u7 : nth_error (dStrms s) j = Some (n, Some (m, x)) -> strm_save0 x = Ok (f, (u, v, pr, pl, u7)) -> let p := entry D 7 j in
    half D (p + 2) = u /\ byte D (p + 4) = v /\ byte D (p + 5) = pr /\ byte D (p + 6) = pl /\ byte D (p + 7) = u7.
  Proof.
    intros N S. destruct (entry_of _ 7 _ _ _ _ ltac:(lia) (is_strm _ _ _ (sv_spec _ _ _ _ _ _ _ _ SV)) N) as (P & w & (f' & u' & v' & pr' & pl' & u7' & S' & R) & A). cbn [fst snd] in *. rewrite S in S'. injection S' as <- <- <- <- <- <-.
    destruct (refers_id _ _ _ _ _ _ _ R A) as (_ & _ & X & F). cbn zeta. fieldz X F 1%nat half_at. fieldz X F 2%nat byte_at. fieldz X F 3%nat byte_at. fieldz X F 4%nat byte_at. fieldz X F 5%nat byte_at. repeat split; assumption.
  Qed.
  Lemma player_fields j n a c h : nth_error (dPlayers s) j = Some (n, Some (a, c, h)) -> let p := entry D 4 j in
    half D p = a /\ word D (p + 4) = h /\ forall i, 0 <= i -> (Z.testbit (half D (p + 2)) i = true <-> i < 16 /\ In i c).
  Proof.
    intros N. destruct (entry_of _ 4 _ _ _ _ ltac:(lia) (is_player _ _ _ (sv_spec _ _ _ _ _ _ _ _ SV)) N) as (P & w & T & A). cbn [player_at] in T. destruct T as [-> F]. rewrite <- (app_nil_r (les _)) in A. cbn zeta.
    fieldn A F 0%nat half_at H. fieldn A F 1%nat half_at H0. fieldn A F 2%nat word_at H1. rewrite Z.add_0_r in H. split; [assumption|]. split; [assumption|]. intros i I.
    change (entry D 4 j + (Z.of_nat 2 + 0)) with (entry D 4 j + 2) in H0. rewrite H0. destruct (Z.ltb_spec i 16).
    - pose proof (mask_bit c i ltac:(lia)) as B. change 1 with (Z.ones 1) in B. rewrite Z.land_ones in B by lia. change (2 ^ 1) with 2 in B. rewrite <- Z.bit0_mod, Z.shiftr_spec, Z.add_0_l in B by lia.
      assert (B' : Z.testbit (channel_mask c) i = existsb (Z.eqb i) c) by (rewrite <- B; destruct (Z.testbit (channel_mask c) i); reflexivity). rewrite B', existsb_exists. split.
      + intros (z & Z1 & Z2). apply Z.eqb_eq in Z2. subst z. split; assumption.
      + intros [_ X]. exists i. split; [exact X|apply Z.eqb_refl].
    - split; [|lia]. intros X. exfalso. inversion F as [|? ? _ F1]; subst. inversion F1 as [|? ? F2 _]; subst. cbn [fst snd] in F2.
      assert (Z.testbit (channel_mask c) i = false); [|congruence]. destruct (Z.eq_dec (channel_mask c) 0) as [->|]; [apply Z.bits_0|]. apply Z.bits_above_log2; [lia|]. apply Z.log2_lt_pow2; [lia|]. apply Z.lt_le_trans with (2 ^ 16); [p256; lia|]. apply Z.pow_le_mono_r; lia.
  Qed.
  Lemma splayer_fields j n l : nth_error (dSPlayers s) j = Some (n, Some l) -> stored D (entry D 6 j) (zlen l :: l ++ rep 0xFF (16 - zlen l) ++ zeros 4).
  Proof.
    intros N. destruct (entry_of _ 6 _ _ _ _ ltac:(lia) (is_splayer _ _ _ (sv_spec _ _ _ _ _ _ _ _ SV)) N) as (P & w & (L & B & k & K & -> & _) & A). rewrite zeros_add, (app_assoc (rep 255 _)), (app_assoc l), (app_assoc [zlen l]) in A by lia.
    apply at_app in A as [A _]. apply at_stored. exact A.
  Qed.
  Lemma group_fields_at j n l i g : nth_error (dGroups s) j = Some (n, Some l) -> nth_error l i = Some g -> let p := entry D 5 j in
    word D p = zlen l /\ let q := p + 4 + 8 * Z.of_nat i in
    byte D q = gType g /\ half D (q + 1) = (if gLoadSSEQ g then 1 else 0) + (if gSwarIds g then 2 else 0) + (if gLoadSWAR g then 4 else 0) + (if gLoadSSAR g then 8 else 0) /\ word D (q + 4) = gId g.
  Proof.
    intros N G. destruct (entry_of _ 5 _ _ _ _ ltac:(lia) (is_group _ _ _ (sv_spec _ _ _ _ _ _ _ _ SV)) N) as (P & w & (L & F & ->) & A). cbn zeta. apply at_app in A as [A1 A]. rewrite zlen_le in A. change (Z.of_nat 4) with 4 in A.
    pose proof (zlen_nonneg l). split; [apply (word_at _ _ _ A1); p256; lia|]. apply nth_error_split in G as (a & b & -> & LA).
    destruct (concat_at (fun g => les (group_fields g)) 8 a g b) as (C1 & C2 & _); [intros g' _; unfold group_fields; destruct (group_save g') as [[t o] z]; rewrite zlen_les; reflexivity|].
    rewrite C1 in A. apply at_app in A as [_ A]. apply at_app in A as [A _]. rewrite C2 in A. apply Forall_app in F as [_ F]. inversion F as [|? ? F1 _]; subst. rewrite <- (app_nil_r (les _)) in A.
    replace (entry D 5 j + 4 + 8 * Z.of_nat (length a)) with (entry D 5 j + 4 + zlen a * 8) by (unfold zlen; lia). unfold group_fields, group_save in A, F1.
    fieldn A F1 0%nat byte_at H0. fieldn A F1 1%nat half_at H1. fieldn A F1 3%nat word_at H2. rewrite Z.add_0_r in H0. split; [assumption|]. split; [|assumption].
    etransitivity; [exact H1|]. destruct (gLoadSSEQ g), (gSwarIds g), (gLoadSWAR g), (gLoadSSAR g); reflexivity.
  Qed.
End Saved.

(** * Sound archives: saving a loaded archive again *)
From Coq Require Import String.
From Verif Require Import PyBase PyLemmas PyTac AtLemmas CommonModel WaveModel WaveLemmas SeqModel SeqLemmas SsarModel SsarLemmas SsarProps SbnkModel SbnkProps RomSpec RomLayout RomLoad
  SdatModel SdatFiles SdatSymb SdatFat SdatSave SdatLoad SdatBack SdatSpec SdatLayout SdatReload SdatRound.

(** ** The INFO block: the merge IDs are now the numbers of the files *)
Fixpoint renum (k : Z) (fs : files) : files := match fs with [] => [] | (f, _) :: r => (f, k) :: renum (k + 1) r end.
Lemma renum_app a b : forall k, renum k (a ++ b) = renum k a ++ renum (k + zlen a) b.
Proof.
  induction a as [|[f m] a IH]; intros k; cbn [app renum]; [change (zlen (@nil (bytes * Z))) with 0; rewrite Z.add_0_r; reflexivity|].
  rewrite IH, zlen_cons. do 3 f_equal. lia.
Qed.
Lemma renum_fst fs : forall k, map fst (renum k fs) = map fst fs.
Proof. induction fs as [|[f m] r IH]; intros k; cbn [renum map fst]; [reflexivity|]. rewrite IH. reflexivity. Qed.
Lemma zlen_renum fs k : zlen (renum k fs) = zlen fs.
Proof. rewrite <- (zlen_map fst (renum k fs)), renum_fst. apply zlen_map. Qed.
Lemma find_renum fs f m : forall i k, nth_error fs i = Some (f, m) -> find_file (renum k fs) f (k + Z.of_nat i) k = Some (k + Z.of_nat i).
Proof.
  induction fs as [|[g n] r IH]; intros i k N; [destruct i; discriminate|]. cbn [renum find_file]. destruct i as [|i].
  - injection N as -> ->. rewrite Z.add_0_r, beq_refl, Z.eqb_refl. reflexivity.
  - replace (k + Z.of_nat (S i) =? k) with false by lia. rewrite andb_false_r. replace (k + Z.of_nat (S i)) with (k + 1 + Z.of_nat i) by lia. apply IH. exact N.
Qed.
Lemma find_renum_none fs f i : forall k j, k + zlen fs <= i -> find_file (renum k fs) f i j = None.
Proof.
  induction fs as [|[g n] r IH]; intros k j L; cbn [renum find_file]; [reflexivity|]. rewrite zlen_cons in L. pose proof (zlen_nonneg r). replace (i =? k) with false by lia. rewrite andb_false_r. apply IH. lia.
Qed.
Section Entries.
  Variables (FS : files) (ND : NoDup FS).
  Definition numbered (f : bytes) (m i : Z) : Prop := 0 <= i /\ nth_error FS (Z.to_nat i) = Some (f, m).
  Lemma addFile_renum fs f m fs1 j i : addFile fs f m = (fs1, j) -> ext fs1 FS -> numbered f m i -> j = i /\ addFile (renum 0 fs) f i = (renum 0 fs1, i).
  Proof.
    intros A X [I N]. pose proof A as A'. apply addFile_spec in A' as (J & NJ & C).
    assert (j = i). { pose proof (ext_nth _ _ _ _ X NJ) as NJ'. assert (Z.to_nat j = Z.to_nat i); [|lia]. apply (proj1 (NoDup_nth_error FS) ND); [apply nth_error_Some; congruence|congruence]. }
    subst j. split; [reflexivity|]. unfold addFile in *. destruct (find_file fs f m 0) as [k|] eqn:F.
    - injection A as <- ->. pose proof (find_renum fs f m (Z.to_nat i) 0 NJ) as R. rewrite !Z2Nat.id in R by lia. rewrite !Z.add_0_l in R. rewrite R. reflexivity.
    - injection A as <- <-. rewrite find_renum_none by lia. rewrite renum_app. cbn [renum]. rewrite zlen_renum. reflexivity.
  Qed.
  (** [x'] resaves as [x] did *)
  Definition good {A} (entry : files -> A -> res (bytes * files)) (R : A -> A -> Prop) : Prop :=
    forall fs x x' b fs1, R x x' -> entry fs x = Ok (b, fs1) -> ext fs1 FS -> entry (renum 0 fs) x' = Ok (b, renum 0 fs1).
  Definition seq_again (x x' : merged sseq) : Prop := exists f info, sseq_save (snd x) = Ok (f, info) /\ sseq_save (snd x') = Ok (f, info) /\ numbered f (fst x) (fst x').
  Definition arch_again (x x' : merged ssar) : Prop := exists f u l l', ssar_save (snd x) = Ok (f, u, l) /\ ssar_save (snd x') = Ok (f, u, l') /\ numbered f (fst x) (fst x').
  Definition bank_again (x x' : merged sbnk) : Prop := exists f u l l', sbnk_save (snd x) = Ok (f, u, l) /\ sbnk_save (snd x') = Ok (f, u, l') /\ swar_ids l' = swar_ids l /\ numbered f (fst x) (fst x').
  Definition war_again (x x' : merged swar) : Prop := exists f u, swar_save (snd x) = Ok (f, u) /\ swar_save (snd x') = Ok (f, u) /\ numbered f (fst x) (fst x').
  Definition strm_again (x x' : merged strm) : Prop := exists f info, strm_save0 (snd x) = Ok (f, info) /\ strm_save0 (snd x') = Ok (f, info) /\ numbered f (fst x) (fst x').
  Definition player_again (x x' : player) : Prop := fst (fst x') = fst (fst x) /\ channel_mask (snd (fst x')) = channel_mask (snd (fst x)) /\ snd x' = snd x.
  Lemma good_seq : good seq_entry seq_again.
  Proof.
    intros fs x x' b fs1 (f & [[[[[u bk] v] cp] pp] pl] & S & S' & N) E X. unfold seq_entry in *. rewrite S in E. rewrite S'. cbn [bind] in *.
    destruct (addFile fs f (fst x)) as [fs2 j] eqn:A. apply bind_ok in E as (w & P & E). injection E as <- <-. destruct (addFile_renum _ _ _ _ _ _ A X N) as [-> ->]. rewrite P. reflexivity.
  Qed.
  Lemma good_arch : good arch_entry arch_again.
  Proof.
    intros fs x x' b fs1 (f & u & l & l' & S & S' & N) E X. unfold arch_entry in *. rewrite S in E. rewrite S'. cbn [bind] in *.
    destruct (addFile fs f (fst x)) as [fs2 j] eqn:A. apply bind_ok in E as (w & P & E). injection E as <- <-. destruct (addFile_renum _ _ _ _ _ _ A X N) as [-> ->]. rewrite P. reflexivity.
  Qed.
  Lemma good_bank : good bank_entry bank_again.
  Proof.
    intros fs x x' b fs1 (f & u & l & l' & S & S' & W & N) E X. unfold bank_entry in *. rewrite S in E. rewrite S'. cbn [bind] in *. rewrite W.
    destruct (addFile fs f (fst x)) as [fs2 j] eqn:A. apply bind_ok in E as (g & G & E). apply bind_ok in E as (w & P & E). apply bind_ok in E as (ws & Q & E). injection E as <- <-. destruct (addFile_renum _ _ _ _ _ _ A X N) as [-> ->].
    rewrite G. cbn [bind]. rewrite P. cbn [bind]. rewrite Q. reflexivity.
  Qed.
  Lemma good_war : good war_entry war_again.
  Proof.
    intros fs x x' b fs1 (f & u & S & S' & N) E X. unfold war_entry in *. rewrite S in E. rewrite S'. cbn [bind] in *.
    destruct (addFile fs f (fst x)) as [fs2 j] eqn:A. apply bind_ok in E as (w & P & E). injection E as <- <-. destruct (addFile_renum _ _ _ _ _ _ A X N) as [-> ->]. rewrite P. reflexivity.
  Qed.
  Lemma good_strm : good strm_entry strm_again.
  Proof.
    intros fs x x' b fs1 (f & [[[[u v] pr] pl] u7] & S & S' & N) E X. unfold strm_entry in *. rewrite S in E. rewrite S'. cbn [bind] in *.
    destruct (addFile fs f (fst x)) as [fs2 j] eqn:A. apply bind_ok in E as (w & P & E). injection E as <- <-. destruct (addFile_renum _ _ _ _ _ _ A X N) as [-> ->]. rewrite P. reflexivity.
  Qed.
  Lemma good_player : good player_entry player_again.
  Proof. intros fs [[a c] h] [[a' c'] h'] b fs1 (E1 & E2 & E3) E X. cbn [fst snd] in *. subst. unfold player_entry in *. rewrite E2. apply bind_ok in E as (w & P & E). injection E as <- <-. rewrite P. reflexivity. Qed.
  Lemma good_group : good group_entry (fun x x' => x' = x).
  Proof. intros fs x x' b fs1 -> E X. unfold group_entry in *. apply bind_ok in E as (w & P & E). apply bind_ok in E as (l & L & E). injection E as <- <-. rewrite P. cbn [bind]. rewrite L. reflexivity. Qed.
  Lemma good_splayer : good splayer_entry (fun x x' => x' = x).
  Proof. intros fs x x' b fs1 -> E X. unfold splayer_entry in *. apply bind_ok in E as (w & P & E). apply bind_ok in E as (l & L & E). injection E as <- <-. rewrite P. cbn [bind]. rewrite L. reflexivity. Qed.

  Section Part.
    Context {A : Type} (entry : files -> A -> res (bytes * files)) (file : A -> files) (T : files -> A -> bytes -> Prop) (R : A -> A -> Prop).
    Hypotheses (ES : entry_spec entry file T) (G : good entry R).
    Lemma step_ext pos fs o b x pos' fs' o' b' : part_step entry (pos, fs, o, b) x = Ok (pos', fs', o', b') -> ext fs fs'.
    Proof.
      cbn [part_step]. destruct x as [x|]; [|intros [= <- <- <- <-]; apply ext_refl]. intros H. apply bind_ok in H as ((eb & fs2) & E & H). apply bind_ok in H as (w & P & H). injection H as <- <- <- <-.
      apply ES in E as [-> _]. apply adds_ext.
    Qed.
    Lemma fold_ext l : forall pos fs o b pos' fs' o' b', foldM (part_step entry) (pos, fs, o, b) l = Ok (pos', fs', o', b') -> ext fs fs'.
    Proof.
      induction l as [|x l IH]; cbn [foldM]; intros pos fs o b pos' fs' o' b' H; [injection H as <- <- <- <-; apply ext_refl|]. apply bind_ok in H as ((((p1 & f1) & o1) & b1) & E & H).
      eapply ext_trans; [exact (step_ext _ _ _ _ _ _ _ _ _ E)|exact (IH _ _ _ _ _ _ _ _ H)].
    Qed.
    Lemma fold_again l l' : Forall2 (opt_rel R) l l' -> forall pos fs o b pos' fs' o' b', foldM (part_step entry) (pos, fs, o, b) l = Ok (pos', fs', o', b') -> ext fs' FS ->
      foldM (part_step entry) (pos, renum 0 fs, o, b) l' = Ok (pos', renum 0 fs', o', b').
    Proof.
      induction 1 as [|x x' l l' O _ IH]; cbn [foldM]; intros pos fs o b pos' fs' o' b' H X; [injection H as <- <- <- <-; reflexivity|]. apply bind_ok in H as ((((p1 & f1) & o1) & b1) & E & H).
      pose proof (fold_ext _ _ _ _ _ _ _ _ _ H) as X1. assert (E' : part_step entry (pos, renum 0 fs, o, b) x' = Ok (p1, renum 0 f1, o1, b1)).
      { cbn [part_step] in *. destruct x as [x|], x' as [x'|]; try contradiction; [|injection E as <- <- <- <-; reflexivity]. apply bind_ok in E as ((eb & fs2) & E & EE). apply bind_ok in EE as (w & P & EE). injection EE as <- <- <- <-.
        rewrite (G _ _ _ _ _ O E (ext_trans _ _ _ X1 X)). cbn [bind]. rewrite P. reflexivity. }
      rewrite E'. cbn [bind]. exact (IH _ _ _ _ _ _ _ _ H X).
    Qed.
    Lemma declare_again l l' h fs body h' fs' body' : Forall2 (opt_rel R) l l' -> declare entry (h, fs, body) l = Ok (h', fs', body') -> ext fs' FS ->
      declare entry (h, renum 0 fs, body) l' = Ok (h', renum 0 fs', body').
    Proof.
      intros F H X. unfold declare in *. apply bind_ok in H as (w & P & H). apply bind_ok in H as ((b & fs1) & E & H). injection H as <- <- <-. rewrite P. cbn [bind]. unfold part in *.
      assert (L : zlen l' = zlen l) by (unfold zlen; f_equal; symmetry; clear - F; induction F; cbn [length]; congruence). rewrite L. apply bind_ok in E as (c & C & E). rewrite C. cbn [bind].
      apply bind_ok in E as ((((p1 & f1) & o1) & b1) & E & EE). injection EE as <- <-. rewrite (fold_again _ _ F _ _ _ _ _ _ _ _ E X). reflexivity.
    Qed.
    Lemma declare_ext l h fs body h' fs' body' : declare entry (h, fs, body) l = Ok (h', fs', body') -> ext fs fs'.
    Proof.
      intros H. unfold declare in *. apply bind_ok in H as (w & P & H). apply bind_ok in H as ((b & fs1) & E & H). injection H as <- <- <-. unfold part in *. apply bind_ok in E as (c & C & E).
      apply bind_ok in E as ((((p1 & f1) & o1) & b1) & E & EE). injection EE as <- <-. exact (fold_ext _ _ _ _ _ _ _ _ _ E).
    Qed.
  End Part.
End Entries.
Record again (FS : files) (s s' : sdat) : Prop := {
  ag_seq : Forall2 (opt_rel (seq_again FS)) (map snd (dSeqs s)) (map snd (dSeqs s'));
  ag_arch : Forall2 (opt_rel (arch_again FS)) (map snd (dArchs s)) (map snd (dArchs s'));
  ag_bank : Forall2 (opt_rel (bank_again FS)) (map snd (dBanks s)) (map snd (dBanks s'));
  ag_war : Forall2 (opt_rel (war_again FS)) (map snd (dWars s)) (map snd (dWars s'));
  ag_player : Forall2 (opt_rel player_again) (map snd (dPlayers s)) (map snd (dPlayers s'));
  ag_group : Forall2 (opt_rel (fun x x' => x' = x)) (map snd (dGroups s)) (map snd (dGroups s'));
  ag_splayer : Forall2 (opt_rel (fun x x' => x' = x)) (map snd (dSPlayers s)) (map snd (dSPlayers s'));
  ag_strm : Forall2 (opt_rel (strm_again FS)) (map snd (dStrms s)) (map snd (dStrms s')) }.
Lemma info_again s s' info FS : info_block s = Ok (info, FS) -> again FS s s' -> info_block s' = Ok (info, renum 0 FS).
Proof.
  intros H [A0 A1 A2 A3 A4 A5 A6 A7]. assert (ND : NoDup FS) by (apply info_inv in H as (bss & _ & -> & _); apply adds_nodup; constructor).
  unfold info_block in *.
  repeat match type of H with bind (declare _ _ _) _ = _ => let h := fresh "h" in let f := fresh "f" in let b := fresh "b" in let E := fresh "D" in apply bind_ok in H as (((h & f) & b) & E & H) end.
  apply bind_ok in H as (n & P & H). injection H as <- <-.
  pose proof (declare_ext _ _ _ arch_entry_spec _ _ _ _ _ _ _ D0) as E1. pose proof (declare_ext _ _ _ bank_entry_spec _ _ _ _ _ _ _ D1) as E2. pose proof (declare_ext _ _ _ war_entry_spec _ _ _ _ _ _ _ D2) as E3.
  pose proof (declare_ext _ _ _ player_entry_spec _ _ _ _ _ _ _ D3) as E4. pose proof (declare_ext _ _ _ group_entry_spec _ _ _ _ _ _ _ D4) as E5. pose proof (declare_ext _ _ _ splayer_entry_spec _ _ _ _ _ _ _ D5) as E6. pose proof (declare_ext _ _ _ strm_entry_spec _ _ _ _ _ _ _ D6) as E7.
  assert (X7 : ext f6 f6) by apply ext_refl. assert (X6 : ext f5 f6) by exact E7. assert (X5 : ext f4 f6) by (eapply ext_trans; eassumption). assert (X4 : ext f3 f6) by (eapply ext_trans; eassumption).
  assert (X3 : ext f2 f6) by (eapply ext_trans; eassumption). assert (X2 : ext f1 f6) by (eapply ext_trans; eassumption). assert (X1 : ext f0 f6) by (eapply ext_trans; eassumption). assert (X0 : ext f f6) by (eapply ext_trans; eassumption).
  assert (Q : declare seq_entry ([], [], []) (map snd (dSeqs s')) = Ok (h, renum 0 f, b)) by exact (declare_again f6 _ _ _ _ seq_entry_spec (good_seq f6 ND) _ _ _ _ _ _ _ _ A0 D X0). rewrite Q. cbn [bind]. clear Q.
  rewrite (declare_again f6 _ _ _ _ arch_entry_spec (good_arch f6 ND) _ _ _ _ _ _ _ _ A1 D0 X1). cbn [bind].
  rewrite (declare_again f6 _ _ _ _ bank_entry_spec (good_bank f6 ND) _ _ _ _ _ _ _ _ A2 D1 X2). cbn [bind].
  rewrite (declare_again f6 _ _ _ _ war_entry_spec (good_war f6 ND) _ _ _ _ _ _ _ _ A3 D2 X3). cbn [bind].
  rewrite (declare_again f6 _ _ _ _ player_entry_spec (good_player f6) _ _ _ _ _ _ _ _ A4 D3 X4). cbn [bind].
  rewrite (declare_again f6 _ _ _ _ group_entry_spec (good_group f6) _ _ _ _ _ _ _ _ A5 D4 X5). cbn [bind].
  rewrite (declare_again f6 _ _ _ _ splayer_entry_spec (good_splayer f6) _ _ _ _ _ _ _ _ A6 D5 X6). cbn [bind].
  rewrite (declare_again f6 _ _ _ _ strm_entry_spec (good_strm f6 ND) _ _ _ _ _ _ _ _ A7 D6 X7). cbn [bind].
  rewrite P. reflexivity.
Qed.

(** ** Putting the parts together *)
Definition file_base (sb : option (bytes * Z)) (info : bytes) (n : Z) : Z :=
  let symb := match sb with Some (b, _) => b | None => [] end in
  let infoOff := 0x40 + zlen symb + zlen (zeros ((- (0x40 + zlen symb)) mod 4)) in
  let fatOff := infoOff + zlen info + zlen (zeros ((- (infoOff + zlen info)) mod 4)) in
  fatOff + (0xC + 0x10 * n) + zlen (zeros ((- (fatOff + (0xC + 0x10 * n))) mod 4)).
Lemma save_again s D : sdat_save s = Ok D -> exists y sb info FS fileOff fb, symbols s = Ok y /\ symb_block (padSymb s) y = Ok sb /\ info_block s = Ok (info, FS) /\ file_block s fileOff FS = Ok fb /\ word D 0x28 = fileOff /\ fileOff = file_base sb info (zlen FS) /\
  forall s' FS', symbols s' = Ok y -> symb_block (padSymb s') y = Ok sb -> info_block s' = Ok (info, FS') -> zlen FS' = zlen FS -> file_block s' fileOff FS' = Ok fb -> sdat_save s' = Ok D.
Proof.
  unfold sdat_save. intros H. apply bind_ok in H as (y & Y & H). apply bind_ok in H as (sb & SB & H). apply bind_ok in H as ((info & FS) & I & H). cbv zeta in H.
  set (pad1 := zeros _) in H. set (infoOff := 0x40 + _ + zlen pad1) in H. set (pad2 := zeros (- (infoOff + _) mod 4)) in H. set (fatOff := infoOff + _ + _) in H. set (pad3 := zeros (- (fatOff + _) mod 4)) in H. set (fileOff := fatOff + _ + zlen pad3) in H.
  apply bind_ok in H as (fh & FH & H). apply bind_ok in H as ((file & fat) & F & H). apply bind_ok in H as (lh & LH & H). apply bind_ok in H as (oh & OH & H). apply bind_ok in H as (hd & HD & H).
  exists y, sb, info, FS, fileOff, (file, fat). split; [exact Y|]. split; [exact SB|]. split; [exact I|]. split; [exact F|]. split.
  - apply pack_us_les in OH as [-> OH]. apply pack_us_les in HD as [-> HD]. set (hs := map _ _) in *. set (h0 := les [(2%nat, 0xFEFF); _; _; _; _]) in *.
    assert (A : at_ D 0x10 (les hs ++ [])). { rewrite app_nil_r. eapply (at_here _ (asc "SDAT" ++ h0) _ (zeros 16 ++ _)); [|unfold h0; rewrite zlen_app, zlen_les; reflexivity]. injection H as <-. rewrite <- !app_assoc. reflexivity. }
    destruct (field_at D hs 16 [] 6 4 fileOff 0x28 A OH eq_refl eq_refl) as [A' R]. apply word_at; assumption.
  - split; [reflexivity|]. intros s' FS' Y' SB' I' L' F'. rewrite Y'. cbn [bind]. rewrite SB'. cbn [bind]. rewrite I'. cbn [bind]. cbv zeta. rewrite L'. fold pad1. fold infoOff. fold pad2. fold fatOff. fold pad3. fold fileOff. rewrite FH. cbn [bind]. rewrite F'. cbn [bind]. rewrite LH. cbn [bind]. rewrite OH. cbn [bind]. rewrite HD. exact H.
Qed.

(** ** The symbols *)
Lemma reloads_split {A B} (R : nat -> A -> B -> Prop) (Q : A -> B -> Prop) l l' : reloads R l l' -> (forall j n x y, nth_error l j = Some (n, Some x) -> R j x y -> Q x y) ->
  Forall2 (opt_rel Q) (map snd l) (map snd l') /\ map fst l' = map fst l.
Proof.
  revert R l'. induction l as [|[n x] l IH]; intros R l' [L F] H; [destruct l'; [split; [constructor|reflexivity]|discriminate]|]. destruct l' as [|[n' x'] l']; [discriminate|].
  destruct (F 0%nat n x eq_refl) as (y & Y & M). injection Y as -> ->. destruct (IH (fun j => R (S j)) l') as [I1 I2].
  - split; [cbn [length] in L; congruence|]. intros j n0 x0 N. exact (F (S j) n0 x0 N).
  - intros j n0 x0 y0 N. exact (H (S j) n0 x0 y0 N).
  - cbn [map snd fst]. split; [|congruence]. constructor; [|exact I1]. destruct x as [x|], y as [y|]; try contradiction; [|exact I]. exact (H 0%nat n x y eq_refl M).
Qed.
Lemma symb_again s s' y sb : symbols s = Ok y -> symb_block (padSymb s) y = Ok sb -> (padSymb s' = true <-> padSymb s = true /\ (exists n, In (Some n) (names s)) /\ ~ (4 | strings_size s)) -> symb_block (padSymb s') y = Ok sb.
Proof.
  intros Y SB R. rewrite <- SB. apply symbols_inv in Y. unfold symb_block in *. destruct (yAny y) eqn:E; [|reflexivity].
  apply bind_ok in SB as (t & T & SB). rewrite T. cbn [bind]. apply bind_ok in SB as (h & P & SB). rewrite P. cbn [bind]. apply bind_ok in SB as (w & W & _). rewrite W. cbn [bind]. do 3 f_equal.
  assert (ZT : zlen (concat t) = 4 * zlen (yVals y)).
  { apply (mapM_inv _ (fun v => 0 <= sword (ybase y) v < 2 ^ 32) (fun v => le 4 (sword (ybase y) v))) in T as [F ->].
    2:{ intros v w'. unfold symb_value, sword, ybase. destruct (fst v =? -1); [intros [= <-]; split; [lia|reflexivity]|]. intros W'. apply pack_u_inv in W' as [W' ->].
      replace (fst v + (zlen (yVals y) * 4 + 64)) with (fst v + (0x40 + 4 * zlen (yVals y))) in * by lia. p256. split; [lia|reflexivity]. }
    apply zlen_tbl. }
  assert (ZS : zlen (ySt y) = strings_size s) by (rewrite (ss_st _ _ Y), zlen_strs, names_eq; reflexivity).
  assert (N : exists n, In (Some n) (names s)). { rewrite (ss_any _ _ Y), names_eq in E. apply existsb_exists in E as ([n|] & I & X); [exists n; exact I|discriminate]. }
  set (size := 64 + zlen (concat t) + zlen (ySt y)) in *.
  assert (M : size mod 4 = strings_size s mod 4). { unfold size. rewrite ZT, ZS. replace (64 + 4 * zlen (yVals y) + strings_size s) with (strings_size s + (16 + zlen (yVals y)) * 4) by lia. apply Z.mod_add. lia. }
  destruct (Z.eq_dec (strings_size s mod 4) 0) as [Z4|Z4].
  - replace (size + - size mod 4) with size; [destruct (padSymb s), (padSymb s'); reflexivity|]. rewrite Z.mod_opp_l_z by (lia || congruence). lia.
  - destruct (padSymb s) eqn:PS.
    + rewrite (proj2 R); [reflexivity|]. split; [reflexivity|]. split; [exact N|]. rewrite <- Z.mod_divide by lia. exact Z4.
    + destruct (padSymb s'); [|reflexivity]. destruct (proj1 R eq_refl) as [X _]. discriminate.
Qed.

(** ** Each object saves as before *)
Definition war_id (w : option Z) : Z := match w with None => -1 | Some w => w end.
Definition known (w : option Z) : option Z := match w with Some (-1) => None | w => w end.
Lemma known_id w : war_id (known w) = war_id w.
Proof. destruct w as [[|p|[p|p|]]|]; reflexivity. Qed.
Lemma strip_nones k : strip_none (repeat None k) = [].
Proof. induction k as [|k IH]; cbn [repeat strip_none]; [reflexivity|]. rewrite IH. reflexivity. Qed.
Lemma strip_split l : exists k, l = strip_none l ++ repeat None k.
Proof.
  induction l as [|x l [k IH]]; [exists O; reflexivity|]. cbn [strip_none]. destruct (strip_none l) as [|a r]; [|exists k; cbn [app]; destruct x; rewrite IH; reflexivity].
  destruct x as [x|]; [exists k; cbn [app] in *; rewrite IH at 1; reflexivity|]. exists (S k). cbn [app repeat] in *. rewrite IH at 1. reflexivity.
Qed.
Lemma map_repeat_none k : map war_id (repeat None k) = repeat (-1) k.
Proof. induction k as [|k IH]; cbn [repeat map war_id]; [reflexivity|]. rewrite IH. reflexivity. Qed.
Lemma swar_eq l : swar_ids l = map war_id l ++ repeat (-1) (4 - length l).
Proof.
  unfold swar_ids. fold war_id. cbv zeta. change (map _ l) with (map war_id l). f_equal. unfold rep, zlen. rewrite map_length. f_equal. lia.
Qed.
Lemma ids_again l : zlen l <= 4 -> swar_ids (strip_none (four_ids l)) = swar_ids l.
Proof.
  intros L. unfold zlen in L. rewrite !swar_eq.
  destruct (strip_split (four_ids l)) as [k K]. assert (length (four_ids l) = 4%nat) as L4 by (unfold four_ids; rewrite app_length, map_length, repeat_length; lia).
  assert (E : map war_id (four_ids l) = map war_id l ++ repeat (-1) (4 - length l)).
  { unfold four_ids. rewrite map_app, map_repeat_none, map_map. f_equal. apply map_ext. intros w. exact (known_id w). }
  rewrite <- E. rewrite K at 3. rewrite map_app, map_repeat_none. f_equal. f_equal. pose proof (f_equal (@length _) K) as LK. rewrite app_length, repeat_length, L4 in LK. lia.
Qed.
Lemma mask_ext c c' : (forall i, 0 <= i < 16 -> (In i c' <-> In i c)) -> channel_mask c' = channel_mask c.
Proof.
  intros H. unfold channel_mask. assert (R : forall j, In j (range_z 0 16) -> existsb (Z.eqb j) c' = existsb (Z.eqb j) c).
  { intros j J. apply in_range_z in J. apply eq_true_iff_eq. rewrite !existsb_exists. split; (intros (i & I & E); apply Z.eqb_eq in E; subst i; exists j; split; [apply H; [lia|exact I]|apply Z.eqb_refl]). }
  revert R. generalize (range_z 0 16). intros l. generalize 0. induction l as [|j l IH]; intros m R; cbn [fold_left]; [reflexivity|]. rewrite (R j (or_introl eq_refl)). apply IH. intros k K. exact (R k (or_intror K)).
Qed.
Lemma names_again {A B} (Q : nat -> A -> B -> Prop) l l' : reloads Q l l' -> map fst l' = map fst l.
Proof. intros R. exact (proj2 (reloads_split Q (fun _ _ => True) l l' R (fun _ _ _ _ _ _ => I))). Qed.
Lemma reloads_fun {A C} (R : nat -> A -> A -> Prop) (g : option A -> C) l l' : reloads R l l' -> (forall j x y, R j x y -> g (Some x) = g (Some y)) -> map (fun p => (fst p, g (snd p))) l = map (fun p => (fst p, g (snd p))) l'.
Proof.
  revert R l'. induction l as [|[n x] l IH]; intros R l' [L F] H; destruct l' as [|[n' x'] l']; try discriminate; [reflexivity|]. destruct (F 0%nat n x eq_refl) as (y & Y & M). injection Y as -> ->. cbn [map fst snd]. f_equal.
  - f_equal. destruct x as [x|], y as [y|]; try contradiction; [exact (H _ _ _ M)|reflexivity].
  - apply (IH (fun j => R (S j))); [split; [cbn [length] in L; congruence|intros j n0 x0 N; exact (F (S j) n0 x0 N)]|intros j x0 y0; apply H].
Qed.
Definition symbols_of (n0 n2 n3 n4 n5 n6 n7 : list name) (n1 : list (name * option (list name))) : res symb :=
  y <- addSymbolsFrom {| ySt := []; yVals := []; yHeads := []; yAny := false |} n0 ;; y <- addSymbolsNested y n1 ;; y <- addSymbolsFrom y n2 ;; y <- addSymbolsFrom y n3 ;; y <- addSymbolsFrom y n4 ;;
  y <- addSymbolsFrom y n5 ;; y <- addSymbolsFrom y n6 ;; addSymbolsFrom y n7.
Lemma symbols_eq s : symbols s = symbols_of (map fst (dSeqs s)) (map fst (dBanks s)) (map fst (dWars s)) (map fst (dPlayers s)) (map fst (dGroups s)) (map fst (dSPlayers s)) (map fst (dStrms s)) (map (fun p => (fst p, subNames (snd p))) (dArchs s)).
Proof. reflexivity. Qed.
Section Again.
  Variables (s : sdat) (D : bytes) (y : symb) (bss : list (list (option bytes))) (FS : files) (infoOff fatOff fileOff : Z).
  Hypothesis (SV : saved s D y bss FS infoOff fatOff fileOff).
  Lemma numbers k j f m : saves_as s k j f m -> numbered FS f m (file_id D k j).
  Proof. intros S. destruct (saves_refers s D y bss FS infoOff fatOff fileOff SV _ _ _ _ S) as (_ & I & N). split; assumption. Qed.
  Lemma contents_again s' : same_contents D s s' -> again FS s s'.
  Proof.
    intros [C0 C1 C2 C3 C4 C5 C6 C7]. pose proof (sv_spec _ _ _ _ _ _ _ _ SV) as IS. constructor.
    - apply (reloads_split _ _ _ _ C0). intros j n [m x] z N (I & _ & _ & _ & S). cbn [fst snd] in *. destruct (seq_one s D y bss FS infoOff fatOff fileOff SV j n (m, x) N) as (d & S' & _). cbn [snd] in S'. exists (sseq_bytes d), (qInfo x). cbn [fst snd].
      split; [exact S'|]. split; [congruence|]. rewrite I. apply numbers. exists n, x, (qInfo x). split; assumption.
    - apply (reloads_split _ _ _ _ C1). intros j n [m x] z N (I & _ & _ & _ & _ & S). cbn [fst snd] in *. destruct (arch_one s D y bss FS infoOff fatOff fileOff SV j n (m, x) N) as (f & r & S' & _). cbn [snd] in S'. exists f, (rUnk x), (map fst (rSeqs x)), (map fst (rSeqs x)). cbn [fst snd].
      split; [exact S'|]. split; [congruence|]. rewrite I. apply numbers. exists n, x, (rUnk x), (map fst (rSeqs x)). split; assumption.
    - apply (reloads_split _ _ _ _ C2). intros j n [m x] z N (I & _ & _ & _ & _ & f & S & S'). cbn [fst snd] in *. exists f, (bUnk x), (bWars x), (strip_none (four_ids (bWars x))). cbn [fst snd].
      split; [exact S|]. split; [exact S'|]. split.
      + destruct (entry_of s D y bss FS infoOff fatOff fileOff SV _ 2 _ _ _ _ ltac:(lia) (is_bank _ _ _ IS) N) as (_ & b & (f' & u & l & S2 & W & _) & _). cbn [snd] in S2. rewrite S in S2. injection S2 as <- <- <-. apply ids_again. exact W.
      + rewrite I. apply numbers. exists n, x, (bUnk x), (bWars x). split; assumption.
    - apply (reloads_split _ _ _ _ C3). intros j n [m x] z N ->. destruct (war_one s D y bss FS infoOff fatOff fileOff SV j n (m, x) N) as (f & S & _). cbn [fst snd] in *. exists f, (rUnk02 x). cbn [fst snd].
      split; [exact S|]. split; [exact S|]. apply numbers. exists n, x, (rUnk02 x). split; assumption.
    - apply (reloads_split _ _ _ _ C4). intros j n [[a c] h] z N (c' & -> & E). split; [reflexivity|]. split; [|reflexivity]. cbn [fst snd]. apply mask_ext. intros i I. rewrite E. tauto.
    - apply (reloads_split _ _ _ _ C5). intros j n x z N E. exact E.
    - apply (reloads_split _ _ _ _ C6). intros j n x z N E. exact E.
    - apply (reloads_split _ _ _ _ C7). intros j n [m x] z N ->. destruct (entry_of s D y bss FS infoOff fatOff fileOff SV _ 7 _ _ _ _ ltac:(lia) (is_strm _ _ _ IS) N) as (_ & b & (f & u & v & pr & pl & u7 & S & _) & _). cbn [fst snd] in *. exists f, (u, v, pr, pl, u7). cbn [fst snd].
      split; [exact S|]. split; [exact S|]. apply numbers. exists n, x, (u, v, pr, pl, u7). split; assumption.
  Qed.
  Lemma symbols_again s' : same_contents D s s' -> symbols s' = symbols s.
  Proof.
    intros [C0 C1 C2 C3 C4 C5 C6 C7]. apply names_again in C0, C2, C3, C4, C5, C6, C7. rewrite !symbols_eq. f_equal; try assumption. symmetry.
    apply (reloads_fun _ _ _ _ C1). intros j [m x] [m' x'] (_ & _ & E & _). cbn [subNames snd] in *. congruence.
  Qed.
End Again.

(** ** The files *)
Lemma up_unique a n m : 0 < a -> (a | m) -> n <= m < n + a -> up a n = m.
Proof.
  intros P [k ->] B. unfold up. replace (- n) with (k * a - n + (- k) * a) by lia. rewrite Z.mod_add by lia. rewrite Z.mod_small by lia. lia.
Qed.
Lemma up_div a n : 0 < a -> (a | up a n).
Proof. intros P. apply Z.mod_divide; [lia|]. apply up_mod. exact P. Qed.
(** a coarser alignment that the result meets anyway *)
Lemma up_same a b n : 0 < a -> 0 < b -> (a | b) -> (b | up a n) -> up b n = up a n.
Proof. intros P Q AB D. pose proof (up_ge a n P). apply up_unique; [exact Q|exact D|]. apply Z.divide_pos_le in AB; lia. Qed.
Lemma up_up a b n : 0 < a -> 0 < b -> (a | b) -> up b (up a n) = up b n.
Proof.
  intros P Q AB. symmetry. pose proof (up_ge a n P). pose proof (up_ge b (up a n) Q). apply up_unique; [exact Q|apply up_div; exact Q|]. split; [lia|].
  destruct (Z_lt_le_dec (up b (up a n)) (n + b)) as [|G]; [assumption|exfalso].
  assert (n + b <= up b (up a n) /\ up b (up a n) - b < up a n) as [_ X] by lia. assert (n <= up b (up a n) - b) by lia.
  (* a multiple of a between n and up a n *)
  assert (DV : (a | up b (up a n) - b)) by (apply Z.divide_sub_r; [eapply Z.divide_trans; [exact AB|apply up_div; exact Q]|exact AB]).
  assert (up a n = up b (up a n) - b) by (apply up_unique; [exact P|exact DV|lia]). lia.
Qed.
Lemma two_powers a b : 0 < a -> 0 < b -> (a | 512) -> (b | 512) -> (a | b) \/ (b | a).
Proof.
  intros P Q A B. destruct (pow2_512 a P A) as (j & J & ->). destruct (pow2_512 b Q B) as (k & K & ->).
  destruct (Z_le_gt_dec j k); [left; exists (2 ^ (k - j))|right; exists (2 ^ (j - k))]; rewrite <- Z.pow_add_r by lia; f_equal; lia.
Qed.
(** where the first file goes, and with detected alignments again *)
Lemma first_same a b f n : 0 < a -> 0 < b -> 0 < f -> (a | 512) -> (b | 512) -> (f | 512) -> let o := up a (up f n) in let g := Z.gcd 512 o in (b | o) -> 0 < g /\ up b (up g n) = o /\ (g = b -> up b n = o).
Proof.
  intros P PB Q A B F o g BO. assert (GP : 0 < g). { unfold g. pose proof (Z.gcd_nonneg 512 o). destruct (Z.eq_dec (Z.gcd 512 o) 0) as [E|]; [apply Z.gcd_eq_0_l in E; lia|lia]. }
  split; [exact GP|]. assert (GO : (g | o)) by apply Z.gcd_divide_r. assert (AO : (a | o)) by (apply up_div; exact P). assert (AG : (a | g)) by (apply Z.gcd_greatest; assumption).
  assert (U : up g n = o).
  { destruct (two_powers a f P Q A F) as [AF|FA].
    - assert (E : o = up f n). { unfold o. apply up_id; [exact P|]. apply Z.mod_divide; [lia|]. eapply Z.divide_trans; [exact AF|apply up_div; exact Q]. }
      assert (FG : (f | g)) by (apply Z.gcd_greatest; [exact F|rewrite E; apply up_div; exact Q]). rewrite E. apply up_same; [exact Q|exact GP|exact FG|rewrite <- E; exact GO].
    - assert (E : o = up a n) by (unfold o; apply up_up; assumption). rewrite E. apply up_same; [exact P|exact GP|exact AG|rewrite <- E; exact GO]. }
  split; [rewrite U; apply up_id; [exact PB|apply Z.mod_divide; [lia|exact BO]]|]. intros X. rewrite <- X. exact U.
Qed.
Lemma pack_les fs : in_fields fs -> pack_us fs = Ok (les fs).
Proof. exact (pack_us_ok fs). Qed.
Lemma files_ok s base a fs : a = Z.abs (fileAlign s) -> fileAlign s <> 0 -> forall d fat, fat_ok (fat_list (fatPad s) a (base + zlen d) (map fst fs)) ->
  foldM (add_file s base) (d, fat) fs = Ok (d ++ fbytes a (base + zlen d) (map fst fs), fat ++ fat_bytes (fat_list (fatPad s) a (base + zlen d) (map fst fs))).
Proof.
  intros EA NZ. assert (P : 0 < a) by lia. induction fs as [|f fs IH]; cbn [foldM]; intros d fat FO.
  - cbn. rewrite !app_nil_r. reflexivity.
  - cbn [add_file]. unfold gap at 1. replace (fileAlign s =? 0) with false by lia. cbn [bind]. rewrite <- EA. pose proof (Z.mod_pos_bound (- (base + zlen d)) a P) as MB.
    replace (if fatPad s then g <- gap (fileAlign s) (zlen (fst f)) ;; Ok (zlen (fst f) + g) else Ok (zlen (fst f))) with (Ok (flen (fatPad s) a (fst f))).
    2:{ unfold flen, gap. destruct (fatPad s); [|reflexivity]. replace (fileAlign s =? 0) with false by lia. rewrite <- EA. reflexivity. }
    cbn [bind]. unfold fat_list in *. cbn [map foffs combine fbytes] in *. apply Forall_cons_iff in FO as [[F1 F2] FR]. cbn [fst snd] in F1, F2.
    assert (E : base + zlen (d ++ zeros (- (base + zlen d) mod a)) = up a (base + zlen d)) by (unfold up; rewrite zlen_app, zlen_zeros; lia). rewrite E.
    rewrite pack_les by (repeat constructor; cbn [fst snd]; p256; lia). cbn [bind].
    assert (E2 : base + zlen ((d ++ zeros (- (base + zlen d) mod a)) ++ fst f) = up a (base + zlen d) + zlen (fst f)) by (rewrite zlen_app; lia).
    rewrite IH; rewrite E2; [|exact FR]. f_equal. f_equal; [rewrite <- !app_assoc; reflexivity|]. unfold fat_bytes. cbn [map concat fst snd]. unfold les. cbn [map concat fst snd]. rewrite app_nil_r, <- !app_assoc. reflexivity.
Qed.
Lemma file_block_ok s base fs : fileAlign s <> 0 -> firstAlign s <> Some 0 -> let a := Z.abs (fileAlign s) in let cur := base + 0xC + first_gap s (base + 0xC) in fat_ok (fat_list (fatPad s) a cur (map fst fs)) ->
  file_block s base fs = Ok (zeros (first_gap s (base + 0xC)) ++ fbytes a cur (map fst fs) ++ zeros (end_gap s (fend a cur (map fst fs))), fat_bytes (fat_list (fatPad s) a cur (map fst fs))).
Proof.
  intros NZ F0 a cur FO. unfold file_block. assert (0 <= first_gap s (base + 12)) as P0. { unfold first_gap. destruct (firstAlign s) as [b|]; [|lia]. apply Z.mod_pos_bound. assert (b <> 0) by congruence. lia. }
  replace (match firstAlign s with Some b => gap b (base + 12) | None => Ok 0 end) with (Ok (first_gap s (base + 12))).
  2:{ unfold first_gap, gap. destruct (firstAlign s) as [b|]; [|reflexivity]. replace (b =? 0) with false; [reflexivity|]. assert (b <> 0) by congruence. lia. }
  cbn [bind]. assert (E : base + 12 + zlen (zeros (first_gap s (base + 12))) = cur) by (rewrite zlen_zeros by lia; reflexivity).
  rewrite (files_ok s (base + 12) a fs eq_refl NZ); rewrite E; [|exact FO]. cbn [bind app].
  assert (E2 : base + 12 + zlen (zeros (first_gap s (base + 12)) ++ fbytes a cur (map fst fs)) = fend a cur (map fst fs)) by (rewrite zlen_app, zlen_zeros by lia; rewrite <- zlen_fbytes by (unfold a; lia); unfold cur; lia). rewrite E2.
  replace (if padEnd s then gap (fileAlign s) (fend a cur (map fst fs)) else Ok 0) with (Ok (end_gap s (fend a cur (map fst fs)))) by (unfold end_gap, gap; destruct (padEnd s); [replace (fileAlign s =? 0) with false by lia|]; reflexivity).
  cbn [bind]. rewrite <- app_assoc. reflexivity.
Qed.
Lemma foffs_next a fs : forall cur i o f o', nth_error (foffs a cur fs) i = Some o -> nth_error fs i = Some f -> nth_error (foffs a cur fs) (S i) = Some o' -> o' = up a (o + zlen f).
Proof.
  induction fs as [|g fs IH]; intros cur i o f o' N M N'; [destruct i; discriminate|]. destruct i as [|i].
  - cbn [foffs nth_error] in *. injection N as <-. injection M as ->. destruct fs as [|h fs]; [discriminate|]. cbn [foffs nth_error] in N'. congruence.
  - cbn [foffs nth_error] in N, M. change (nth_error (foffs a (up a cur + zlen g) fs) (S i) = Some o') in N'. exact (IH _ _ _ _ _ N M N').
Qed.
Lemma fend_last a fs : forall cur f o, nth_error fs (length fs - 1) = Some f -> nth_error (foffs a cur fs) (length fs - 1) = Some o -> fend a cur fs = o + zlen f.
Proof.
  induction fs as [|g fs IH]; intros cur f o N M; [discriminate|]. cbn [fend]. destruct fs as [|h fs].
  - cbn in N, M. injection N as ->. injection M as <-. reflexivity.
  - cbn [length] in N, M. replace (S (S (length fs)) - 1)%nat with (S (S (length fs) - 1)) in N, M by lia. exact (IH _ _ _ N M).
Qed.
Lemma first_file a n cur f r : 0 < a -> n <= cur -> zeros (cur - n) ++ fbytes a cur (f :: r) = zeros (up a cur - n) ++ f ++ fbytes a (up a cur + zlen f) r.
Proof.
  intros P L. cbn [fbytes]. rewrite app_assoc. f_equal. pose proof (Z.mod_pos_bound (- cur) a P). unfold up. rewrite <- zeros_add by lia. f_equal. lia.
Qed.
Definition rounding (o : option Z) : Z := match o with None => 1 | Some f => Z.abs f end.
Lemma first_up s n : n + first_gap s n = up (rounding (firstAlign s)) n.
Proof. unfold first_gap, up, rounding. destruct (firstAlign s); [reflexivity|]. rewrite Z.mod_1_r. reflexivity. Qed.
(** a coarser alignment that all the files meet anyway *)
Lemma foffs_same a b fs : 0 < a -> 0 < b -> (a | b) -> forall cur, (forall o, In o (foffs a cur fs) -> (b | o)) -> foffs b cur fs = foffs a cur fs /\ fbytes b cur fs = fbytes a cur fs /\ fend b cur fs = fend a cur fs.
Proof.
  intros P Q AB. induction fs as [|f r IH]; cbn [foffs fbytes fend]; intros cur H; [repeat split|]. assert (U : up b cur = up a cur) by (apply up_same; try assumption; apply H; left; reflexivity). rewrite U.
  destruct (IH (up a cur + zlen f)) as (I1 & I2 & I3); [intros o O; apply H; right; exact O|]. rewrite I1, I2, I3. unfold up in U. replace ((- cur) mod b) with ((- cur) mod a) by lia. repeat split.
Qed.
Section Files.
  Variables (s : sdat) (D : bytes) (y : symb) (bss : list (list (option bytes))) (FS : files) (infoOff fatOff fileOff : Z).
  Hypothesis (SV : saved s D y bss FS infoOff fatOff fileOff).
  Variables (order : list Z) (s' : sdat).
  Hypotheses (RE : reloaded order D s s') (A512 : (fileAlign s | 512)) (FIRST : forall f, firstAlign s = Some f -> (f | 512)).
  Let a := align_ s.
  Let a' := fileAlign s'.
  Let fs := map fst FS.
  Lemma a_pos : 0 < a /\ (a | 512).
  Proof. unfold a, align_. split; [|apply Z.divide_abs_l; exact A512]. assert (fileAlign s <> 0); [|lia]. intros E. rewrite E in A512. apply Z.divide_0_l in A512. discriminate. Qed.
  Lemma a'_pos : 0 < a' /\ (a' | 512).
  Proof. destruct (re_align _ _ _ _ RE) as [P A]. fold a' in P, A. split; [exact P|]. exact (proj1 (proj1 (A a') (Z.divide_refl a'))). Qed.
  Lemma count_fs : file_count D = Z.of_nat (length fs).
  Proof. rewrite (count_files s D y bss FS infoOff fatOff fileOff SV). unfold fs, zlen. rewrite map_length. reflexivity. Qed.
  Lemma start_at i f : nth_error fs i = Some f -> exists o, nth_error (foffs a (cur0 s fileOff) fs) i = Some o /\ file_start D (Z.of_nat i) = o /\ file_length D (Z.of_nat i) = flen (fatPad s) a f /\ (a | o) /\ (a' | o).
  Proof.
    intros N. assert (I : (i < length fs)%nat) by (apply nth_error_Some; congruence). unfold fs in N. rewrite nth_error_map in N. destruct (nth_error FS i) as [[g m]|] eqn:E; [|discriminate]. cbn in N. injection N as ->.
    destruct (fat_entry s D y bss FS infoOff fatOff fileOff SV _ _ _ E) as (o & O & O1 & O2). exists o. repeat (split; [assumption|]). split.
    - destruct (file_stored s D y bss FS infoOff fatOff fileOff SV _ _ _ E) as (_ & DV & _). rewrite O1 in DV. apply Z.divide_abs_l. exact DV.
    - destruct (re_align _ _ _ _ RE) as [_ A]. rewrite <- O1. apply (proj1 (A a') (Z.divide_refl a')). rewrite count_fs. lia.
  Qed.
  Lemma a_a' : (a | a').
  Proof.
    destruct (re_align _ _ _ _ RE) as [_ A]. apply A. split; [apply a_pos|]. intros i I. rewrite count_fs in I. destruct (nth_error fs (Z.to_nat i)) as [f|] eqn:N; [|apply nth_error_None in N; lia].
    destruct (start_at _ _ N) as (o & _ & E & _ & DV & _). rewrite Z2Nat.id in E by lia. rewrite E. exact DV.
  Qed.
  Lemma starts_div o : In o (foffs a (cur0 s fileOff) fs) -> (a' | o).
  Proof.
    intros I. apply In_nth_error in I as (i & N). assert (L : (i < length fs)%nat) by (rewrite <- (foffs_length a fs (cur0 s fileOff)); apply nth_error_Some; congruence).
    destruct (nth_error fs i) as [f|] eqn:M; [|apply nth_error_None in M; lia]. destruct (start_at _ _ M) as (o' & O & _ & _ & _ & DV). congruence.
  Qed.
  Lemma next_at i f : nth_error fs i = Some f -> (S i < length fs)%nat -> file_start D (Z.of_nat i + 1) - file_start D (Z.of_nat i) = up a (zlen f) /\ (a' | up a (zlen f)).
  Proof.
    intros N L. destruct (nth_error fs (S i)) as [f'|] eqn:N'; [|apply nth_error_None in N'; lia]. destruct (start_at _ _ N) as (o & O & -> & _ & DV & DV'). destruct (start_at _ _ N') as (o' & O' & E & _ & _ & DV2). replace (Z.of_nat i + 1) with (Z.of_nat (S i)) by lia. rewrite E.
    pose proof (foffs_next _ _ _ _ _ _ _ O N O') as E'. destruct a_pos as [P _]. rewrite up_shift in E'; [|exact P|apply Z.mod_divide; [lia|exact DV]]. split; [lia|]. replace (up a (zlen f)) with (o' - o) by lia. apply Z.divide_sub_r; assumption.
  Qed.
  (** if the padding counts as part of the files, that is seen again *)
  Lemma pad_true : fatPad s = true -> fatPad s' = true.
  Proof.
    intros F. apply (re_pad _ _ _ _ RE). intros i I. rewrite count_fs in I. destruct (nth_error fs (Z.to_nat i)) as [f|] eqn:N; [|apply nth_error_None in N; lia].
    destruct (next_at _ _ N ltac:(lia)) as [E _]. destruct (start_at _ _ N) as (_ & _ & _ & LN & _). rewrite Z2Nat.id in * by lia. rewrite E, LN, F. reflexivity.
  Qed.
  (** all but the last file *)
  Lemma lens_inner i f : nth_error fs i = Some f -> (S i < length fs)%nat -> flen (fatPad s') a' f = flen (fatPad s) a f.
  Proof.
    intros N L. destruct a_pos as [P _]. destruct a'_pos as [P' _]. pose proof a_a' as AA. destruct (next_at _ _ N L) as [E DV]. destruct (start_at _ _ N) as (_ & _ & _ & LN & _). pose proof pad_true as PT. destruct (fatPad s) eqn:F.
    - rewrite (PT eq_refl). cbn [flen]. apply up_same; assumption.
    - destruct (fatPad s') eqn:F'; [|reflexivity]. cbn [flen] in *. pose proof (proj1 (re_pad _ _ _ _ RE) F' (Z.of_nat i)) as R. rewrite count_fs, E, LN in R. rewrite <- (R ltac:(lia)) at 2. apply up_same; try assumption.
  Qed.
  Hypothesis LAST : file_count D = 0 \/ fatPad s' = false \/ (fileAlign s' | file_length D (file_count D - 1)).
  Lemma lens i f : nth_error fs i = Some f -> flen (fatPad s') a' f = flen (fatPad s) a f.
  Proof.
    intros N. assert (I : (i < length fs)%nat) by (apply nth_error_Some; congruence). destruct (Nat.eq_dec (S i) (length fs)) as [E|NE]; [|apply (lens_inner i); [exact N|lia]].
    destruct a_pos as [P _]. destruct a'_pos as [P' _]. pose proof a_a' as AA. destruct (start_at _ _ N) as (_ & _ & _ & LN & _). pose proof pad_true as PT. rewrite count_fs in LAST. replace (Z.of_nat (length fs) - 1) with (Z.of_nat i) in LAST by lia. rewrite LN in LAST. fold a' in LAST.
    destruct (fatPad s) eqn:F.
    - rewrite (PT eq_refl) in *. cbn [flen] in *. destruct LAST as [X|[X|X]]; [lia|discriminate|]. apply up_same; assumption.
    - destruct (fatPad s') eqn:F'; [|reflexivity]. cbn [flen] in *. destruct LAST as [X|[X|X]]; [lia|discriminate|]. apply up_id; [exact P'|]. apply Z.mod_divide; [lia|exact X].
  Qed.
  Lemma lens_all : map (flen (fatPad s') a') fs = map (flen (fatPad s) a) fs.
  Proof. apply map_ext_in. intros f I. apply In_nth_error in I as (i & N). exact (lens i f N). Qed.
  Lemma round_ok : 0 < rounding (firstAlign s) /\ (rounding (firstAlign s) | 512).
  Proof.
    pose proof (sv_first _ _ _ _ _ _ _ _ SV) as NZ. unfold rounding. destruct (firstAlign s) as [f|]; [|split; [lia|apply Z.divide_1_l]]. split; [assert (f <> 0) by congruence; lia|]. apply Z.divide_abs_l. apply FIRST. reflexivity.
  Qed.
  Lemma len_D : zlen D = fend a (cur0 s fileOff) fs + end_gap s (fend a (cur0 s fileOff) fs).
  Proof.
    rewrite (sv_end _ _ _ _ _ _ _ _ SV). unfold file_bytes. fold a fs. destruct a_pos as [P _]. destruct round_ok as [P1 _]. pose proof (first_up s (fileOff + 12)) as U. pose proof (up_ge (rounding (firstAlign s)) (fileOff + 12) P1).
    assert (0 <= end_gap s (fend a (cur0 s fileOff) fs)). { unfold end_gap. destruct (padEnd s); [|lia]. apply Z.mod_pos_bound. exact P. }
    rewrite !zlen_app, !zlen_zeros by lia. rewrite <- (zlen_fbytes a fs P). unfold cur0. lia.
  Qed.
  Lemma first_again : fs <> [] -> 0 < rounding (firstAlign s') /\ firstAlign s' <> Some 0 /\ up a' (cur0 s' fileOff) = up a (cur0 s fileOff).
  Proof.
    intros NE. destruct a_pos as [P P512]. destruct a'_pos as [P' P512']. destruct round_ok as [P1 P2]. pose proof (first_up s (fileOff + 12)) as U. pose proof (first_up s' (fileOff + 12)) as U'. unfold cur0. rewrite U, U'.
    pose proof (re_first _ _ _ _ RE) as R. rewrite count_fs in R. fold a' in R. replace (Z.of_nat (length fs) =? 0) with false in R by (destruct fs; [congruence|cbn [length]; lia]).
    assert (S0 : file_start D 0 = up a (up (rounding (firstAlign s)) (fileOff + 12)) /\ (a' | file_start D 0)).
    { destruct fs as [|f r] eqn:E; [congruence|]. destruct (start_at 0 f) as (o & O & O1 & _ & _ & DV); [rewrite E; reflexivity|]. rewrite E in O. cbn [foffs nth_error] in O. injection O as O. change (Z.of_nat 0) with 0 in O1. rewrite O1. split; [|exact DV]. rewrite <- O. unfold cur0. rewrite U. reflexivity. }
    destruct S0 as [S0 DV]. rewrite S0 in R, DV. destruct (first_same a a' _ (fileOff + 12) P P' P1 P512 P512' P2 DV) as (GP & G1 & G2). cbv zeta in R, GP, G1, G2. set (o := up a (up (rounding (firstAlign s)) (fileOff + 12))) in *.
    destruct (Z.gcd 512 o =? a') eqn:G; rewrite R; cbn [rounding].
    - split; [lia|]. split; [discriminate|]. rewrite (up_id 1) by (lia || apply Z.mod_1_r). apply G2. lia.
    - rewrite Z.abs_eq by lia. split; [exact GP|]. split; [intros X; assert (Z.gcd 512 o = 0) by congruence; lia|exact G1].
  Qed.
  Lemma none_again : fs = [] -> firstAlign s' = None /\ a' = 512 /\ padEnd s' = true.
  Proof.
    intros E. pose proof count_fs as C. rewrite E in C. change (file_count D = 0) in C. split; [rewrite (re_first _ _ _ _ RE), C; reflexivity|]. split.
    - destruct a'_pos as [P P512]. apply Z.divide_antisym_nonneg; [lia|lia|exact P512|]. destruct (re_align _ _ _ _ RE) as [_ A]. apply A. split; [apply Z.divide_refl|]. intros i I. lia.
    - apply (re_end _ _ _ _ RE). intros X. exfalso. unfold files_end in X. rewrite C in X. change (0 =? 0) with true in X. cbv iota in X. destruct (block_words s D y bss FS infoOff fatOff fileOff SV) as (_ & _ & _ & W). rewrite W, (sv_end _ _ _ _ _ _ _ _ SV) in X. pose proof (zlen_nonneg (file_bytes s fileOff FS)). lia.
  Qed.
  (** the files are where they were *)
  Lemma first_ok : firstAlign s' <> Some 0.
  Proof. destruct fs as [|f r] eqn:E; [destruct (none_again E) as [-> _]; discriminate|apply first_again; rewrite E; discriminate]. Qed.
  Lemma offs_again : foffs a' (cur0 s' fileOff) fs = foffs a (cur0 s fileOff) fs.
  Proof.
    destruct a_pos as [P _]. destruct a'_pos as [P' _]. pose proof starts_div as SD. destruct fs as [|f r] eqn:E; [reflexivity|]. destruct (first_again ltac:(rewrite E; discriminate)) as (_ & _ & Q). cbn [foffs] in *. rewrite Q. f_equal.
    apply foffs_same; [exact P|exact P'|exact a_a'|]. intros o O. apply SD. right. exact O.
  Qed.
  Lemma fend_again : fs <> [] -> fend a' (cur0 s' fileOff) fs = fend a (cur0 s fileOff) fs.
  Proof.
    intros NE. destruct a_pos as [P _]. destruct a'_pos as [P' _]. pose proof starts_div as SD. destruct fs as [|f r] eqn:E; [congruence|]. destruct (first_again ltac:(rewrite E; discriminate)) as (_ & _ & Q). cbn [foffs fend] in *. rewrite Q.
    apply foffs_same; [exact P|exact P'|exact a_a'|]. intros o O. apply SD. right. exact O.
  Qed.
  Hypothesis END : (fileAlign s' | zlen D) \/ (0 < file_count D /\ fatPad s = false /\ padEnd s = false).
  Lemma end_again : fs <> [] -> end_gap s' (fend a (cur0 s fileOff) fs) = end_gap s (fend a (cur0 s fileOff) fs).
  Proof.
    intros NE. destruct a_pos as [P _]. destruct a'_pos as [P' _]. pose proof len_D as LD. set (E := fend a (cur0 s fileOff) fs) in *. pose proof (re_end _ _ _ _ RE) as R. unfold end_gap in *. fold a' in R, END |- *. rewrite (Z.abs_eq a') by lia. change (Z.abs (fileAlign s)) with a in *.
    assert (L : (0 < length fs)%nat) by (destruct fs; [congruence|cbn [length]; lia]). destruct (nth_error fs (length fs - 1)) as [f|] eqn:N; [|apply nth_error_None in N; lia].
    destruct (start_at _ _ N) as (o & O & O1 & O2 & _). pose proof (fend_last a fs _ _ _ N O) as FE. fold E in FE.
    assert (FN : files_end D = o + flen (fatPad s) a f). { unfold files_end. rewrite count_fs. replace (Z.of_nat (length fs) =? 0) with false by lia. replace (Z.of_nat (length fs) - 1) with (Z.of_nat (length fs - 1)) by lia. rewrite O1, O2. reflexivity. }
    destruct END as [X|(_ & FP & PE)].
    - rewrite (proj2 R) by (intros Y; rewrite Y; exact X). destruct (padEnd s) eqn:PE.
      + assert (U : up a' E = up a E) by (apply up_same; [exact P|exact P'|exact a_a'|unfold up; rewrite <- LD; exact X]). unfold up in U. lia.
      + rewrite Z.add_0_r in LD. rewrite LD in X. apply Z.mod_opp_l_z; [lia|]. apply Z.mod_divide; [lia|exact X].
    - rewrite PE in *. rewrite Z.add_0_r in LD. rewrite FP in FN. cbn [flen] in FN. rewrite <- FE, <- LD in FN. destruct (padEnd s') eqn:PE'; [|reflexivity].
      apply Z.mod_opp_l_z; [lia|]. apply Z.mod_divide; [lia|]. rewrite <- LD, <- FN. apply (proj1 R eq_refl). exact FN.
  Qed.
  Lemma files_again fb : file_block s fileOff FS = Ok fb -> file_block s' fileOff (renum 0 FS) = Ok fb.
  Proof.
    intros FB. destruct fb as [d fat]. destruct a_pos as [P P512]. destruct a'_pos as [P' P512']. destruct round_ok as [P1 P2]. apply file_block_inv in FB as (_ & _ & F0 & -> & -> & FO). fold fs in FO |- *.
    change (Z.abs (fileAlign s)) with a in *. change (fileOff + 12 + first_gap s (fileOff + 12)) with (cur0 s fileOff) in *.
    assert (ZA : Z.abs (fileAlign s') = a') by (fold a'; lia). assert (NZ : fileAlign s' <> 0) by (fold a'; lia).
    assert (EL : fat_list (fatPad s') a' (cur0 s' fileOff) fs = fat_list (fatPad s) a (cur0 s fileOff) fs) by (unfold fat_list; rewrite lens_all, offs_again; reflexivity).
    rewrite file_block_ok; rewrite ?renum_fst, ?ZA; fold fs; change (fileOff + 12 + first_gap s' (fileOff + 12)) with (cur0 s' fileOff); [|exact NZ|exact first_ok|rewrite EL; exact FO]. rewrite EL. do 2 f_equal.
    pose proof (first_up s (fileOff + 12)) as U. pose proof (first_up s' (fileOff + 12)) as U'. destruct fs as [|f r] eqn:EF.
    - destruct (none_again EF) as (N1 & N2 & N3). cbn [fbytes fend app].
      assert (G0 : first_gap s' (fileOff + 12) = 0) by (unfold first_gap; rewrite N1; reflexivity). unfold cur0. rewrite G0, Z.add_0_r. change (zeros 0 ++ ?x) with x. pose proof (up_ge _ (fileOff + 12) P1) as UG.
      unfold end_gap at 1. rewrite N3, ZA. pose proof len_D as LD. rewrite EF in LD. cbn [fend] in LD. unfold cur0 in LD. rewrite U in *.
      assert (UU : up a' (up (rounding (firstAlign s)) (fileOff + 12)) = up a' (fileOff + 12)) by (apply up_up; [exact P1|exact P'|rewrite N2; exact P2]).
      rewrite <- zeros_add; [f_equal|lia|unfold end_gap; destruct (padEnd s); [apply Z.mod_pos_bound; exact P|lia]].
      destruct END as [X|[X _]]; [|rewrite count_fs, EF in X; cbn in X; lia]. fold a' in X. rewrite LD in X. unfold end_gap in X |- *. change (Z.abs (fileAlign s)) with a in *. destruct (padEnd s).
      + assert (US : up a' (up (rounding (firstAlign s)) (fileOff + 12)) = up a (up (rounding (firstAlign s)) (fileOff + 12))) by (apply up_same; [exact P|exact P'|exact a_a'|exact X]). unfold up in UU, US, U |- *. lia.
      + rewrite Z.add_0_r in X. pose proof (up_same _ a' (fileOff + 12) P1 P' ltac:(rewrite N2; exact P2) X) as US. unfold up in US, U |- *. lia.
    - destruct (first_again ltac:(rewrite EF; discriminate)) as (Q1 & Q2 & Q3). pose proof (fend_again ltac:(rewrite EF; discriminate)) as FE. pose proof (end_again ltac:(rewrite EF; discriminate)) as EG. pose proof starts_div as SD. rewrite EF in FE, EG, SD. rewrite FE, EG. rewrite !app_assoc. f_equal.
      pose proof (up_ge _ (fileOff + 12) P1). pose proof (up_ge _ (fileOff + 12) Q1).
      replace (first_gap s (fileOff + 12)) with (cur0 s fileOff - (fileOff + 12)) by (unfold cur0; lia). replace (first_gap s' (fileOff + 12)) with (cur0 s' fileOff - (fileOff + 12)) by (unfold cur0; lia).
      rewrite !first_file by (assumption || (unfold cur0; lia)). rewrite Q3. do 2 f_equal. apply foffs_same; [exact P|exact P'|exact a_a'|]. intros o O. apply SD. cbn [foffs]. right. exact O.
  Qed.
End Files.

(** ** An archive that was loaded *)
Lemma loaded order s d s' y bss FS io fo F : saved s d y bss FS io fo F -> loadable s -> sdat_load order d = Ok s' -> reloaded order d s s' /\ same_contents d s s'.
Proof.
  intros SV LO L. assert (NN : Forall no_nul (all_names s)) by (rewrite names_eq; exact (lo_names _ LO)). assert (R : reloaded order d s s') by (apply (reload_iff s d y bss FS io fo F SV NN); exact L).
  split; [exact R|]. exact (contents s d y bss FS io fo F SV order s' LO R).
Qed.
Lemma resave order s d s' : sdat_save s = Ok d -> loadable s -> sdat_load order d = Ok s' -> (fileAlign s | 512) -> (forall f, firstAlign s = Some f -> (f | 512)) ->
  (file_count d = 0 \/ fatPad s' = false \/ (fileAlign s' | file_length d (file_count d - 1))) -> ((fileAlign s' | zlen d) \/ (0 < file_count d /\ fatPad s = false /\ padEnd s = false)) -> sdat_save s' = Ok d.
Proof.
  intros S LO L A FI LA EN. destruct (sdat_save_inv _ _ S) as (y & bss & FS & io & fo & F & SV). destruct (loaded _ _ _ _ _ _ _ _ _ _ SV LO L) as [R C].
  destruct (save_again _ _ S) as (y' & sb & info & FS' & F' & fb & Y & SB & I & FB & W & _ & G).
  assert (FS' = FS) as -> by (apply info_inv in I as (? & _ & -> & _); symmetry; exact (sv_files _ _ _ _ _ _ _ _ SV)). assert (F' = F) as -> by (rewrite <- W; apply (block_words _ _ _ _ _ _ _ _ SV)).
  apply (G s' (renum 0 FS)).
  - rewrite (symbols_again _ _ _ C). exact Y.
  - apply (symb_again s s' _ _ Y SB). exact (re_symb _ _ _ _ R).
  - apply (info_again s s' info FS I). apply (contents_again _ _ _ _ _ _ _ _ SV). exact C.
  - apply zlen_renum.
  - exact (files_again _ _ _ _ _ _ _ _ SV order s' R A FI LA EN fb FB).
Qed.
(** the files of the next generation are at the same places *)
Lemma generation order s d s' d' : sdat_save s = Ok d -> loadable s -> sdat_load order d = Ok s' -> sdat_save s' = Ok d' ->
  exists y bss FS io fo F y' bss' FS' io' fo', saved s d y bss FS io fo F /\ reloaded order d s s' /\ same_contents d s s' /\ saved s' d' y' bss' FS' io' fo' F /\ map fst FS' = map fst FS.
Proof.
  intros S LO L S'. destruct (sdat_save_inv _ _ S) as (y & bss & FS & io & fo & F & SV). destruct (loaded _ _ _ _ _ _ _ _ _ _ SV LO L) as [R C]. destruct (sdat_save_inv _ _ S') as (y' & bss' & FS' & io' & fo' & F' & SV').
  destruct (save_again _ _ S) as (y1 & sb & info & FS1 & F1 & fb & Y & SB & I & FB & W & B & _). destruct (save_again _ _ S') as (y2 & sb2 & info2 & FS2 & F2 & fb2 & Y2 & SB2 & I2 & FB2 & W2 & B2 & _).
  assert (FS1 = FS) as -> by (apply info_inv in I as (? & _ & -> & _); symmetry; exact (sv_files _ _ _ _ _ _ _ _ SV)). assert (F1 = F) as -> by (rewrite <- W; apply (block_words _ _ _ _ _ _ _ _ SV)).
  assert (FS2 = FS') as -> by (apply info_inv in I2 as (? & _ & -> & _); symmetry; exact (sv_files _ _ _ _ _ _ _ _ SV')). assert (F2 = F') as -> by (rewrite <- W2; apply (block_words _ _ _ _ _ _ _ _ SV')).
  rewrite (symbols_again _ _ _ C), Y in Y2. injection Y2 as <-. rewrite (symb_again s s' _ _ Y SB (re_symb _ _ _ _ R)) in SB2. injection SB2 as <-.
  rewrite (info_again s s' info FS I (contents_again _ _ _ _ _ _ _ _ SV s' C)) in I2. injection I2 as <- <-. rewrite zlen_renum, <- B in B2. subst F'.
  exists y, bss, FS, io, fo, F, y', bss', (renum 0 FS), io', fo'. repeat (split; [assumption|]). apply renum_fst.
Qed.
Lemma reloads_back {A B} (R : nat -> A -> B -> Prop) l l' n y : reloads R l l' -> In (n, Some y) l' -> exists j x, nth_error l j = Some (n, Some x) /\ R j x y.
Proof.
  intros [L F] I. apply In_nth_error in I as (j & N). destruct (nth_error l j) as [[m x]|] eqn:M; [|apply nth_error_None in M; assert (j < length l')%nat by (apply nth_error_Some; congruence); lia].
  destruct (F j m x M) as (z & Z & O). rewrite N in Z. injection Z as <- <-. destruct x as [x|]; [|contradiction]. exists j, x. split; [exact M|exact O].
Qed.
Definition names_at (n0 n1 n2 n3 n4 n5 n6 n7 : list name) : list name := n0 ++ n1 ++ n2 ++ n3 ++ n4 ++ n5 ++ n6 ++ n7.
Definition sub_names (e : option (merged ssar)) : list name := match e with Some (_, a) => map fst (rSeqs a) | None => [] end.
Lemma names_at_eq s : names s = names_at (map fst (dSeqs s)) (flat_map (fun q => fst q :: snd q) (map (fun p => (fst p, sub_names (snd p))) (dArchs s))) (map fst (dBanks s)) (map fst (dWars s)) (map fst (dPlayers s)) (map fst (dGroups s)) (map fst (dSPlayers s)) (map fst (dStrms s)).
Proof. unfold names, names_at. do 2 f_equal. rewrite flat_map_concat_map, flat_map_concat_map, map_map. reflexivity. Qed.
Lemma names_same d s s' : same_contents d s s' -> names s' = names s.
Proof.
  intros [C0 C1 C2 C3 C4 C5 C6 C7]. apply names_again in C0, C2, C3, C4, C5, C6, C7. rewrite !names_at_eq. f_equal; try assumption. f_equal. symmetry.
  apply (reloads_fun _ _ _ _ C1). intros j [m x] [m' x'] (_ & _ & E & _). cbn [sub_names snd] in *. congruence.
Qed.
Lemma loadable_again d s s' : loadable s -> same_contents d s s' -> loadable s'.
Proof.
  intros [LN LB LG LS] C. constructor.
  - rewrite (names_same _ _ _ C). exact LN.
  - intros n m b I. destruct (reloads_back _ _ _ _ _ (sc_banks _ _ _ C) I) as (j & [m0 b0] & N & (_ & E & E2 & _)). cbn [snd] in *. destruct (LB _ _ _ (nth_error_In _ _ N)) as [_ G]. split; [exact E2|]. intros i Hi.
    apply (in_map (option_map iBody)) in Hi. rewrite E in Hi. apply in_map_iff in Hi as ([i0|] & X & I0); [|discriminate]. injection X as <-. exact (G i0 I0).
  - intros n l g I G. destruct (reloads_back _ _ _ _ _ (sc_groups _ _ _ C) I) as (j & x & N & ->). exact (LG _ _ _ (nth_error_In _ _ N) G).
  - intros n m x I. destruct (reloads_back _ _ _ _ _ (sc_strms _ _ _ C) I) as (j & [m0 x0] & N & X). injection X as -> ->. cbn [snd]. exact (LS _ _ _ (nth_error_In _ _ N)).
Qed.
(** alignments read from a file *)
Lemma loaded_aligns order d s s' : reloaded order d s s' -> (fileAlign s' | 512) /\ forall f, firstAlign s' = Some f -> (f | 512).
Proof.
  intros R. split; [apply (a'_pos _ _ _ _ R)|]. intros f. rewrite (re_first _ _ _ _ R). destruct (file_count d =? 0); [discriminate|]. cbv zeta. generalize (file_start d 0). intros o. destruct (_ =? _); [discriminate|]. intros X. assert (f = Z.gcd 512 o) as -> by congruence. apply Z.gcd_divide_l.
Qed.
Section Generations.
  Variables (order : list Z) (s : sdat) (d : bytes) (s' : sdat) (d' : bytes) (s'' : sdat).
  Hypotheses (S : sdat_save s = Ok d) (LO : loadable s) (L : sdat_load order d = Ok s') (S' : sdat_save s' = Ok d') (L' : sdat_load order d' = Ok s'').
  Hypotheses (A : (fileAlign s | 512)) (FI : forall f, firstAlign s = Some f -> (f | 512)).
  Lemma next_generation : loadable s' /\ reloaded order d s s' /\ reloaded order d' s' s'' /\ file_count d' = file_count d /\ fileAlign s'' = fileAlign s' /\ (fatPad s' = true -> forall i, 0 <= i < file_count d' -> (fileAlign s' | file_length d' i)) /\ fatPad s'' = fatPad s' /\
    (padEnd s' = true -> (fileAlign s' | zlen d')) /\ (fatPad s' = true -> padEnd s' = false -> 0 < file_count d' /\ padEnd s'' = true) /\ (padEnd s' = false -> 0 < file_count d').
  Proof.
    destruct (generation _ _ _ _ _ S LO L S') as (y & bss & FS & io & fo & F & y' & bss' & FS' & io' & fo' & SV & R & C & SV' & EF). pose proof (loadable_again _ _ _ LO C) as LO'. destruct (loaded _ _ _ _ _ _ _ _ _ _ SV' LO' L') as [R' _].
    destruct (loaded_aligns _ _ _ _ R) as [A1 FI1]. split; [exact LO'|]. split; [exact R|]. split; [exact R'|].
    pose proof (count_fs _ _ _ _ _ _ _ _ SV) as K. pose proof (count_fs _ _ _ _ _ _ _ _ SV') as K'. rewrite EF in K'. assert (KE : file_count d' = file_count d) by congruence. split; [exact KE|].
    destruct (a'_pos _ _ _ _ R) as [P _]. assert (PA : align_ s' = fileAlign s') by (unfold align_; lia).
    assert (ST : forall i, 0 <= i < file_count d -> file_start d' i = file_start d i).
    { intros i I. destruct (nth_error (map fst FS) (Z.to_nat i)) as [f|] eqn:N; [|apply nth_error_None in N; lia]. destruct (start_at _ _ _ _ _ _ _ _ SV order s' R FI _ _ N) as (o & O & E & _). rewrite <- EF in N. destruct (start_at _ _ _ _ _ _ _ _ SV' order s'' R' FI1 _ _ N) as (o' & O' & E' & _).
      rewrite Z2Nat.id in E, E' by lia. rewrite E, E'. rewrite EF, PA, (offs_again _ _ _ _ _ _ _ _ SV order s' R A FI) in O'. congruence. }
    assert (AE : fileAlign s'' = fileAlign s').
    { destruct (re_align _ _ _ _ R) as [_ X]. destruct (re_align _ _ _ _ R') as [P'' X']. apply Z.divide_antisym_nonneg; [lia|lia| |].
      - apply X. destruct (proj1 (X' _) (Z.divide_refl _)) as [Y1 Y2]. split; [exact Y1|]. intros i I. rewrite <- (ST i I). apply Y2. lia.
      - apply X'. destruct (proj1 (X _) (Z.divide_refl _)) as [Y1 Y2]. split; [exact Y1|]. intros i I. rewrite (ST i ltac:(lia)). apply Y2. lia. }
    split; [exact AE|]. split.
    { intros FP i I. destruct (nth_error (map fst FS') (Z.to_nat i)) as [f|] eqn:N; [|apply nth_error_None in N; rewrite EF in N; lia]. destruct (start_at _ _ _ _ _ _ _ _ SV' order s'' R' FI1 _ _ N) as (_ & _ & _ & E & _).
      rewrite Z2Nat.id in E by lia. rewrite E, FP, PA. apply up_div. exact P. }
    split.
    { pose proof (pad_true _ _ _ _ _ _ _ _ SV' order s'' R' A1 FI1) as T. destruct (fatPad s') eqn:FP; [exact (T eq_refl)|]. destruct (fatPad s'') eqn:FP2; [|reflexivity]. rewrite <- FP. symmetry. apply (re_pad _ _ _ _ R). intros i I.
      pose proof (proj1 (re_pad _ _ _ _ R') FP2 i ltac:(lia)) as Q. rewrite !ST in Q by lia. rewrite Q.
      destruct (nth_error (map fst FS) (Z.to_nat i)) as [f|] eqn:N; [|apply nth_error_None in N; lia]. destruct (start_at _ _ _ _ _ _ _ _ SV order s' R FI _ _ N) as (_ & _ & _ & E & _). rewrite <- EF in N. destruct (start_at _ _ _ _ _ _ _ _ SV' order s'' R' FI1 _ _ N) as (_ & _ & _ & E' & _).
      rewrite Z2Nat.id in E, E' by lia. rewrite E, E'. rewrite FP. pose proof (pad_true _ _ _ _ _ _ _ _ SV order s' R A FI) as T'. destruct (fatPad s) eqn:FS0; [|reflexivity]. rewrite (T' eq_refl) in FP. discriminate. }
    pose proof (len_D _ _ _ _ _ _ _ _ SV' s' A1 FI1) as LD. set (E := fend (align_ s') (cur0 s' F) (map fst FS')) in *. unfold end_gap in LD. change (Z.abs (fileAlign s')) with (align_ s') in LD. rewrite PA in LD.
    assert (NE : padEnd s' = false -> 0 < file_count d').
    { intros PE. destruct (map fst FS) as [|f r] eqn:EFS; [|cbn [length] in K; lia]. exfalso. destruct (none_again _ _ _ _ _ _ _ _ SV order s' R FI EFS) as (_ & _ & X). congruence. }
    split; [intros PE; rewrite PE in LD; rewrite LD; apply up_div; exact P|]. split; [|exact NE].
    intros FP PE. specialize (NE PE). split; [exact NE|]. apply (re_end _ _ _ _ R'). intros _. rewrite AE. unfold files_end. replace (file_count d' =? 0) with false by lia.
    destruct (nth_error (map fst FS') (Z.to_nat (file_count d' - 1))) as [f|] eqn:N; [|apply nth_error_None in N; rewrite EF in N; lia]. destruct (start_at _ _ _ _ _ _ _ _ SV' order s'' R' FI1 _ _ N) as (o & _ & E1 & E2 & DV & _). rewrite Z2Nat.id in E1, E2 by lia. rewrite E1, E2, FP, PA. rewrite PA in DV.
    apply Z.divide_add_r; [exact DV|]. apply up_div. exact P.
  Qed.
End Generations.
Lemma settles order s d s' d' s'' d'' : (fileAlign s | 512) -> (forall f, firstAlign s = Some f -> (f | 512)) -> loadable s -> sdat_save s = Ok d -> sdat_load order d = Ok s' -> sdat_save s' = Ok d' -> sdat_load order d' = Ok s'' -> sdat_save s'' = Ok d'' ->
  exists t, sdat_load order d'' = Ok t /\ sdat_save t = Ok d''.
Proof.
  intros A FI LO S L S' L' S''. destruct (next_generation _ _ _ _ _ _ S LO L S' L' A FI) as (LO' & R & R' & K & AE & LN & PE & ZE & CB & NE). destruct (loaded_aligns _ _ _ _ R) as [A1 FI1]. destruct (loaded_aligns _ _ _ _ R') as [A2 FI2].
  assert (LAST : file_count d' = 0 \/ fatPad s'' = false \/ (fileAlign s'' | file_length d' (file_count d' - 1))).
  { pose proof (proj1 (re_pad _ _ _ _ R')). destruct (Z_lt_le_dec 0 (file_count d')) as [G|G].
    - right. rewrite PE, AE. destruct (fatPad s') eqn:FP; [right; apply LN; [reflexivity|lia]|left; reflexivity].
    - left. rewrite K in *. assert (0 <= file_count d); [|lia]. destruct (sdat_save_inv _ _ S) as (y & bss & FS & io & fo & F & SV). rewrite (count_fs _ _ _ _ _ _ _ _ SV). lia. }
  destruct (padEnd s') eqn:PD; [|destruct (fatPad s') eqn:FP].
  - pose proof (resave order s' d' s'' S' LO' L' A1 FI1 LAST ltac:(left; rewrite AE; exact (ZE eq_refl))) as X. rewrite S'' in X. injection X as ->. exists s''. split; assumption.
  - destruct (CB eq_refl eq_refl) as [G PD2]. clear CB. destruct (generation _ _ _ _ _ S' LO' L' S'') as (_ & _ & _ & _ & _ & _ & _ & _ & _ & _ & _ & _ & _ & C & _). pose proof (loadable_again _ _ _ LO' C) as LO2.
    destruct (sdat_save_inv _ _ S'') as (y & bss & FS & io & fo & F & SV). destruct (roundtrip _ _ _ _ _ _ _ _ SV order LO2) as (t & LT & _). exists t. split; [exact LT|].
    destruct (next_generation _ _ _ _ _ _ S' LO' L' S'' LT A1 FI1) as (_ & _ & _ & K2 & AE2 & LN2 & PE2 & ZE2 & _). apply (resave order s'' d'' t S'' LO2 LT A2 FI2).
    + right. right. rewrite AE2. apply LN2; [exact PE|lia].
    + left. rewrite AE2. apply ZE2. exact PD2.
  - pose proof (resave order s' d' s'' S' LO' L' A1 FI1 LAST ltac:(right; split; [exact (NE eq_refl)|split; [exact FP|exact PD]])) as X. rewrite S'' in X. injection X as ->. exists s''. split; assumption.
Qed.

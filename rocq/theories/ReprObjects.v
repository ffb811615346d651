(** * Representations of objects and what they denote *)
From Coq Require Import String Lia.
From Verif Require Import PyBase PyLemmas TextModel TextSpec TextLemmas SeqTextModel SeqTextSpec SeqTextLemmas ReprModel ReprSpec ReprLemmas.
From Verif Require ColorModel FntModel FntSpec FntLemmas NarcModel CodeModel BmgModel TexModel TexLemmas WaveModel SbnkModel SsarModel SdatModel RomModel.

(** the text is an expression, which denotes [x] *)
Definition says {A} (eval : value -> option A) (s : list Z) (x : A) : Prop := exists v, reads s v /\ eval v = Some x.
Lemma says_expr {A} (eval : value -> option A) s x : says eval s x -> exists v, expr s = Some v /\ eval v = Some x.
Proof. intros (v & R & E). exists v. split; [apply reads_expr, R|exact E]. Qed.
Lemma says_all {A} (eval : value -> option A) (f : A -> list Z) l : Forall (fun x => says eval (f x) x) l ->
  exists vs, Forall2 reads (map f l) vs /\ all_some (map eval vs) = Some l.
Proof.
  induction 1 as [|x l (v & R & E) F (vs & Rs & Es)]; [exists []; split; [constructor|reflexivity]|].
  exists (v :: vs). split; [constructor; assumption|]. cbn [map all_some]. rewrite E, Es. reflexivity.
Qed.
Lemma says_list {A} (eval : value -> option A) (f : A -> list Z) l : Forall (fun x => says eval (f x) x) l -> says (as_list eval) (repr_list (map f l)) l.
Proof. intro F. destruct (says_all eval f l F) as (vs & R & E). exists (VList vs). split; [apply reads_repr_list, R|exact E]. Qed.
Lemma says_int n : says as_int (str_int n) n.
Proof. exists (VInt n). split; [apply reads_int|reflexivity]. Qed.
Lemma says_ints l : says (as_list as_int) (repr_list (map str_int l)) l.
Proof. apply says_list. apply Forall_forall. intros n _. apply says_int. Qed.
Lemma says_bytes d : is_bytes d -> says as_bytes (repr_bytes d) d.
Proof. intro H. exists (VBytes d). split; [apply reads_bytes, H|reflexivity]. Qed.
Lemma says_str printable s : is_text s -> says as_str (repr_str printable s) s.
Proof. intro H. exists (VStr s). split; [apply reads_str, H|reflexivity]. Qed.

(** short data *)
Lemma short_reads d : short d -> exists t, shortBytesRepr d 32 = Ok t /\ reads t (VBytes d).
Proof.
  intros (B & L & A). assert (E : firstn (Z.to_nat 32) d = d) by (apply firstn_all2; unfold zlen in L; lia).
  destruct (short_repr d 32 B ltac:(lia)) as (lit & S & V); [rewrite E; exact A|]. replace (32 <? zlen d) with false in S by lia. rewrite app_nil_r in S. rewrite E in V.
  exists lit. split; [exact S|apply reads_bytes_lit, V].
Qed.
Lemma long_reads d : long d -> exists t v, shortBytesRepr d 32 = Ok (t ++ asc "...") /\ literal t = Some v.
Proof.
  intros (B & L & A). destruct (short_repr d 32 B ltac:(lia) A) as (lit & S & V). replace (32 <? zlen d) with true in S by lia. exists lit, (firstn (Z.to_nat 32) d). split; assumption.
Qed.

(** ** fnt.py, narc.py *)
Lemma folder_repr_eq printable l files i : folder_repr printable (FntModel.Folder l files i) =
  call (asc "Folder") [repr_list (map (fun p => repr_pair (repr_str printable (fst p)) (folder_repr printable (snd p))) l); repr_list (map (repr_str printable) files); str_int i].
Proof.
  cbn [folder_repr]. do 3 f_equal. induction l as [|[n g] l I]; [reflexivity|]. cbn [map fst snd]. f_equal. exact I.
Qed.
Definition folder_item (p : list Z * FntModel.folder) (v : value) : Prop := exists w, v = VTuple [VStr (fst p); w] /\ eval_folder w = Some (snd p).
Lemma eval_folder_call l fs files names first : Forall2 folder_item l fs -> as_list as_str files = Some names ->
  eval_folder (VCall (asc "Folder") [VList fs; files; VInt first]) = Some (FntModel.Folder l names first).
Proof.
  intros F N. cbn [eval_folder]. rewrite (eq_refl : beq (asc "Folder") (asc "Folder") = true). rewrite N. cbn [option_map].
  match goal with |- obind (?g fs) _ = _ => assert (G : g fs = Some l) end.
  { clear N. induction F as [|[n g] v l fs (w & -> & E) F I]; [reflexivity|]. cbn [fst snd] in *. rewrite E. cbn [obind]. rewrite I. reflexivity. }
  rewrite G. reflexivity.
Qed.
Lemma folder_says printable : forall f, folder_texts f -> says eval_folder (folder_repr printable f) f.
Proof.
  induction f as [l files i IH] using FntLemmas.folder_ind'. intro T. rewrite folder_repr_eq. destruct (T _ (FntSpec.fin_here _)) as [T1 T2]. cbn [FntModel.fFiles FntModel.fFolders] in T1, T2.
  assert (exists fs, Forall2 reads (map (fun p => repr_pair (repr_str printable (fst p)) (folder_repr printable (snd p))) l) fs /\ Forall2 folder_item l fs) as (fs & R & F).
  { assert (S : Forall (fun p => is_text (fst p) /\ says eval_folder (folder_repr printable (snd p)) (snd p)) l).
    { apply Forall_forall. intros [n g] I. rewrite Forall_forall in T2. split; [apply (T2 _ I)|]. cbn [snd]. apply (IH n g I). intros h H. apply T. eapply FntSpec.fin_below; [exact I|exact H]. }
    clear IH T T1 T2. induction S as [|[n g] l [A (w & R & E)] S (fs & Rs & Fs)]; [exists []; split; constructor|]. cbn [fst snd] in *.
    exists (VTuple [VStr n; w] :: fs). split; [constructor; [|exact Rs]; apply reads_pair; [apply reads_str, A|exact R]|]. constructor; [|exact Fs]. exists w. split; [reflexivity|exact E]. }
  destruct (says_list as_str (repr_str printable) files) as (vf & Rf & Ef); [apply Forall_forall; intros n I; apply says_str; rewrite Forall_forall in T1; apply T1, I|].
  exists (VCall (asc "Folder") [VList fs; vf; VInt i]). split; [|apply eval_folder_call; assumption].
  apply reads_call_args; [reflexivity|]. repeat constructor; [apply reads_repr_list, R|exact Rf|apply reads_int].
Qed.
Lemma narc_says printable n : folder_texts (NarcModel.nFilenames n) -> zlen (NarcModel.nFiles n) <= 1 -> Forall short (NarcModel.nFiles n) ->
  exists s, narc_repr printable n = Ok s /\ says eval_narc s (NarcModel.fromFilesAndNames (NarcModel.nFiles n) (Some (NarcModel.nFilenames n))).
Proof.
  intros T L S. destruct (folder_says printable _ T) as (vn & Rn & En). unfold narc_repr. destruct (NarcModel.nFiles n) as [|f [|g r]]; [| |unfold zlen in L; cbn [length] in L; lia].
  - cbn [bind]. eexists. split; [reflexivity|]. exists (VCall (asc "NARC.fromFilesAndNames") [VList []; vn]). split.
    + apply reads_call_args; [reflexivity|]. repeat constructor; [apply (reads_repr_list [] []); constructor|exact Rn].
    + unfold eval_narc, call_of. rewrite (eq_refl : beq (asc "NARC.fromFilesAndNames") (asc "NARC.fromFilesAndNames") = true). cbn [obind as_list map all_some]. rewrite En. reflexivity.
  - apply Forall_inv in S. destruct (short_reads f S) as (t & E & R). rewrite E. cbn [bind]. rewrite app_nil_l. eexists. split; [reflexivity|].
    exists (VCall (asc "NARC.fromFilesAndNames") [VList [VBytes f]; vn]). split.
    + apply reads_call_args; [reflexivity|]. repeat constructor; [apply (reads_repr_list [t] [VBytes f]); repeat constructor; exact R|exact Rn].
    + unfold eval_narc, call_of. rewrite (eq_refl : beq (asc "NARC.fromFilesAndNames") (asc "NARC.fromFilesAndNames") = true). cbn [obind as_list map all_some as_bytes]. rewrite En. reflexivity.
Qed.

(** ** code.py *)
Lemma section_says s : section_ok s -> exists t, section_repr s = Ok t /\ says eval_section t s.
Proof.
  intros (D & A & B). destruct (short_reads _ D) as (t & E & R). unfold section_repr. rewrite E. cbn [bind]. eexists. split; [reflexivity|].
  exists (VCall (asc "Section") ([VBytes (CodeModel.sData s); VInt (CodeModel.sRam s); VInt (CodeModel.sBss s)] ++ if CodeModel.sImplicit s then [VNamed (asc "implicit") (VWord (asc "True"))] else [])). split.
  - apply reads_call_args; [reflexivity|]. cbn [app]. repeat constructor; [exact R|apply reads_X, A|apply reads_X, B|]. destruct (CodeModel.sImplicit s); [|constructor]. constructor; [|constructor].
    apply (reads_named (asc "implicit") (asc "True")); [reflexivity|apply reads_word; reflexivity].
  - destruct s as [d r b [|]]; reflexivity.
Qed.
Lemma mcf_says m : Forall section_ok (CodeModel.mSections m) -> 0 <= CodeModel.mRam m -> exists t, mcf_repr m = Ok t /\ says eval_mcf t (CodeModel.mSections m, CodeModel.mRam m).
Proof.
  intros F A. assert (exists l vs, mapM section_repr (CodeModel.mSections m) = Ok l /\ Forall2 reads l vs /\ all_some (map eval_section vs) = Some (CodeModel.mSections m)) as (l & vs & M & R & E).
  { induction F as [|s ss S F (l & vs & M & R & E)]; [exists [], []; repeat split; constructor|]. destruct (section_says s S) as (t & T & v & Rv & Ev). exists (t :: l), (v :: vs).
    cbn [mapM map all_some]. rewrite T, M, Ev, E. repeat split. constructor; assumption. }
  unfold mcf_repr. rewrite M. cbn [bind]. eexists. split; [reflexivity|]. exists (VCall (asc "MainCodeFile.fromSections") [VList vs; VInt (CodeModel.mRam m)]). split.
  - apply reads_call_args; [reflexivity|]. repeat constructor; [apply reads_repr_list, R|apply reads_X, A].
  - unfold eval_mcf, call_of. rewrite (eq_refl : beq (asc "MainCodeFile.fromSections") (asc "MainCodeFile.fromSections") = true). cbn [obind as_list]. rewrite E. reflexivity.
Qed.
Definition overlay_numbers (o : CodeModel.overlay) : list Z :=
  [CodeModel.oRamAddress o; CodeModel.oRamSize o; CodeModel.oBssSize o; CodeModel.oSiStart o; CodeModel.oSiEnd o; CodeModel.oFileID o; CodeModel.oCompressedSize o; CodeModel.oFlags o].
Lemma overlay_says o : short (CodeModel.oData o) -> Forall (Z.le 0) (overlay_numbers o) -> exists t, overlay_repr o = Ok t /\ says eval_overlay t (CodeModel.oData o, overlay_numbers o).
Proof.
  intros D F. destruct (short_reads _ D) as (t & E & R). unfold overlay_repr. rewrite E. cbn [bind]. eexists. split; [reflexivity|].
  exists (VCall (asc "Overlay") (VBytes (CodeModel.oData o) :: map VInt (overlay_numbers o))). unfold overlay_numbers in *. split.
  - rewrite Forall_forall in F. apply reads_call_args; [reflexivity|]. cbn [map].
    repeat (constructor; [first [exact R|apply reads_int|apply reads_X, F; repeat (left; reflexivity) || (cbn [In]; tauto)]|]). constructor.
  - reflexivity.
Qed.

(** ** bmg.py *)
Lemma part_says printable p : part_ok p -> says eval_part (part_repr printable p) p.
Proof.
  destruct p as [s|t d]; cbn [part_ok part_repr]; intro H.
  - exists (VStr s). split; [apply reads_str, H|reflexivity].
  - exists (VCall (asc "Escape") [VInt t; VBytes d]). split; [|reflexivity]. apply reads_call_args; [reflexivity|]. repeat constructor; [apply reads_int|apply reads_bytes, H].
Qed.
Lemma message_says printable m : message_ok m -> says eval_message (message_repr printable m) (BmgModel.mkMessage (BmgModel.mInfo m) (BmgModel.mParts m) false).
Proof.
  intros [I P]. destruct (says_list eval_part (part_repr printable) (BmgModel.mParts m)) as (v & R & E); [eapply Forall_impl; [|exact P]; intros p; apply part_says|].
  exists (VCall (asc "Message") [VBytes (BmgModel.mInfo m); v]). split.
  - apply reads_call_args; [reflexivity|]. repeat constructor; [apply reads_bytes, I|exact R].
  - unfold eval_message, call_of. rewrite (eq_refl : beq (asc "Message") (asc "Message") = true). cbn [obind].
    assert (B : bind_args 3 [asc "info"; asc "stringParts"; asc "isNull"] [VBytes (BmgModel.mInfo m); v] = Some [Some (VBytes (BmgModel.mInfo m)); Some v; None]) by (destruct v; try discriminate E; reflexivity).
    rewrite B. cbn [obind or_else as_bytes]. rewrite E. reflexivity.
Qed.
Lemma pairs_says l : says (as_list as_pair) (pairs_repr l) l.
Proof.
  apply says_list. apply Forall_forall. intros [a b] _. exists (VTuple [VInt a; VInt b]). split; [apply reads_pair; apply reads_int|reflexivity].
Qed.
Lemma as_list_is {A} (f : value -> option A) v l : as_list f v = Some l -> exists vs, v = VList vs.
Proof. destruct v; try discriminate. intros _. eexists. reflexivity. Qed.
Lemma bmg_says printable b : Forall message_ok (BmgModel.bMessages b) -> Forall is_bytes (BmgModel.bInstructions b) ->
  says eval_bmg (bmg_repr printable b)
    (map (fun m => BmgModel.mkMessage (BmgModel.mInfo m) (BmgModel.mParts m) false) (BmgModel.bMessages b), BmgModel.bInstructions b, BmgModel.bLabels b, BmgModel.bScripts b, BmgModel.bId b).
Proof.
  intros M I. assert (exists vm, reads (repr_list (map (message_repr printable) (BmgModel.bMessages b))) (VList vm) /\
    as_list eval_message (VList vm) = Some (map (fun m => BmgModel.mkMessage (BmgModel.mInfo m) (BmgModel.mParts m) false) (BmgModel.bMessages b))) as (vm & Rm & Em).
  { clear I. cbn [as_list]. induction M as [|m l H M (vm & Rm & Em)]; [exists []; split; [apply (reads_repr_list [] []); constructor|reflexivity]|].
    assert (G : exists vs, Forall2 reads (map (message_repr printable) (m :: l)) vs /\ all_some (map eval_message vs) = Some (map (fun m => BmgModel.mkMessage (BmgModel.mInfo m) (BmgModel.mParts m) false) (m :: l))).
    { clear vm Rm Em. assert (F : Forall message_ok (m :: l)) by (constructor; assumption). clear H M. induction F as [|x r H F (vs & Rs & Es)]; [exists []; split; [constructor|reflexivity]|].
      destruct (message_says printable x H) as (v & R & E). exists (v :: vs). split; [constructor; assumption|]. cbn [map all_some]. rewrite E, Es. reflexivity. }
    destruct G as (vs & Rs & Es). exists vs. split; [apply reads_repr_list, Rs|exact Es]. }
  destruct (says_list as_bytes repr_bytes (BmgModel.bInstructions b)) as (vi & Ri & Ei); [eapply Forall_impl; [|exact I]; intros d; apply says_bytes|].
  destruct (pairs_says (BmgModel.bLabels b)) as (vl & Rl & El). destruct (pairs_says (BmgModel.bScripts b)) as (vs & Rs & Es). pose proof (reads_hex (BmgModel.bId b)) as Rd.
  assert (Rid : reads (asc "id=" ++ hex (BmgModel.bId b)) (VNamed (asc "id") (VInt (BmgModel.bId b)))) by (apply (reads_named (asc "id")); [reflexivity|exact Rd]).
  destruct (as_list_is _ _ _ Ei) as [wi ->]. destruct (as_list_is _ _ _ El) as [wl ->]. destruct (as_list_is _ _ _ Es) as [ws ->].
  assert (Ll : reads (asc "labels=" ++ pairs_repr (BmgModel.bLabels b)) (VNamed (asc "labels") (VList wl))) by (apply (reads_named (asc "labels")); [reflexivity|exact Rl]).
  assert (Ls : reads (asc "scripts=" ++ pairs_repr (BmgModel.bScripts b)) (VNamed (asc "scripts") (VList ws))) by (apply (reads_named (asc "scripts")); [reflexivity|exact Rs]).
  set (ev := fun (m : list value) (i l s : option value) (n : Z) =>
      obind (as_list eval_message (VList m)) (fun m => obind (or_else [] (as_list as_bytes) i) (fun i =>
      obind (or_else [] (as_list as_pair) l) (fun l => obind (or_else [] (as_list as_pair) s) (fun s => Some (m, i, l, s, n)))))).
  assert (K : forall args m i l s n, bind_args 4 [asc "messages"; asc "instructions"; asc "labels"; asc "scripts"; asc "id"] args = Some [Some (VList m); i; l; s; Some (VInt n)] ->
     eval_bmg (VCall (asc "BMG.fromMessages") args) = ev m i l s n).
  { intros args m i l s n B. unfold eval_bmg, call_of. rewrite (eq_refl : beq (asc "BMG.fromMessages") (asc "BMG.fromMessages") = true). cbn [obind]. rewrite B. reflexivity. }
  unfold bmg_repr. destruct (BmgModel.bInstructions b) as [|i0 il], (BmgModel.bLabels b) as [|l0 ll], (BmgModel.bScripts b) as [|s0 sl];
    cbn [app]; change (zlen [_] <? 2) with true; change (zlen [_] <? 3) with true; change (zlen [_; _] <? 2) with false; change (zlen [_; _] <? 3) with true; change (zlen [_; _; _] <? 3) with false; cbn [app].
  - exists (VCall (asc "BMG.fromMessages") [VList vm; VNamed (asc "id") (VInt (BmgModel.bId b))]). split; [apply reads_call_args; [reflexivity|repeat (constructor; [assumption|]); constructor]|].
    rewrite (K _ vm None None None (BmgModel.bId b)) by reflexivity. unfold ev. rewrite Em. reflexivity.
  - exists (VCall (asc "BMG.fromMessages") [VList vm; VNamed (asc "scripts") (VList ws); VNamed (asc "id") (VInt (BmgModel.bId b))]). split; [apply reads_call_args; [reflexivity|repeat (constructor; [assumption|]); constructor]|].
    rewrite (K _ vm None None (Some (VList ws)) (BmgModel.bId b)) by reflexivity. unfold ev. rewrite Em. cbn [obind or_else]. rewrite Es. reflexivity.
  - exists (VCall (asc "BMG.fromMessages") [VList vm; VNamed (asc "labels") (VList wl); VNamed (asc "id") (VInt (BmgModel.bId b))]). split; [apply reads_call_args; [reflexivity|repeat (constructor; [assumption|]); constructor]|].
    rewrite (K _ vm None (Some (VList wl)) None (BmgModel.bId b)) by reflexivity. unfold ev. rewrite Em. cbn [obind or_else]. rewrite El. reflexivity.
  - exists (VCall (asc "BMG.fromMessages") [VList vm; VNamed (asc "labels") (VList wl); VNamed (asc "scripts") (VList ws); VNamed (asc "id") (VInt (BmgModel.bId b))]). split; [apply reads_call_args; [reflexivity|repeat (constructor; [assumption|]); constructor]|].
    rewrite (K _ vm None (Some (VList wl)) (Some (VList ws)) (BmgModel.bId b)) by reflexivity. unfold ev. rewrite Em. cbn [obind or_else]. rewrite El, Es. reflexivity.
  - exists (VCall (asc "BMG.fromMessages") [VList vm; VList wi; VNamed (asc "id") (VInt (BmgModel.bId b))]). split; [apply reads_call_args; [reflexivity|repeat (constructor; [assumption|]); constructor]|].
    rewrite (K _ vm (Some (VList wi)) None None (BmgModel.bId b)) by reflexivity. unfold ev. rewrite Em. cbn [obind or_else]. rewrite Ei. reflexivity.
  - exists (VCall (asc "BMG.fromMessages") [VList vm; VList wi; VNamed (asc "scripts") (VList ws); VNamed (asc "id") (VInt (BmgModel.bId b))]). split; [apply reads_call_args; [reflexivity|repeat (constructor; [assumption|]); constructor]|].
    rewrite (K _ vm (Some (VList wi)) None (Some (VList ws)) (BmgModel.bId b)) by reflexivity. unfold ev. rewrite Em. cbn [obind or_else]. rewrite Ei. cbn [obind]. rewrite Es. reflexivity.
  - exists (VCall (asc "BMG.fromMessages") [VList vm; VList wi; VList wl; VNamed (asc "id") (VInt (BmgModel.bId b))]). split; [apply reads_call_args; [reflexivity|repeat (constructor; [assumption|]); constructor]|].
    rewrite (K _ vm (Some (VList wi)) (Some (VList wl)) None (BmgModel.bId b)) by reflexivity. unfold ev. rewrite Em. cbn [obind or_else]. rewrite Ei. cbn [obind]. rewrite El. reflexivity.
  - exists (VCall (asc "BMG.fromMessages") [VList vm; VList wi; VList wl; VList ws; VNamed (asc "id") (VInt (BmgModel.bId b))]). split; [apply reads_call_args; [reflexivity|repeat (constructor; [assumption|]); constructor]|].
    rewrite (K _ vm (Some (VList wi)) (Some (VList wl)) (Some (VList ws)) (BmgModel.bId b)) by reflexivity. unfold ev. rewrite Em. cbn [obind or_else]. rewrite Ei. cbn [obind]. rewrite El. cbn [obind]. rewrite Es. reflexivity.
Qed.

(** ** texture.py *)
Lemma texture_says t a b p c d1 d2 : TexModel.tex_save t = Ok (a, b, p, c, d1, d2) -> short d1 -> short d2 -> says eval_texture (texture_repr t) (TexModel.tex_new a b p c d1 d2).
Proof.
  intros E S1 S2. destruct (short_reads d1 S1) as (t1 & E1 & R1). destruct (short_reads d2 S2) as (t2 & E2 & R2). unfold texture_repr. rewrite E. cbn [bind]. rewrite E1. cbn [bind]. rewrite E2. cbn [bind].
  exists (VCall (asc "Texture") [VInt a; VInt b; VInt p; VInt c; VBytes d1; VBytes d2]). split; [|reflexivity].
  apply (reads_call_args (asc "Texture") [str_int a; str_int b; hex p; str_int c; t1; t2]); [reflexivity|]. repeat (constructor; [first [apply reads_int|apply reads_hex|assumption]|]). constructor.
Qed.
Lemma color_says c : says as_color (color_repr c) c.
Proof.
  destruct c as [r g b a]. exists (VTuple [VInt r; VInt g; VInt b; VInt a]). split; [|reflexivity].
  apply (reads_tuple (asc ",") (map str_int [r; g; b; a])); [|left; reflexivity|discriminate]. repeat constructor; apply reads_int.
Qed.
Lemma palette_says p : zlen (TexModel.plColors p) <= 20 -> says eval_palette (palette_repr p) p.
Proof.
  intro L. unfold palette_repr, shortColorsListRepr. rewrite slice_firstn by lia. rewrite firstn_all2 by (unfold zlen in L; lia). replace (20 <? zlen (TexModel.plColors p)) with false by lia.
  destruct (says_list as_color color_repr (TexModel.plColors p)) as (v & R & E); [apply Forall_forall; intros c _; apply color_says|].
  exists (VCall (asc "Palette.fromColors") [VInt (TexModel.pl00 p); VInt (TexModel.pl02 p); VInt (TexModel.plH02 p); v]). split.
  - apply reads_call_args; [reflexivity|]. repeat (constructor; [first [apply reads_int|exact R]|]). constructor.
  - unfold eval_palette, call_of. rewrite (eq_refl : beq (asc "Palette.fromColors") (asc "Palette.fromColors") = true). cbn [obind]. rewrite E. destruct p; reflexivity.
Qed.

(** ** sound *)
Lemma set_says l : says as_set (repr_set l) l.
Proof.
  unfold repr_set. destruct l as [|x l].
  - exists (VCall (asc "set") []). split; [|reflexivity]. apply (reads_call_args (asc "set") [] []); [reflexivity|constructor].
  - destruct (says_all as_int str_int (x :: l)) as (vs & R & E); [apply Forall_forall; intros n _; apply says_int|].
    exists (VSet vs). split; [|exact E]. apply reads_set; [exact R|apply sep_space|]. intros ->. discriminate E.
Qed.
Lemma player_says p : says eval_player (player_repr p) p.
Proof.
  destruct p as [[m c] h]. destruct (set_says c) as (v & R & E). exists (VCall (asc "SequencePlayer") [VInt m; v; VInt h]). split.
  - apply reads_call_args; [reflexivity|]. repeat (constructor; [first [apply reads_int|exact R]|]). constructor.
  - unfold eval_player, call_of. rewrite (eq_refl : beq (asc "SequencePlayer") (asc "SequencePlayer") = true). cbn [obind]. rewrite E. reflexivity.
Qed.
Lemma offset_says o : says as_offset (repr_opt o) o.
Proof.
  destruct o as [n|]; cbn [repr_opt].
  - exists (VInt n). split; [apply reads_int|reflexivity].
  - exists (VWord (asc "None")). split; [apply reads_word; reflexivity|reflexivity].
Qed.
Lemma aseq_says ids heap depth s : SsarModel.aParsed s = false -> let '(b, v, c, p, y) := SsarModel.aParams s in
  exists t, aseq_repr ids heap depth s = Ok t /\ says eval_aseq t (SsarModel.aOffset s, [b; v; c; p; y]).
Proof.
  intro P. unfold aseq_repr. destruct (SsarModel.aParams s) as [[[[b v] c] p] y]. rewrite P. cbn [bind]. eexists. split; [reflexivity|]. destruct (offset_says (SsarModel.aOffset s)) as (o & R & E).
  exists (VCall (asc "SSARSequence") [o; VInt b; VInt v; VInt c; VInt p; VInt y; VNamed (asc "parsed") (VWord (asc "False"))]). split.
  - apply reads_call_args; [reflexivity|]. cbn [app map]. repeat (constructor; [first [exact R|apply reads_int|apply (reads_named (asc "parsed") (asc "False")); [reflexivity|apply reads_word; reflexivity]]|]). constructor.
  - unfold eval_aseq, call_of. rewrite (eq_refl : beq (asc "SSARSequence") (asc "SSARSequence") = true). cbn [obind].
    assert (B : bind_args 6 [asc "firstEvent_firstEventOffset"; asc "bankID"; asc "volume"; asc "channelPressure"; asc "polyphonicPressure"; asc "playerID"; asc "parsed"]
      [o; VInt b; VInt v; VInt c; VInt p; VInt y; VNamed (asc "parsed") (VWord (asc "False"))] =
      Some [Some o; Some (VInt b); Some (VInt v); Some (VInt c); Some (VInt p); Some (VInt y); Some (VWord (asc "False"))]) by (destruct o; try discriminate E; reflexivity).
    rewrite B. cbn [obind]. change (or_else true as_bool (Some (VWord (asc "False")))) with (Some false). cbn [obind]. rewrite E. reflexivity.
Qed.
Lemma strm_says s : (length (WaveModel.sChannels s) <= 1)%nat -> Forall (fun c => (length c <= 1)%nat /\ Forall short c) (WaveModel.sChannels s) ->
  let '(unk02, volume, priority, playerID, unk07) := WaveModel.sInfo s in
  exists t, strm_repr s = Ok t /\ says eval_strm t (WaveModel.sChannels s, [unk02; volume; priority; playerID; unk07]).
Proof.
  intros L F. unfold strm_repr. destruct (WaveModel.sInfo s) as [[[[u2 vo] pr] pl] u7].
  assert (exists t v, match WaveModel.sChannels s with [] => Ok [] | c :: r => b <- match c with [] => Ok [] | b :: rb => t <- shortBytesRepr b 0x20 ;; Ok (t ++ match rb with [] => [] | _ => asc ", ..." end) end ;; Ok (asc "[" ++ b ++ asc "]" ++ match r with [] => [] | _ => asc ", ..." end) end = Ok t /\
    reads (asc "[" ++ t ++ asc "]") v /\ as_list (as_list as_bytes) v = Some (WaveModel.sChannels s)) as (t & v & E & R & V).
  { destruct (WaveModel.sChannels s) as [|c [|c2 r]]; [| |cbn [length] in L; lia].
    - exists [], (VList []). split; [reflexivity|]. split; [|reflexivity]. apply (reads_repr_list [] []). constructor.
    - apply Forall_inv in F. destruct F as [Lc Fc]. destruct c as [|b [|b2 rb]]; [| |cbn [length] in Lc; lia].
      + cbn [bind]. eexists _, (VList [VList []]). split; [reflexivity|]. split; [|reflexivity]. apply (reads_repr_list [repr_list []] [VList []]). repeat constructor. apply (reads_repr_list [] []). constructor.
      + apply Forall_inv in Fc. destruct (short_reads b Fc) as (t & E & R). rewrite E. cbn [bind]. rewrite !app_nil_r. exists (repr_list [t]), (VList [VList [VBytes b]]). split; [reflexivity|]. split; [|reflexivity].
        apply (reads_repr_list [repr_list [t]] [VList [VBytes b]]). repeat constructor. apply (reads_repr_list [t] [VBytes b]). repeat constructor. exact R. }
  rewrite E. cbn [bind]. eexists. split; [reflexivity|]. exists (VCall (asc "STRM.fromChannels") [v; VInt u2; VInt vo; VInt pr; VInt pl; VInt u7]). split.
  - apply reads_call_args; [reflexivity|]. repeat (constructor; [first [exact R|apply reads_int]|]). constructor.
  - unfold eval_strm, call_of. rewrite (eq_refl : beq (asc "STRM.fromChannels") (asc "STRM.fromChannels") = true). cbn [obind length Nat.eqb]. rewrite V. reflexivity.
Qed.

(** ** texts that are no expressions *)
Definition stuck (s : list Z) : Prop := forall fuel t, (2 * length s < fuel)%nat -> stop t ->
  match parse fuel (s ++ t) with None => True | Some (_, []) => False | Some (_, c :: _) => c <> 44 /\ ~ closer c end.
Lemma stuck_expr s : stuck s -> expr s = None.
Proof.
  intro R. unfold expr. specialize (R (S (S (2 * length s))) [] ltac:(lia) I). rewrite app_nil_r in R. destruct (parse (S (S (2 * length s))) s) as [[v [|c u]]|]; [contradiction|reflexivity|reflexivity].
Qed.
Lemma stuck_angle s : stuck (asc "<" ++ s).
Proof. intros fuel t L _. destruct fuel as [|k]; [exact I|]. exact I. Qed.
Lemma stuck_long l d : literal l = Some d -> stuck (l ++ asc "...").
Proof.
  intros H fuel t L T. rewrite app_length in L.
  assert (P : parse fuel (l ++ asc "..." ++ t) = Some (VBytes d, asc "..." ++ t)).
  { destruct fuel as [|k]; [lia|]. destruct l as [|b [|q r]]; try discriminate H. cbn [literal] in H. destruct ((b =? 98) && ((q =? 39) || (q =? 34))) eqn:E; [|discriminate H].
    apply andb_true_iff in E. destruct E as [B Q]. assert (b = 98) as -> by lia. assert (Q1 : quote q) by (unfold quote; apply orb_true_iff in Q; lia). clear B Q.
    pose proof (lit_close q Q1 r d H) as C. apply (close_app q r r [] (asc "..." ++ t)) in C. cbn [app] in *. cbn [parse]. change (is_quote 98) with false. cbn [Z.eqb Pos.eqb hd tl]. rewrite (quote_test q Q1). cbn [andb]. rewrite C.
    cbn [obind fst snd]. rewrite H. reflexivity. }
  rewrite <- app_assoc, P. change (asc "..." ++ t) with (46 :: 46 :: 46 :: t). unfold closer. lia.
Qed.
Lemma stuck_named w s : is_word w = true -> stuck s -> stuck (w ++ asc "=" ++ s).
Proof.
  intros W R fuel t L T. change (asc "=") with [61] in *. rewrite !app_length in L. cbn [length] in L. destruct fuel as [|k]; [lia|].
  replace ((w ++ [61] ++ s) ++ t) with (w ++ 61 :: (s ++ t)) by (rewrite <- !app_assoc; reflexivity). rewrite parse_word by (exact W || exact eq_refl). cbn [hd tl Z.eqb Pos.eqb].
  specialize (R k t ltac:(lia) T). destruct (parse k (s ++ t)) as [[v u]|]; exact R.
Qed.
Lemma more_stuck ss vs s rest : Forall2 reads ss vs -> stuck s -> forall close fuel t, closer close -> (2 * length (joined [44%Z; 32%Z] (ss ++ s :: rest)) + 1 < fuel)%nat ->
  more fuel close (joined [44; 32] (ss ++ s :: rest) ++ close :: t) = None.
Proof.
  intros F S. induction F as [|x v ss vs R F I]; intros close fuel t C L.
  - cbn [app] in *. destruct fuel as [|k]; [lia|]. cbn [more].
    assert (SC : forall u, stop (close :: u)) by (intro u; cbn [stop]; unfold closer in C; lia).
    assert (Q : exists u, joined [44; 32] (s :: rest) ++ close :: t = s ++ u /\ stop u /\ (length s <= length (joined [44%Z; 32%Z] (s :: rest)))%nat).
    { destruct rest as [|y rest]; [exists (close :: t); split; [reflexivity|split; [apply SC|cbn [joined]; lia]]|].
      exists ([44; 32] ++ joined [44; 32] (y :: rest) ++ close :: t). rewrite (eq_refl : joined [44; 32] (s :: y :: rest) = s ++ [44; 32] ++ joined [44; 32] (y :: rest)). split; [rewrite <- !app_assoc; reflexivity|]. split; [cbn [app stop]; lia|]. rewrite app_length. lia. }
    destruct Q as (u & -> & U & Len). specialize (S k u ltac:(lia) U). destruct (parse k (s ++ u)) as [[v [|c w]]|]; cbn [obind fst snd]; [contradiction| |reflexivity].
    destruct S as [S1 S2]. replace (c =? close) with false by (symmetry; apply Z.eqb_neq; intros ->; contradiction). replace (c =? 44) with false by lia. reflexivity.
  - destruct fuel as [|k]; [lia|]. cbn [more].
    assert (exists y r, ss ++ s :: rest = y :: r) as (y & r & Y) by (destruct ss; eexists _, _; reflexivity).
    rewrite (eq_refl : (x :: ss) ++ s :: rest = x :: (ss ++ s :: rest)) in *. rewrite Y in *. rewrite (eq_refl : joined [44; 32] (x :: y :: r) = x ++ [44; 32] ++ joined [44; 32] (y :: r)) in L |- *. set (J := joined [44; 32] (y :: r)) in *.
    rewrite !app_length in L. cbn [length] in L. replace ((x ++ [44; 32] ++ J) ++ close :: t) with (x ++ 44 :: (32 :: J ++ close :: t)) by (rewrite <- !app_assoc; reflexivity).
    rewrite (R k (44 :: 32 :: J ++ close :: t) ltac:(lia)) by (cbn [stop]; lia). cbn [obind fst snd]. replace (44 =? close) with false by (unfold closer in C; lia). cbn [Z.eqb Pos.eqb].
    rewrite (eq_refl : strip_space (32 :: J ++ close :: t) = J ++ close :: t). rewrite (I close k t C) by lia. reflexivity.
Qed.
(** the text of something that cannot be read does not begin with a closing bracket *)
Definition opens (s : list Z) : Prop := exists c r, s = c :: r /\ ~ closer c.
Lemma opens_joined ss vs s rest : Forall2 reads ss vs -> opens s -> forall t, exists c r, joined [44; 32] (ss ++ s :: rest) ++ t = c :: r /\ ~ closer c.
Proof.
  intros F (c & r & -> & O) t. destruct F as [|x v ss vs R F].
  - cbn [app]. destruct rest; cbn [joined app]; eexists _, _; (split; [reflexivity|exact O]).
  - destruct (reads_head x v R) as (d & w & -> & A & B & C & D & E). cbn [app]. destruct (ss ++ (c :: r) :: rest); cbn [joined app]; eexists _, _; (split; [reflexivity|unfold closer; lia]).
Qed.
Lemma items_stuck ss vs s rest close k t : Forall2 reads ss vs -> stuck s -> opens s -> closer close -> (2 * length (joined [44%Z; 32%Z] (ss ++ s :: rest)) + 1 < k)%nat ->
  match joined [44; 32] (ss ++ s :: rest) ++ close :: t with
  | c :: u => if c =? close then Some ([], u) else more k close (joined [44; 32] (ss ++ s :: rest) ++ close :: t)
  | [] => None
  end = None.
Proof.
  intros F S O C L. rewrite (more_stuck ss vs s rest F S close k t C L). destruct (opens_joined ss vs s rest F O (close :: t)) as (c & r & -> & N).
  replace (c =? close) with false; [reflexivity|]. symmetry. apply Z.eqb_neq. intros ->. contradiction.
Qed.
Lemma stuck_call f ss vs s rest : is_word f = true -> Forall2 reads ss vs -> stuck s -> opens s -> stuck (call f (ss ++ s :: rest)).
Proof.
  intros W F S O fuel t L T. unfold call in *. change (asc "(") with [40] in *. change (asc ")") with [41] in *. change (asc ", ") with [44; 32] in *. rewrite !app_length in L. cbn [length] in L. destruct fuel as [|k]; [lia|].
  replace ((f ++ [40] ++ joined [44; 32] (ss ++ s :: rest) ++ [41]) ++ t) with (f ++ 40 :: joined [44; 32] (ss ++ s :: rest) ++ 41 :: t) by (rewrite <- !app_assoc; reflexivity).
  rewrite parse_word by (exact W || exact eq_refl). cbn [hd tl Z.eqb Pos.eqb]. rewrite (items_stuck ss vs s rest 41 k t F S O ltac:(unfold closer; lia) ltac:(lia)). exact I.
Qed.
Lemma stuck_list ss vs s rest : Forall2 reads ss vs -> stuck s -> opens s -> stuck (repr_list (ss ++ s :: rest)).
Proof.
  intros F S O fuel t L T. unfold repr_list in *. change (asc "[") with [91] in *. change (asc "]") with [93] in *. change (asc ", ") with [44; 32] in *. rewrite !app_length in L. cbn [length] in L. destruct fuel as [|k]; [lia|].
  replace (([91] ++ joined [44; 32] (ss ++ s :: rest) ++ [93]) ++ t) with (91 :: joined [44; 32] (ss ++ s :: rest) ++ 93 :: t) by (cbn [app]; rewrite <- app_assoc; reflexivity).
  cbn [parse]. cbn [Z.eqb Pos.eqb]. rewrite (items_stuck ss vs s rest 93 k t F S O ltac:(unfold closer; lia) ltac:(lia)). exact I.
Qed.
Lemma opens_word w s : is_word w = true -> opens (w ++ s).
Proof.
  destruct w as [|c w]; [discriminate|]. cbn [is_word]. intro W. apply andb_true_iff in W. destruct W as [W _]. apply andb_true_iff in W. destruct W as [W _]. exists c, (w ++ s). split; [reflexivity|].
  unfold letter in W. rewrite !orb_true_iff, !andb_true_iff in W. unfold closer. lia.
Qed.
Lemma opens_lit l d s : literal l = Some d -> opens (l ++ s).
Proof.
  destruct l as [|b [|q r]]; try discriminate. cbn [literal]. destruct ((b =? 98) && ((q =? 39) || (q =? 34))) eqn:E; [|discriminate]. intros _. apply andb_true_iff in E. exists b. eexists. split; [reflexivity|]. unfold closer. lia.
Qed.
Lemma opens_lt s : opens (asc "<" ++ s).
Proof. exists 60, s. split; [reflexivity|unfold closer; lia]. Qed.
Lemma opens_list l : opens (repr_list l).
Proof. exists 91. eexists. split; [reflexivity|unfold closer; lia]. Qed.
Lemma ints_read l : Forall2 reads (map str_int l) (map VInt l).
Proof. induction l as [|n l I]; constructor; [apply reads_int|exact I]. Qed.

Lemma group_stuck g : stuck (group_repr g).
Proof. unfold group_repr, enum_repr. eapply (stuck_call _ [] []); [reflexivity|constructor|apply stuck_angle|apply opens_lt]. Qed.
Lemma rom_stuck r : stuck (rom_repr r).
Proof. unfold rom_repr, rom_str. change (asc "<rom ") with (asc "<" ++ asc "rom "). rewrite <- app_assoc. eapply (stuck_call _ [] []); [reflexivity|constructor|apply stuck_angle|apply opens_lt]. Qed.
Lemma note_stuck n : 1 <= SbnkModel.nType n <= 3 -> stuck (note_repr n).
Proof.
  intro H. unfold note_repr. eapply stuck_call; [reflexivity|apply ints_read| |].
  all: unfold note_type_repr, enum_repr; destruct (SbnkModel.nType n =? 1) eqn:A; [|destruct (SbnkModel.nType n =? 2) eqn:B; [|destruct (SbnkModel.nType n =? 3) eqn:C; [|lia]]]; try apply stuck_angle; apply opens_lt.
Qed.
Lemma swav_stuck w s : short (WaveModel.wData w) \/ long (WaveModel.wData w) -> swav_repr w = Ok s -> stuck s.
Proof.
  intros H E. unfold swav_repr in E. destruct H as [H|H].
  - destruct (short_reads _ H) as (t & T & R). rewrite T in E. cbn [bind] in E. injection E as <-. eapply (stuck_call (asc "SWAV.fromData") [t] [_]); [reflexivity|constructor; [exact R|constructor]| |].
    + unfold enum_repr. apply (stuck_named (asc "waveType")); [reflexivity|apply stuck_angle].
    + apply (opens_word (asc "waveType")). reflexivity.
  - destruct (long_reads _ H) as (t & v & T & V). rewrite T in E. cbn [bind] in E. injection E as <-. eapply (stuck_call (asc "SWAV.fromData") [] []); [reflexivity|constructor|apply (stuck_long _ _ V)|apply (opens_lit _ _ _ V)].
Qed.
Lemma section_stuck s t : long (CodeModel.sData s) -> section_repr s = Ok t -> stuck t.
Proof.
  intros H E. unfold section_repr in E. destruct (long_reads _ H) as (l & v & T & V). rewrite T in E. cbn [bind] in E. injection E as <-. eapply (stuck_call (asc "Section") [] []); [reflexivity|constructor|apply (stuck_long _ _ V)|apply (opens_lit _ _ _ V)].
Qed.
Lemma overlay_stuck o t : long (CodeModel.oData o) -> overlay_repr o = Ok t -> stuck t.
Proof.
  intros H E. unfold overlay_repr in E. destruct (long_reads _ H) as (l & v & T & V). rewrite T in E. cbn [bind] in E. injection E as <-. eapply (stuck_call (asc "Overlay") [] []); [reflexivity|constructor|apply (stuck_long _ _ V)|apply (opens_lit _ _ _ V)].
Qed.

(** ** lists that are cut off: the ellipsis is read as an element *)
Lemma reads_dots : reads (asc "...") VDots.
Proof. intros fuel t L _. destruct fuel as [|k]; [lia|]. reflexivity. Qed.
Lemma joined_snoc sep l x : l <> [] -> joined sep (l ++ [x]) = joined sep l ++ sep ++ x.
Proof.
  induction l as [|a l I]; intro N; [congruence|]. destruct l as [|b l]; [reflexivity|].
  change (joined sep ((a :: b :: l) ++ [x])) with (a ++ sep ++ joined sep ((b :: l) ++ [x])). rewrite I by discriminate. change (joined sep (a :: b :: l)) with (a ++ sep ++ joined sep (b :: l)). rewrite <- !app_assoc. reflexivity.
Qed.
Lemma all_some_none {A} (l : list (option A)) : In None l -> all_some l = None.
Proof.
  induction l as [|x l I]; intro H; [destruct H|]. cbn [all_some]. destruct H as [->|H]; [reflexivity|]. rewrite (I H). destruct x; reflexivity.
Qed.
Lemma narc_more printable n f g r : folder_texts (NarcModel.nFilenames n) -> NarcModel.nFiles n = f :: g :: r -> short f ->
  exists s v, narc_repr printable n = Ok s /\ expr s = Some v /\ eval_narc v = None.
Proof.
  intros T E S. destruct (folder_says printable _ T) as (vn & Rn & En). destruct (short_reads f S) as (t & Et & R). unfold narc_repr. rewrite E, Et. cbn [bind].
  exists (call (asc "NARC.fromFilesAndNames") [repr_list [t; asc "..."]; folder_repr printable (NarcModel.nFilenames n)]), (VCall (asc "NARC.fromFilesAndNames") [VList [VBytes f; VDots]; vn]).
  split; [unfold repr_list; cbn [joined]; rewrite <- !app_assoc; reflexivity|]. split; [|reflexivity].
  apply reads_expr, reads_call_args; [reflexivity|]. repeat constructor; [|exact Rn]. apply reads_repr_list. repeat constructor; [exact R|apply reads_dots].
Qed.
Lemma palette_more p : 20 < zlen (TexModel.plColors p) -> exists v, expr (palette_repr p) = Some v /\ eval_palette v = None.
Proof.
  intro L. unfold palette_repr, shortColorsListRepr. rewrite slice_firstn by lia. replace (20 <? zlen (TexModel.plColors p)) with true by lia.
  destruct (says_all as_color color_repr (firstn (Z.to_nat 20) (TexModel.plColors p))) as (vs & R & E); [apply Forall_forall; intros c _; apply color_says|].
  set (l := map color_repr (firstn (Z.to_nat 20) (TexModel.plColors p))) in *.
  assert (N : l <> []) by (unfold l; destruct (TexModel.plColors p); [unfold zlen in L; cbn in L; lia|discriminate]).
  replace (asc "[" ++ joined (asc ", ") l ++ asc ", ..." ++ asc "]") with (repr_list (l ++ [asc "..."])).
  2:{ unfold repr_list. rewrite joined_snoc by exact N. rewrite <- !app_assoc. reflexivity. }
  exists (VCall (asc "Palette.fromColors") [VInt (TexModel.pl00 p); VInt (TexModel.pl02 p); VInt (TexModel.plH02 p); VList (vs ++ [VDots])]). split.
  - apply reads_expr, reads_call_args; [reflexivity|]. repeat (constructor; [first [apply reads_int|apply reads_repr_list]|]); [|constructor]. apply Forall2_app; [exact R|]. repeat constructor. apply reads_dots.
  - unfold eval_palette, call_of. rewrite (eq_refl : beq (asc "Palette.fromColors") (asc "Palette.fromColors") = true). cbn [obind as_list]. rewrite map_app, all_some_none; [reflexivity|]. apply in_or_app. right. left. reflexivity.
Qed.
Lemma texture_fails t e : TexModel.tex_save t = Err e -> exists v, expr (texture_repr t) = Some v /\ eval_texture v = None.
Proof.
  intro E. unfold texture_repr. rewrite E. cbn [bind]. exists (VCall (asc "Texture") [VDots]). split; [|reflexivity]. apply reads_expr, (reads_call_args (asc "Texture") [asc "..."] [VDots]); [reflexivity|]. repeat constructor. apply reads_dots.
Qed.
Lemma tex_same t a b p c d1 d2 : 0 <= TexModel.txFmt t < 8 -> 0 <= TexModel.txMode t < 4 -> TexModel.tex_save t = Ok (a, b, p, c, d1, d2) -> TexModel.tex_new a b p c d1 d2 = t /\ d1 = TexModel.txD1 t /\ d2 = TexModel.txD2 t.
Proof.
  intros F M E. unfold TexModel.tex_save in E. apply bind_ok in E as (q & P & E). injection E as <- <- <- <- <- <-. split; [|split; reflexivity]. destruct (TexLemmas.params_inv _ _ P) as (x & y & Hx & Hy & EW & EH).
  destruct (TexLemmas.params_ok_all (TexModel.tx00 t) (TexModel.tx02 t) (TexModel.txRepS t) (TexModel.txRepT t) (TexModel.txMirS t) (TexModel.txMirT t) x y (TexModel.txFmt t) (TexModel.txC0 t) (TexModel.txMode t) (TexModel.tx04 t) (TexModel.txD1 t) (TexModel.txD2 t) Hx Hy F M) as [P1 P2].
  assert (T : TexModel.tex_fromFlags (TexModel.tx00 t) (TexModel.tx02 t) (TexModel.txRepS t) (TexModel.txRepT t) (TexModel.txMirS t) (TexModel.txMirT t) (8 * 2 ^ x) (8 * 2 ^ y) (TexModel.txFmt t) (TexModel.txC0 t) (TexModel.txMode t) (TexModel.tx04 t) (TexModel.txD1 t) (TexModel.txD2 t) = t).
  { unfold TexModel.tex_fromFlags. rewrite <- EW, <- EH. destruct t; reflexivity. }
  rewrite T in P1, P2. rewrite P in P1. injection P1 as ->. exact P2.
Qed.
Lemma splayer_reads l : exists v, expr (splayer_repr l) = Some v /\ eval_splayer v = Some [].
Proof.
  destruct l as [|x l]; cbn [splayer_repr].
  - exists (VCall (asc "StreamPlayer") [VList []]). split; [|reflexivity]. vm_compute. reflexivity.
  - exists (VCall (asc "StreamPlayer") []). split; [|reflexivity]. vm_compute. reflexivity.
Qed.
Lemma sseq_unparsed ids heap depth s : SsarModel.qParsed s = false -> short (SsarModel.qData s) -> exists t, sseq_repr ids heap depth s = Ok t /\ says (eval_file (asc "SSEQ")) t (SsarModel.qData s).
Proof.
  intros P S. destruct (short_reads _ S) as (t & E & R). unfold sseq_repr. destruct (SsarModel.qInfo s) as [[[[[a b] c] d] e] f]. rewrite P, E. cbn [bind]. eexists. split; [reflexivity|].
  exists (VCall (asc "SSEQ") [VBytes (SsarModel.qData s)]). split; [|reflexivity]. apply reads_call_args; [reflexivity|]. repeat constructor. exact R.
Qed.
Lemma sdat_stuck s d : SdatModel.sdat_save s = Ok d -> long d -> stuck (sdat_repr s).
Proof.
  intros E L. destruct (long_reads d L) as (t & v & T & V). unfold sdat_repr. rewrite E. cbn [bind]. rewrite T. eapply (stuck_call (asc "SDAT") [] []); [reflexivity|constructor|apply (stuck_long _ _ V)|apply (opens_lit _ _ _ V)].
Qed.

(** ** touch areas and image positions *)
Lemma area_says t : says eval_area (area_repr t) t.
Proof.
  exists (VCall (asc "BNBLTouchArea") (map VInt [BnModel.taX t; BnModel.taY t; BnModel.taW t; BnModel.taH t; BnModel.taAlign t])). split; [apply reads_call_args; [reflexivity|apply ints_read]|destruct t; reflexivity].
Qed.
Lemma position_says t : says eval_position (position_repr t) t.
Proof.
  exists (VCall (asc "BNCLImagePosition") (map VInt [BnModel.ipX t; BnModel.ipY t; BnModel.ipAlign t; BnModel.ipImageID t])). split; [apply reads_call_args; [reflexivity|apply ints_read]|destruct t; reflexivity].
Qed.
Lemma bnbl_says b : says eval_bnbl (bnbl_repr b) b.
Proof.
  destruct (says_list eval_area area_repr (BnModel.blAreas b)) as (v & R & E); [apply Forall_forall; intros; apply area_says|]. destruct (as_list_is _ _ _ E) as (vs & ->). unfold bnbl_repr. destruct (Z.eqb_spec (BnModel.blUnk04 b) 0) as [Z0|Z0].
  - exists (VCall (asc "BNBL.fromTouchAreas") [VList vs]). split; [apply (reads_call_args (asc "BNBL.fromTouchAreas") [_]); [reflexivity|repeat constructor; exact R]|].
    unfold eval_bnbl, call_of. rewrite (eq_refl : beq (asc "BNBL.fromTouchAreas") (asc "BNBL.fromTouchAreas") = true). cbn [obind]. rewrite (eq_refl : bind_args 2 [asc "touchAreas"; asc "unk04"] [VList vs] = Some [Some (VList vs); None]). cbn [obind]. rewrite E. cbn [obind or_else option_map]. destruct b; cbn in Z0; subst; reflexivity.
  - exists (VCall (asc "BNBL.fromTouchAreas") [VList vs; VInt (BnModel.blUnk04 b)]). split; [|].
    + pose proof (reads_call_args (asc "BNBL.fromTouchAreas") [repr_list (map area_repr (BnModel.blAreas b)); str_int (BnModel.blUnk04 b)] [VList vs; VInt (BnModel.blUnk04 b)] eq_refl) as K. unfold call in K. cbn [joined] in K. rewrite <- !app_assoc in K. rewrite <- !app_assoc. apply K. repeat constructor; [exact R|apply reads_int].
    + unfold eval_bnbl, call_of. rewrite (eq_refl : beq (asc "BNBL.fromTouchAreas") (asc "BNBL.fromTouchAreas") = true). cbn [obind]. rewrite (eq_refl : bind_args 2 [asc "touchAreas"; asc "unk04"] [VList vs; VInt (BnModel.blUnk04 b)] = Some [Some (VList vs); Some (VInt (BnModel.blUnk04 b))]). cbn [obind]. rewrite E. destruct b; reflexivity.
Qed.
Lemma bncl_says b : says eval_bncl (bncl_repr b) b.
Proof.
  destruct (says_list eval_position position_repr (BnModel.clPositions b)) as (v & R & E); [apply Forall_forall; intros; apply position_says|]. destruct (as_list_is _ _ _ E) as (vs & ->). unfold bncl_repr. destruct (Z.eqb_spec (BnModel.clUnk04 b) 0) as [Z0|Z0].
  - exists (VCall (asc "BNCL.fromImagePositions") [VList vs]). split; [apply (reads_call_args (asc "BNCL.fromImagePositions") [_]); [reflexivity|repeat constructor; exact R]|].
    unfold eval_bncl, call_of. rewrite (eq_refl : beq (asc "BNCL.fromImagePositions") (asc "BNCL.fromImagePositions") = true). cbn [obind]. rewrite (eq_refl : bind_args 2 [asc "imagePositions"; asc "unk04"] [VList vs] = Some [Some (VList vs); None]). cbn [obind]. rewrite E. cbn [obind or_else option_map]. destruct b; cbn in Z0; subst; reflexivity.
  - exists (VCall (asc "BNCL.fromImagePositions") [VList vs; VInt (BnModel.clUnk04 b)]). split; [|].
    + pose proof (reads_call_args (asc "BNCL.fromImagePositions") [repr_list (map position_repr (BnModel.clPositions b)); str_int (BnModel.clUnk04 b)] [VList vs; VInt (BnModel.clUnk04 b)] eq_refl) as K. unfold call in K. cbn [joined] in K. rewrite <- !app_assoc in K. rewrite <- !app_assoc. apply K. repeat constructor; [exact R|apply reads_int].
    + unfold eval_bncl, call_of. rewrite (eq_refl : beq (asc "BNCL.fromImagePositions") (asc "BNCL.fromImagePositions") = true). cbn [obind]. rewrite (eq_refl : bind_args 2 [asc "imagePositions"; asc "unk04"] [VList vs; VInt (BnModel.clUnk04 b)] = Some [Some (VList vs); Some (VInt (BnModel.clUnk04 b))]). cbn [obind]. rewrite E. destruct b; reflexivity.
Qed.

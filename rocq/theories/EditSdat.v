(** * Lemmas for C120 *)
From Coq Require Import String Sorted Lia.
From Verif Require Import PyBase PyLemmas PyTac AtLemmas CommonModel WaveModel WaveLemmas SeqModel SeqLemmas SsarModel SsarLemmas SbnkModel SbnkSpec SbnkLemmas SbnkBank SbnkInacc SbnkLayout SbnkBack SbnkLoaded SbnkProps SbnkInaccProps
  RomSpec RomLayout RomLoad SdatModel SdatFiles SdatSymb SdatFat SdatSave SdatLoad SdatBack SdatSpec SdatLayout SdatReload SdatRound SdatProps ViewSpec ViewSdatSpec ViewSdatAll ViewSdatProps ViewBank ViewFilesProps EditSdatSpec.

(** ** banks *)
Lemma foldM_each {A B} (f : A -> B -> res A) l : forall a r, foldM f a l = Ok r -> forall x, In x l -> exists a1 a2, f a1 x = Ok a2.
Proof.
  induction l as [|y l IH]; intros a r H x I; [destruct I|]. cbn [foldM] in H. apply PyLemmas.bind_ok in H as (a' & E & H). destruct I as [->|I]; [exists a, a'; exact E|exact (IH _ _ H x I)].
Qed.
Lemma add_each l st r : add_all st l = Ok r -> forall i, In i l -> exists td, body_save (iBody i) = Ok td.
Proof.
  intros H i I. destruct (foldM_each _ _ _ _ H i I) as (a & a' & E). apply PyLemmas.bind_ok in E as (x & E & _). unfold addInstrument in E. apply PyLemmas.bind_ok in E as (td & E & _). exists td. exact E.
Qed.
Lemma save_each b r : save_data b = Ok r -> forall e, In e (em b) -> exists td, body_save (iBody (snd e)) = Ok td.
Proof.
  unfold save_data. intros H e E. apply PyLemmas.bind_ok in H as (st0 & A & H). apply PyLemmas.bind_ok in H as ([st1 offs] & S & H). apply PyLemmas.bind_ok in H as (st2 & G & _).
  unfold em in E. rewrite !in_app_iff in E. destruct E as [E|[E|E]].
  - apply in_map_iff in E as (i & <- & I). exact (add_each _ _ _ A i I).
  - apply in_flat_map in E as (p & P & E). destruct (foldM_each _ _ _ _ S p P) as (a & a' & X). unfold save_one in X. apply PyLemmas.bind_ok in X as ([s1 o] & X1 & X). apply PyLemmas.bind_ok in X as (s2 & X2 & _).
    destruct E as [<-|E].
    + cbn [snd]. unfold addInstrument in X1. apply PyLemmas.bind_ok in X1 as (td & X1 & _). exists td. exact X1.
    + apply in_map_iff in E as (i & <- & I). exact (add_each _ _ _ X2 i I).
  - apply in_flat_map in E as (k & K & E). apply in_map_iff in E as (i & <- & I). destruct (foldM_each _ _ _ _ G k K) as (a & a' & X). exact (add_each _ _ _ X i I).
Qed.
Lemma fits_of b td : expressible b -> body_save b = Ok td -> body_fits b /\ body_good b.
Proof.
  intros E S. destruct td as [t d]. apply body_save_inv in S as (FT & _).
  - split; [exact FT|]. destruct b as [n|f0 ns|rs]; try exact I. destruct E as (r & rest & -> & E). apply Forall_forall, E.
  - destruct b; try exact I. cbn [expressible] in E. lia.
Qed.
Lemma order_in b id i : In (id, i) (save_order b) -> 0 <= id /\ nth_error (bInsts b) (Z.to_nat id) = Some (Some i).
Proof. unfold save_order. rewrite !in_app_iff, !in_group. tauto. Qed.
Lemma em_members b e : In e (em b) -> member b (snd e).
Proof.
  intros E. assert (H : forall k i, In i (inacc_at b k) -> member b i) by (intros k i I; destruct (at_in b k i I) as (l & A & EA); right; exists k, l; split; [exact A|rewrite <- EA; exact I]).
  unfold em in E. rewrite !in_app_iff in E. destruct E as [E|[E|E]]; [apply in_map_iff in E as (i & <- & I); exact (H _ _ I)| |].
  - apply in_flat_map in E as ([id i] & P & E). unfold em_of in E. cbn [fst snd] in E. destruct E as [<-|E]; [left; apply order_in in P as [_ P]; eapply nth_error_In; exact P|]. apply in_map_iff in E as (j & <- & I). exact (H _ _ I).
  - apply in_flat_map in E as (k & _ & E). apply in_map_iff in E as (j & <- & I). exact (H _ _ I).
Qed.
Lemma itype_expressible i : expressible (iBody i) -> (itype i <? 16) = true \/ (itype i =? 16) = true \/ (itype i =? 17) = true.
Proof. unfold itype. destruct (iBody i); cbn [expressible body_type]; intros E; [left|right; left|right; right]; try reflexivity. lia. Qed.
Lemma bank_saved order b f u w w' post : (forall i, member b i -> expressible (iBody i)) -> sbnk_save b = Ok (f, u, w) ->
  u = bUnk b /\ w = bWars b /\ exists b', sbnk_load order (f ++ post) u w' = Ok b' /\ map (option_map iBody) (bInsts b') = map (option_map iBody) (bInsts b) /\
    bUnk b' = u /\ bWars b' = match w' with Some l => strip_none l | None => [] end.
Proof.
  intros G SV. assert (D : exists r, save_data b = Ok r) by (unfold sbnk_save in SV; apply PyLemmas.bind_ok in SV as (r & S & _); exists r; exact S). destruct D as (r & D).
  assert (EF : em_fits b) by (intros e E; destruct (save_each b r D e E) as (td & S); exact (proj1 (fits_of _ _ (G _ (em_members b e E)) S))).
  assert (IG : insts_good (bInsts b)).
  { intros i I. apply In_nth_error in I as (k & N). assert (E : In (Some (Z.of_nat k), Some (Z.of_nat k), i) (em b)).
    { unfold em. rewrite !in_app_iff. right. left. apply in_flat_map. exists (Z.of_nat k, i). split; [|left; reflexivity]. unfold save_order. rewrite !in_app_iff, !in_group, Nat2Z.id. pose proof (itype_expressible i (G i (or_introl (nth_error_In _ _ N)))) as T. assert (0 <= Z.of_nat k) by lia. tauto. }
    destruct (save_each b r D _ E) as (td & S). exact (fits_of _ _ (G _ (or_introl (nth_error_In _ _ N))) S). }
  pose proof SV as SV'. rewrite (sbnk_save_em b EF (good_ok _ IG)) in SV'. apply finish_inv in SV' as (_ & _ & _ & EU & EW). split; [exact EU|]. split; [exact EW|].
  destruct (load_em order b f u w w' post EF IG SV) as (hd & m & un & FE & HL & _ & UN & _ & _ & LE). set (len := 60 + 4 * zlen (bInsts b) + zlen (em_data b) + (- zlen (em_data b)) mod 4) in *.
  assert (PM : 0 <= (- zlen (em_data b)) mod 4) by (apply Z.mod_pos_bound; lia).
  destruct (scan_ok (f ++ post) order len (map (relabel2 b) (bInsts b)) m) with (fuel := S (Datatypes.length un)) (un := un) (acc := @nil (option Z * list inst)) as (acc & SC).
  - rewrite zlen_app, FE, !zlen_app, HL, zlen_zeros by exact PM. pose proof (zlen_nonneg post). unfold len. lia.
  - lia.
  - intros y Y. apply UN in Y as [Y _]. pose proof (zlen_nonneg (bInsts b)). lia.
  - rewrite SC in LE. cbn [bind] in LE. eexists. split; [exact LE|]. cbn [bInsts bUnk bWars]. split; [|split; reflexivity]. rewrite map_map. apply map_ext. intros [i|]; reflexivity.
Qed.
Lemma bank_loaded order d u w b i : is_bytes d -> sbnk_load order d u w = Ok b -> member b i -> expressible (iBody i).
Proof.
  intros B L M. destruct (load_types _ _ _ _ _ B L) as (_ & _ & T & _). specialize (T i M). destruct (load_found _ _ _ _ _ B L) as (h & _ & (_ & DF & _) & IF).
  assert (E : exists t, makeInstrumentAt d t (iKey i) = Ok (Some i, body_size (iBody i))).
  { destruct M as [M|(k & l & A & I)]; [exact (proj2 (proj2 (IF i M)))|]. destruct (DF k l A) as (_ & _ & F). exact (proj1 (proj2 (proj2 (F i I)))). }
  destruct E as (t & E). destruct (make_type _ _ _ _ _ E) as (TE & _). eapply C42_instrument_only_expressible; [|exact E]. lia.
Qed.

(** ** archives *)
Record readable (s : sdat) : Prop := {
  rd_names : Forall nul_free (names s);
  rd_banks : forall n m b i, In (n, Some (m, b)) (dBanks s) -> member b i -> expressible (iBody i);
  rd_groups : forall n l g, In (n, Some l) (dGroups s) -> In g l -> 0 <= gType g < 4;
  rd_strms : forall n m x, In (n, Some (m, x)) (dStrms s) -> zlen (sUnks x) = 8
}.
Section Saved.
  Variables (s : sdat) (D : bytes) (y : SdatModel.symb) (bss : list (list (option bytes))) (FS : files) (infoOff fatOff fileOff : Z).
  Hypotheses (SV : saved s D y bss FS infoOff fatOff fileOff).
  Lemma bank_two order j n x : nth_error (dBanks s) j = Some (n, Some x) -> (forall i, member (snd x) i -> expressible (iBody i)) -> exists f b', sbnk_save (snd x) = Ok (f, bUnk (snd x), bWars (snd x)) /\
    sbnk_load order (file_view D (file_id D 2 j)) (bUnk (snd x)) (Some (four_ids (bWars (snd x)))) = Ok b' /\ map (option_map iBody) (bInsts b') = map (option_map iBody) (bInsts (snd x)) /\
    bUnk b' = bUnk (snd x) /\ bWars b' = strip_none (four_ids (bWars (snd x))).
  Proof.
    intros N G. destruct x as [m x]. cbn [snd] in *. destruct (entry_of s D y bss FS infoOff fatOff fileOff SV _ 2 _ _ _ _ ltac:(lia) (is_bank _ _ _ (sv_spec _ _ _ _ _ _ _ _ SV)) N) as (_ & b & (f & u & l & S & _) & _). cbn [snd fst] in S.
    destruct (view s D y bss FS infoOff fatOff fileOff SV 2 j f m ltac:(exists n, x, u, l; split; assumption)) as (k & V). destruct (bank_saved order x f u l (Some (four_ids l)) (zeros k) G S) as (-> & -> & b' & L & B1 & B2 & B3).
    exists f, b'. rewrite V. repeat split; assumption.
  Qed.
  Lemma entries order s' : readable s -> reloaded order D s s' -> same_entries D s s'.
  Proof.
    intros [LN LB LG LS] [B0 B1 B2 B3 B4 B5 B6 B7 _ _ _ _ _]. constructor.
    - apply (reloads_imp _ _ _ _ B0). intros j n x z N (f & info & S & E & L). destruct (seq_one s D y bss FS infoOff fatOff fileOff SV j n x N) as (d & S' & Bd & P & L'). rewrite S in S'. injection S' as -> ->. rewrite E, L' in L. injection L as L.
      split; [exact E|]. rewrite <- L. cbn [qParsed qData qInfo]. split; [reflexivity|]. split; [reflexivity|]. split; [exact P|]. rewrite S. apply (sseq_save_eq {| qParsed := false; qEvents := []; qData := d; qInfo := qInfo (snd x) |} d eq_refl Bd).
    - apply (reloads_imp _ _ _ _ B1). intros j n x z N (f & u & l & S & E & L). destruct (arch_one s D y bss FS infoOff fatOff fileOff SV j n x N) as (f' & r & S' & L' & P & DD & A & SS). rewrite S in S'. injection S' as -> -> ->. rewrite E, L' in L. injection L as <-.
      split; [exact E|]. split; [exact P|]. split; [|split; [exact A|split; [exact DD|congruence]]]. apply ssar_save_inv in SS as (? & ? & _ & _ & _ & X). symmetry. exact X.
    - apply (reloads_imp _ _ _ _ B2). intros j n [m x] z N (f & u & l & S & E & L). destruct (bank_two order j n (m, x) N (fun i => LB _ _ _ i (nth_error_In _ _ N))) as (f' & b & S' & L' & P1 & P2 & P3). cbn [snd] in *. rewrite S in S'. injection S' as -> -> ->. rewrite E, L' in L. injection L as <-.
      split; [exact E|]. repeat split; assumption.
    - apply (reloads_imp _ _ _ _ B3). intros j n x z N (f & u & S & E & L). destruct (war_one s D y bss FS infoOff fatOff fileOff SV j n x N) as (f' & S' & L'). rewrite S in S'. injection S' as -> ->. rewrite E, L' in L. injection L as L. rewrite (surjective_pairing z), E. f_equal. symmetry. exact L.
    - apply (reloads_imp _ _ _ _ B4). intros j n [[a c] h] z N ->. exists (filter (fun j => existsb (Z.eqb j) c) (range_z 0 16)). split; [reflexivity|]. intros i. rewrite filter_In, existsb_exists, in_range_z. split.
      + intros [R (k & K & E)]. apply Z.eqb_eq in E. subst k. split; [exact K|]. lia.
      + intros [I R]. split; [lia|]. exists i. split; [exact I|apply Z.eqb_refl].
    - apply (reloads_imp _ _ _ _ B5). intros j n x z N [E _]. exact E.
    - exact B6.
    - apply (reloads_imp _ _ _ _ B7). intros j n [m x] z N (f & i & S & E & L). destruct (strm_one s D y bss FS infoOff fatOff fileOff SV j n (m, x) N (LS _ _ _ (nth_error_In _ _ N))) as (f' & i' & S' & L'). cbn [snd] in *. rewrite S in S'. injection S' as -> ->. rewrite E, L' in L. injection L as L. rewrite (surjective_pairing z), E. f_equal. symmetry. exact L.
  Qed.
  Lemma read_back order : readable s -> exists s', sdat_load order D = Ok s' /\ reloaded order D s s' /\ same_entries D s s'.
  Proof.
    intros RD. destruct (all_loaded s D y bss FS infoOff fatOff fileOff SV order) as (s' & R).
    - exact (seqs_ok s D y bss FS infoOff fatOff fileOff SV).
    - exact (archs_ok s D y bss FS infoOff fatOff fileOff SV).
    - apply reloads_some. intros j n [m x] N. destruct (bank_two order j n (m, x) N (fun i => rd_banks _ RD _ _ _ i (nth_error_In _ _ N))) as (f & r & S & L & _). exists (file_id D 2 j, r), f, (bUnk x), (bWars x). split; [exact S|]. split; [reflexivity|exact L].
    - exact (wars_ok s D y bss FS infoOff fatOff fileOff SV).
    - apply reloads_some. intros j n [[a c] h] _. eexists. reflexivity.
    - apply reloads_some. intros j n x N. exists x. split; [reflexivity|]. apply Forall_forall. intros g G. exact (rd_groups _ RD _ _ _ (nth_error_In _ _ N) G).
    - apply reloads_some. intros j n x _. exists x. reflexivity.
    - exact (strms_ok s D y bss FS infoOff fatOff fileOff SV (rd_strms _ RD)).
    - exists s'. assert (NN : Forall no_nul (all_names s)) by (rewrite names_eq; exact (rd_names _ RD)). split; [apply (reload_iff s D y bss FS infoOff fatOff fileOff SV NN); exact R|]. split; [exact R|exact (entries order s' RD R)].
  Qed.
End Saved.

(** whatever is loaded is readable *)
Lemma before_nul_free l s : before_nul l = Some s -> ~ In 0 s.
Proof.
  revert s. induction l as [|x l IH]; intros s H; [discriminate|]. cbn [before_nul] in H. destruct (Z.eqb_spec x 0) as [|N]; [injection H as <-; intros []|]. destruct (before_nul l) as [r|]; [|discriminate]. injection H as <-. intros [E|I]; [exact (N E)|exact (IH _ eq_refl I)].
Qed.
Lemma before_nul_none l : before_nul l = None -> ~ In 0 l.
Proof.
  induction l as [|x l IH]; intros H; [intros []|]. cbn [before_nul] in H. destruct (Z.eqb_spec x 0) as [|N]; [discriminate|]. destruct (before_nul l) as [r|]; [discriminate|]. intros [E|I]; [exact (N E)|exact (IH eq_refl I)].
Qed.
Lemma in_removelast {A} (x : A) l : In x (removelast l) -> In x l.
Proof. induction l as [|a [|b l] IH]; [intros []|intros []|]. intros [->|I]; [left; reflexivity|right; exact (IH I)]. Qed.
Lemma text_free d o : ~ In 0 (text_at d o).
Proof. unfold text_at. destruct (before_nul _) as [s|] eqn:E; [exact (before_nul_free _ _ E)|]. intros I. apply in_removelast in I. exact (before_nul_none _ E I). Qed.
Lemma name_free d a : nul_free (name_at d a).
Proof. unfold name_at. destruct (_ =? 0); [exact I|apply text_free]. Qed.
Lemma names_free d k : Forall nul_free (part_names d k).
Proof. unfold part_names. destruct (_ =? 0); [constructor|]. apply Forall_forall. intros n I. apply in_map_iff in I as (a & <- & _). apply name_free. Qed.
Lemma subs_free d j : Forall nul_free (archive_names d j).
Proof. unfold archive_names. destruct (_ =? 0); [constructor|]. destruct (nth_error _ _); [|constructor]. apply Forall_forall. intros n I. apply in_map_iff in I as (a & <- & _). apply name_free. Qed.
Lemma nth_free j l : Forall nul_free l -> nul_free (nth j l None).
Proof. intros F. destruct (nth_in_or_default j l None) as [H|H]; [rewrite Forall_forall in F; exact (F _ H)|rewrite H; exact I]. Qed.
Lemma listed_names {A} d k R (l : list (name * option A)) : listed d k R l -> Forall nul_free (map fst l).
Proof.
  intros (_ & H). apply Forall_forall. intros n I. apply in_map_iff in I as ([n' x] & <- & I). apply In_nth_error in I as (j & N). destruct (H j n' x N) as (-> & _). apply nth_free, names_free.
Qed.
Lemma listed_in {A} d k R (l : list (name * option A)) n y : listed d k R l -> In (n, Some y) l -> exists j, R j (entry d k j) y.
Proof. intros (_ & H) I. apply In_nth_error in I as (j & N). exists j. exact (proj2 (proj2 (proj2 (H j n (Some y) N)))). Qed.
Lemma byte_pos d o : is_bytes d -> 0 <= ViewSpec.byte d o.
Proof. intros B. unfold ViewSpec.byte. destruct (nth_in_or_default (Z.to_nat o) d 0) as [H|H]; [|rewrite H; lia]. unfold is_bytes in B. rewrite Forall_forall in B. apply B in H. unfold is_byte in H. lia. Qed.
Lemma loaded_readable order d s : is_bytes d -> sdat_load order d = Ok s -> readable s.
Proof.
  intros B H. apply C109_read in H as (_ & V); [|exact B]. constructor.
  - unfold names. repeat (apply Forall_app; split); try (eapply listed_names; first [exact (vi_seqs _ _ _ V)|exact (vi_banks _ _ _ V)|exact (vi_wars _ _ _ V)|exact (vi_players _ _ _ V)|exact (vi_groups _ _ _ V)|exact (vi_splayers _ _ _ V)|exact (vi_strms _ _ _ V)]).
    apply Forall_forall. intros n I. apply in_flat_map in I as ([n' x] & I & E). apply In_nth_error in I as (j & N). destruct (proj2 (vi_archs _ _ _ V) j n' x N) as (-> & X). destruct E as [<-|E]; [apply nth_free, names_free|].
    destruct x as [[m a]|]; [|destruct E]. destruct X as (_ & _ & _ & _ & _ & L). cbn [snd] in *. apply C108_ssar in L as (_ & _ & _ & ->); [|apply is_bytes_slice; exact B]. cbn [rSeqs] in E. rewrite map_map in E. apply in_map_iff in E as (i & <- & _). cbn [fst]. apply nth_free, subs_free.
  - intros n m b i I M. destruct (listed_in _ _ _ _ _ _ (vi_banks _ _ _ V) I) as (j & _ & _ & _ & L). cbn [snd] in L. eapply bank_loaded; [|exact L|exact M]. apply is_bytes_slice; exact B.
  - intros n l g I G. destruct (listed_in _ _ _ _ _ _ (vi_groups _ _ _ V) I) as (j & P & _ & L). apply In_nth_error in G as (i & G). destruct (L i g G) as (Q & T & T4 & _). rewrite T. split; [apply byte_pos; exact B|exact T4].
  - intros n m x I. destruct (listed_in _ _ _ _ _ _ (vi_strms _ _ _ V) I) as (j & _ & _ & _ & L). cbn [snd] in L. apply C107_strm in L as (_ & _ & _ & _ & _ & _ & _ & _ & _ & U & _); [|apply is_bytes_slice; exact B]. rewrite U, zlen_map. reflexivity.
Qed.
Lemma made_readable s s1 : readable s -> made_from s s1 -> readable s1.
Proof.
  intros [R1 R2 R3 R4] [M1 M2 M3 M4]. constructor.
  - apply Forall_forall. intros n I. destruct (M1 n I) as [J|J]; [rewrite Forall_forall in R1; exact (R1 n J)|exact J].
  - intros n m b i I M. destruct (M2 n m b i I M) as [(n' & m' & b' & I' & M')|E]; [exact (R2 _ _ _ _ I' M')|exact E].
  - intros n l g I G. destruct (M3 n l g I G) as [(n' & l' & I' & G')|E]; [exact (R3 _ _ _ I' G')|exact E].
  - intros n m x I. destruct (M4 n m x I) as [(n' & m' & I')|E]; [exact (R4 _ _ _ I')|exact E].
Qed.

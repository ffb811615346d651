(** * Sound archives: save, then load *)
From Coq Require Import String.
From Verif Require Import PyBase PyLemmas PyTac AtLemmas CommonModel WaveModel WaveLemmas SeqModel SeqLemmas SsarModel SsarLemmas SsarProps SbnkModel SbnkProps RomSpec
  SdatModel SdatFiles SdatSymb SdatFat SdatSave SdatLoad SdatBack SdatSpec SdatLayout SdatReload.

(** what is needed for every object to load again *)
Record loadable (s : sdat) : Prop := {
  lo_names : Forall nul_free (names s);
  lo_banks : forall n m b, In (n, Some (m, b)) (dBanks s) -> bank_expressible b;
  lo_groups : forall n l g, In (n, Some l) (dGroups s) -> In g l -> 0 <= gType g < 4;
  lo_strms : forall n m x, In (n, Some (m, x)) (dStrms s) -> zlen (sUnks x) = 8
}.
(** the contents after loading again *)
Record same_contents (d : bytes) (s s' : sdat) : Prop := {
  sc_seqs : reloads (fun j x y => fst y = file_id d 0 j /\ qParsed (snd y) = false /\ qInfo (snd y) = qInfo (snd x) /\
                       (qParsed (snd x) = false -> qData (snd y) = qData (snd x)) /\ sseq_save (snd y) = sseq_save (snd x)) (dSeqs s) (dSeqs s');
  sc_archs : reloads (fun j x y => fst y = file_id d 1 j /\ rParsed (snd y) = false /\ map fst (rSeqs (snd y)) = map fst (rSeqs (snd x)) /\
                       map (fun p => aParams (snd p)) (rSeqs (snd y)) = map (fun p => aParams (snd p)) (rSeqs (snd x)) /\
                       (rParsed (snd x) = false -> rData (snd y) = rData (snd x)) /\ ssar_save (snd y) = ssar_save (snd x)) (dArchs s) (dArchs s');
  sc_banks : reloads (fun j x y => fst y = file_id d 2 j /\ map (option_map iBody) (bInsts (snd y)) = map (option_map iBody) (bInsts (snd x)) /\
                       bInacc (snd y) = [] /\ bUnk (snd y) = bUnk (snd x) /\ bWars (snd y) = strip_none (four_ids (bWars (snd x))) /\
                       exists f, sbnk_save (snd x) = Ok (f, bUnk (snd x), bWars (snd x)) /\ sbnk_save (snd y) = Ok (f, bUnk (snd x), strip_none (four_ids (bWars (snd x))))) (dBanks s) (dBanks s');
  sc_wars : reloads (fun j x y => y = (file_id d 3 j, snd x)) (dWars s) (dWars s');
  sc_players : reloads (fun _ x y => let '(a, c, h) := x in exists c', y = (a, c', h) /\ forall i, In i c' <-> In i c /\ 0 <= i < 16) (dPlayers s) (dPlayers s');
  sc_groups : reloads (fun _ x y => y = x) (dGroups s) (dGroups s');
  sc_splayers : reloads (fun _ x y => y = x) (dSPlayers s) (dSPlayers s');
  sc_strms : reloads (fun j x y => y = (file_id d 7 j, snd x)) (dStrms s) (dStrms s')
}.
Section Saved.
  Variables (s : sdat) (D : bytes) (y : symb) (bss : list (list (option bytes))) (FS : files) (infoOff fatOff fileOff : Z).
  Hypotheses (SV : saved s D y bss FS infoOff fatOff fileOff).
  Lemma view k j f m : saves_as s k j f m -> exists z, file_view D (file_id D k j) = f ++ zeros z.
  Proof. intros S. destruct (views_file s D y bss FS infoOff fatOff fileOff SV _ _ _ _ S) as (z & _ & V & _). exists z. exact V. Qed.
  Lemma all_loaded order : (exists l, reloads (fun j x y => exists f info, sseq_save (snd x) = Ok (f, info) /\ from_file D 0 j (fun v => sseq_load v info) y) (dSeqs s) l) ->
    (exists l, reloads (fun j x y => exists f u l, ssar_save (snd x) = Ok (f, u, l) /\ from_file D 1 j (fun v => ssar_load v u (map fst (rSeqs (snd x)))) y) (dArchs s) l) ->
    (exists l, reloads (fun j x y => exists f u l, sbnk_save (snd x) = Ok (f, u, l) /\ from_file D 2 j (fun v => sbnk_load order v u (Some (four_ids l))) y) (dBanks s) l) ->
    (exists l, reloads (fun j x y => exists f u, swar_save (snd x) = Ok (f, u) /\ from_file D 3 j (fun v => swar_load v u) y) (dWars s) l) ->
    (exists l, reloads (fun _ x y => let '(a, c, h) := x in y = (a, filter (fun j => existsb (Z.eqb j) c) (range_z 0 16), h)) (dPlayers s) l) ->
    (exists l, reloads (fun _ x y => y = x /\ Forall (fun g => 0 <= gType g < 4) x) (dGroups s) l) ->
    (exists l, reloads (fun (_ : nat) (x y : list Z) => y = x) (dSPlayers s) l) ->
    (exists l, reloads (fun j x y => exists f info, strm_save0 (snd x) = Ok (f, info) /\ from_file D 7 j (fun v => strm_load v info) y) (dStrms s) l) ->
    exists s', reloaded order D s s'.
  Proof.
    intros [l0 H0] [l1 H1] [l2 H2] [l3 H3] [l4 H4] [l5 H5] [l6 H6] [l7 H7]. destruct (al_spec s D y bss FS infoOff fatOff fileOff SV) as [AP AS].
    exists {| dSeqs := l0; dArchs := l1; dBanks := l2; dWars := l3; dPlayers := l4; dGroups := l5; dSPlayers := l6; dStrms := l7;
      fatPad := gaps (fat_of s FS fileOff); firstAlign := if file_count D =? 0 then None else let a := Z.gcd 0x200 (file_start D 0) in if a =? al s FS fileOff then None else Some a;
      fileAlign := al s FS fileOff; padEnd := negb ((files_end D =? zlen D) && negb (files_end D mod al s FS fileOff =? 0)); padSymb := (symb_size s y mod 4 =? 0) && negb (upto s y 8 mod 4 =? 0) |}.
    constructor; cbn [dSeqs dArchs dBanks dWars dPlayers dGroups dSPlayers dStrms fileAlign firstAlign fatPad padEnd padSymb]; try assumption.
    - split; [exact AP|exact AS].
    - reflexivity.
    - exact (pad_iff s D y bss FS infoOff fatOff fileOff SV).
    - apply (end_iff D). exact AP.
    - exact (symb_iff s D y bss FS infoOff fatOff fileOff SV).
  Qed.
  Lemma seq_one j n x : nth_error (dSeqs s) j = Some (n, Some x) -> exists d, sseq_save (snd x) = Ok (sseq_bytes d, qInfo (snd x)) /\ 0x1C + zlen d < 2 ^ 32 /\ (qParsed (snd x) = false -> d = qData (snd x)) /\
    sseq_load (file_view D (file_id D 0 j)) (qInfo (snd x)) = Ok {| qParsed := false; qEvents := []; qData := d; qInfo := qInfo (snd x) |}.
  Proof.
    intros N. destruct x as [m x]. cbn [snd]. destruct (entry_of s D y bss FS infoOff fatOff fileOff SV _ 0 _ _ _ _ ltac:(lia) (is_seq _ _ _ (sv_spec _ _ _ _ _ _ _ _ SV)) N) as (_ & b & (f & u & bk & v & cp & pp & pl & S & _) & _). cbn [snd fst] in S.
    pose proof S as S'. apply sseq_save_inv in S' as (d & E & B & S'). injection S' as -> S'. exists d. rewrite <- S'. split; [exact S|]. split; [exact B|]. split.
    - intros P. unfold sseq_data in E. rewrite P in E. congruence.
    - destruct (view 0 j (sseq_bytes d) m ltac:(exists n, x, (u, bk, v, cp, pp, pl); split; assumption)) as (k & ->). apply sseq_load_bytes. exact B.
  Qed.
  Lemma seqs_ok : (exists l, reloads (fun j x y => exists f info, sseq_save (snd x) = Ok (f, info) /\ from_file D 0 j (fun v => sseq_load v info) y) (dSeqs s) l).
  Proof.
    apply reloads_some. intros j n x N. destruct (seq_one j n x N) as (d & S & _ & _ & L). exists (file_id D 0 j, {| qParsed := false; qEvents := []; qData := d; qInfo := qInfo (snd x) |}), (sseq_bytes d), (qInfo (snd x)).
    split; [exact S|]. split; [reflexivity|exact L].
  Qed.
  Lemma arch_one j n x : nth_error (dArchs s) j = Some (n, Some x) -> exists f r', ssar_save (snd x) = Ok (f, rUnk (snd x), map fst (rSeqs (snd x))) /\
    ssar_load (file_view D (file_id D 1 j)) (rUnk (snd x)) (map fst (rSeqs (snd x))) = Ok r' /\ rParsed r' = false /\ (rParsed (snd x) = false -> rData r' = rData (snd x)) /\
    map (fun p => aParams (snd p)) (rSeqs r') = map (fun p => aParams (snd p)) (rSeqs (snd x)) /\ ssar_save r' = Ok (f, rUnk (snd x), map fst (rSeqs (snd x))).
  Proof.
    intros N. destruct x as [m x]. cbn [snd]. destruct (entry_of s D y bss FS infoOff fatOff fileOff SV _ 1 _ _ _ _ ltac:(lia) (is_arch _ _ _ (sv_spec _ _ _ _ _ _ _ _ SV)) N) as (_ & b & (f & u & l & S & _) & _). cbn [snd fst] in S.
    destruct (view 1 j f m ltac:(exists n, x, u, l; split; assumption)) as (k & V). destruct (ssar_saved_loads _ _ _ _ (zeros k) S) as (-> & -> & r' & L & P & DD & A & SS). exists f, r'. rewrite V. repeat split; assumption.
  Qed.
  Lemma archs_ok : (exists l, reloads (fun j x y => exists f u l, ssar_save (snd x) = Ok (f, u, l) /\ from_file D 1 j (fun v => ssar_load v u (map fst (rSeqs (snd x)))) y) (dArchs s) l).
  Proof.
    apply reloads_some. intros j n x N. destruct (arch_one j n x N) as (f & r & S & L & _). exists (file_id D 1 j, r), f, (rUnk (snd x)), (map fst (rSeqs (snd x))). split; [exact S|]. split; [reflexivity|exact L].
  Qed.
  Lemma bank_one order j n x : nth_error (dBanks s) j = Some (n, Some x) -> bank_expressible (snd x) -> exists f b', sbnk_save (snd x) = Ok (f, bUnk (snd x), bWars (snd x)) /\
    sbnk_load order (file_view D (file_id D 2 j)) (bUnk (snd x)) (Some (four_ids (bWars (snd x)))) = Ok b' /\ map (option_map iBody) (bInsts b') = map (option_map iBody) (bInsts (snd x)) /\
    bInacc b' = [] /\ bUnk b' = bUnk (snd x) /\ bWars b' = strip_none (four_ids (bWars (snd x))) /\ sbnk_save b' = Ok (f, bUnk (snd x), strip_none (four_ids (bWars (snd x)))).
  Proof.
    intros N G. destruct x as [m x]. cbn [snd] in *. destruct (entry_of s D y bss FS infoOff fatOff fileOff SV _ 2 _ _ _ _ ltac:(lia) (is_bank _ _ _ (sv_spec _ _ _ _ _ _ _ _ SV)) N) as (_ & b & (f & u & l & S & _) & _). cbn [snd fst] in S.
    destruct (view 2 j f m ltac:(exists n, x, u, l; split; assumption)) as (k & V). destruct (C42_bank_roundtrip order x f u l (Some (four_ids l)) (zeros k) G S) as (-> & -> & b' & L & B1 & B2 & B3 & B4 & _).
    pose proof (C54_resave _ _ _ _ _ _ _ _ G S L) as SS. exists f, b'. rewrite V. repeat split; assumption.
  Qed.
  Lemma banks_ok order : (forall n m b, In (n, Some (m, b)) (dBanks s) -> bank_expressible b) ->
    (exists l, reloads (fun j x y => exists f u l, sbnk_save (snd x) = Ok (f, u, l) /\ from_file D 2 j (fun v => sbnk_load order v u (Some (four_ids l))) y) (dBanks s) l).
  Proof.
    intros G. apply reloads_some. intros j n [m x] N. destruct (bank_one order j n (m, x) N (G _ _ _ (nth_error_In _ _ N))) as (f & r & S & L & _). exists (file_id D 2 j, r), f, (bUnk x), (bWars x). split; [exact S|]. split; [reflexivity|exact L].
  Qed.
  Lemma war_one j n x : nth_error (dWars s) j = Some (n, Some x) -> exists f, swar_save (snd x) = Ok (f, rUnk02 (snd x)) /\ swar_load (file_view D (file_id D 3 j)) (rUnk02 (snd x)) = Ok (snd x).
  Proof.
    intros N. destruct x as [m x]. cbn [snd]. destruct (entry_of s D y bss FS infoOff fatOff fileOff SV _ 3 _ _ _ _ ltac:(lia) (is_war _ _ _ (sv_spec _ _ _ _ _ _ _ _ SV)) N) as (_ & b & (f & u & S & _) & _). cbn [snd fst] in S.
    destruct (view 3 j f m ltac:(exists n, x, u; split; assumption)) as (k & V). destruct (swar_roundtrip x (zeros k) (swar_save_inv _ _ _ S)) as (f' & S' & L). rewrite S in S'. injection S' as <- ->. exists f. rewrite V. split; assumption.
  Qed.
  Lemma wars_ok : (exists l, reloads (fun j x y => exists f u, swar_save (snd x) = Ok (f, u) /\ from_file D 3 j (fun v => swar_load v u) y) (dWars s) l).
  Proof. apply reloads_some. intros j n x N. destruct (war_one j n x N) as (f & S & L). exists (file_id D 3 j, snd x), f, (rUnk02 (snd x)). split; [exact S|]. split; [reflexivity|exact L]. Qed.
  Lemma strm_one j n x : nth_error (dStrms s) j = Some (n, Some x) -> zlen (sUnks (snd x)) = 8 -> exists f info, strm_save0 (snd x) = Ok (f, info) /\ strm_load (file_view D (file_id D 7 j)) info = Ok (snd x).
  Proof.
    intros N U. destruct x as [m x]. cbn [snd] in *. destruct (entry_of s D y bss FS infoOff fatOff fileOff SV _ 7 _ _ _ _ ltac:(lia) (is_strm _ _ _ (sv_spec _ _ _ _ _ _ _ _ SV)) N) as (_ & b & (f & u & v & pr & pl & u7 & S & _) & _). cbn [snd fst] in S.
    destruct (view 7 j f m ltac:(exists n, x, (u, v, pr, pl, u7); split; assumption)) as (k & V). exists f, (u, v, pr, pl, u7). split; [exact S|]. rewrite V.
    apply (strm_roundtrip x false x f (u, v, pr, pl, u7) (zeros k) U). unfold strm_save. rewrite S. reflexivity.
  Qed.
  Lemma strms_ok : (forall n m x, In (n, Some (m, x)) (dStrms s) -> zlen (sUnks x) = 8) ->
    (exists l, reloads (fun j x y => exists f info, strm_save0 (snd x) = Ok (f, info) /\ from_file D 7 j (fun v => strm_load v info) y) (dStrms s) l).
  Proof. intros U. apply reloads_some. intros j n [m x] N. destruct (strm_one j n (m, x) N (U _ _ _ (nth_error_In _ _ N))) as (f & i & S & L). exists (file_id D 7 j, x), f, i. split; [exact S|]. split; [reflexivity|exact L]. Qed.

  Lemma contents order s' : loadable s -> reloaded order D s s' -> same_contents D s s'.
  Proof.
    intros [LN LB LG LS] [B0 B1 B2 B3 B4 B5 B6 B7 _ _ _ _ _]. constructor.
    - apply (reloads_imp _ _ _ _ B0). intros j n x z N (f & info & S & E & L). destruct (seq_one j n x N) as (d & S' & Bd & P & L'). rewrite S in S'. injection S' as -> ->. rewrite E, L' in L. injection L as L.
      split; [exact E|]. rewrite <- L. cbn [qParsed qData qInfo]. split; [reflexivity|]. split; [reflexivity|]. split; [exact P|]. rewrite S. apply (sseq_save_eq {| qParsed := false; qEvents := []; qData := d; qInfo := qInfo (snd x) |} d eq_refl Bd).
    - apply (reloads_imp _ _ _ _ B1). intros j n x z N (f & u & l & S & E & L). destruct (arch_one j n x N) as (f' & r & S' & L' & P & DD & A & SS). rewrite S in S'. injection S' as -> -> ->. rewrite E, L' in L. injection L as <-.
      split; [exact E|]. split; [exact P|]. split; [|split; [exact A|split; [exact DD|congruence]]]. apply ssar_save_inv in SS as (? & ? & _ & _ & _ & X). symmetry. exact X.
    - apply (reloads_imp _ _ _ _ B2). intros j n [m x] z N (f & u & l & S & E & L). destruct (bank_one order j n (m, x) N (LB _ _ _ (nth_error_In _ _ N))) as (f' & b & S' & L' & P1 & P2 & P3 & P4 & SS). cbn [snd] in *. rewrite S in S'. injection S' as -> -> ->. rewrite E, L' in L. injection L as <-.
      split; [exact E|]. repeat (split; [assumption|]). exists f'. split; assumption.
    - apply (reloads_imp _ _ _ _ B3). intros j n x z N (f & u & S & E & L). destruct (war_one j n x N) as (f' & S' & L'). rewrite S in S'. injection S' as -> ->. rewrite E, L' in L. injection L as L. rewrite (surjective_pairing z), E. f_equal. symmetry. exact L.
    - apply (reloads_imp _ _ _ _ B4). intros j n [[a c] h] z N ->. exists (filter (fun j => existsb (Z.eqb j) c) (range_z 0 16)). split; [reflexivity|]. intros i. rewrite filter_In, existsb_exists, in_range_z. split.
      + intros [R (k & K & E)]. apply Z.eqb_eq in E. subst k. split; [exact K|]. lia.
      + intros [I R]. split; [lia|]. exists i. split; [exact I|apply Z.eqb_refl].
    - apply (reloads_imp _ _ _ _ B5). intros j n x z N [E _]. exact E.
    - exact B6.
    - apply (reloads_imp _ _ _ _ B7). intros j n [m x] z N (f & i & S & E & L). destruct (strm_one j n (m, x) N (LS _ _ _ (nth_error_In _ _ N))) as (f' & i' & S' & L'). cbn [snd] in *. rewrite S in S'. injection S' as -> ->. rewrite E, L' in L. injection L as L. rewrite (surjective_pairing z), E. f_equal. symmetry. exact L.
  Qed.
  Lemma roundtrip order : loadable s -> exists s', sdat_load order D = Ok s' /\ reloaded order D s s' /\ same_contents D s s'.
  Proof.
    intros LO. destruct (all_loaded order) as (s' & R).
    - exact seqs_ok.
    - exact archs_ok.
    - apply banks_ok. exact (lo_banks _ LO).
    - exact wars_ok.
    - apply reloads_some. intros j n [[a c] h] _. eexists. reflexivity.
    - apply reloads_some. intros j n x N. exists x. split; [reflexivity|]. apply Forall_forall. intros g G. exact (lo_groups _ LO _ _ _ (nth_error_In _ _ N) G).
    - apply reloads_some. intros j n x _. exists x. reflexivity.
    - apply strms_ok. exact (lo_strms _ LO).
    - exists s'. assert (NN : Forall no_nul (all_names s)) by (rewrite names_eq; exact (lo_names _ LO)). split; [apply (reload_iff s D y bss FS infoOff fatOff fileOff SV NN); exact R|]. split; [exact R|exact (contents order s' LO R)].
  Qed.
End Saved.

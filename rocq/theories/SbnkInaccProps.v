(** * Instruments that no table entry of a sound bank points to *)
From Coq Require Import String Sorted.
From Verif Require Import PyBase PyLemmas WaveModel SeqTotal SbnkModel SbnkSpec SbnkLemmas SbnkBank SbnkInacc SbnkGuess SbnkLayout SbnkScan SbnkBack SbnkBack2 SbnkResave SbnkResave2 SbnkLoaded SbnkKept SbnkProps.

(** ** C82: what loading finds *)

(** every unlisted instrument lies in the data after the table, starts where no
    listed instrument is, is what the bytes there mean, has a type between those of
    its neighbours, and is filed under the listed instrument before it; lists are in
    file order, and no two unlisted instruments overlap *)
Theorem C82_found : forall order f u w b, is_bytes f -> sbnk_load order f u w = Ok b ->
  NoDup (map fst (bInacc b)) /\
  (forall k l, In (k, l) (bInacc b) -> l <> [] /\ StronglySorted before l) /\
  (forall i j, inaccessible b i -> inaccessible b j -> i = j \/ before i j \/ before j i) /\
  exists h, std_unpack f = Ok h /\
  forall k l i, In (k, l) (bInacc b) -> In i l ->
    0x3C + 4 * zlen (bInsts b) <= iKey i < hSize h /\ iMerge i = iKey i /\
    makeInstrumentAt f (kind (iBody i)) (iKey i) = Ok (Some i, body_size (iBody i)) /\
    (forall j, In (Some j) (bInsts b) -> ~ iKey j <= iKey i < iKey j + body_size (iBody j)) /\
    filed_under (bInsts b) (iKey i) k /\
    (forall id j, last_before (bInsts b) (iKey i) id -> entry b id j -> kind (iBody j) <= kind (iBody i)) /\
    (forall id j, first_after (bInsts b) (iKey i) id -> entry b id j -> kind (iBody i) <= kind (iBody j)).
Proof.
  intros order f u w b ISB LD. destruct (load_found order f u w b ISB LD) as (h & HH & (D1 & D2 & D3) & _). split; [exact D1|]. split; [intros k l A; destruct (D2 k l A) as (X & Y & _); split; assumption|].
  split; [intros i j (k & l & A & I) (k' & l' & A' & I'); exact (D3 _ _ _ _ _ _ A A' I I')|]. exists h. split; [exact HH|]. intros k l i A I. destruct (D2 k l A) as (_ & _ & F). destruct (F i I) as (F1 & F2 & (t & F3) & F4 & F5).
  destruct (load_between order f u w b ISB LD k l i A I) as (T & P & N). split; [exact F1|]. split; [exact F2|]. split; [|split; [exact F4|split; [exact F5|split; assumption]]].
  pose proof (make_type _ _ _ _ _ F3) as (TE & _). rewrite <- T, TE. exact F3.
Qed.
Print Assumptions C82_found.

(** the guess is always one of the possible types; when the bytes can be one of
    them, the guess is a type that they can be *)
Theorem C82_guess_possible : forall order data start possible avail t, NoDup possible -> (forall x, In x possible -> x = 1 \/ x = 16 \/ x = 17) ->
  guessInstrumentType order data start possible avail = Ok (Some t) -> In t possible.
Proof. intros order data start p avail t N T H. eapply guess_in; [split; eassumption|exact H]. Qed.
Print Assumptions C82_guess_possible.
Theorem C82_guess_suits : forall order data start possible avail, (forall t, t = 1 \/ t = 16 \/ t = 17 -> In t order) -> is_bytes data -> 0 <= start -> start + 8 <= zlen data ->
  NoDup possible -> (forall x, In x possible -> x = 1 \/ x = 16 \/ x = 17) ->
  (exists t, In t possible /\ suits t (skipn (Z.to_nat start) data) avail) ->
  exists t, guessInstrumentType order data start possible avail = Ok (Some t) /\ In t possible /\ suits t (skipn (Z.to_nat start) data) avail.
Proof.
  intros order data start p avail ORD ISB S L N T E. refine (guess_right order data start avail ORD _ S L p (conj N T) E).
  assert (G : Forall (fun e => 0 <= e) data) by (eapply Forall_impl; [|exact ISB]; intros x X; unfold is_byte in X; lia).
  rewrite <- (firstn_skipn (Z.to_nat start) data) in G. apply Forall_app in G as [_ G]. rewrite <- (firstn_skipn 8 (skipn _ data)) in G. apply Forall_app in G as [G _]. exact G.
Qed.
Print Assumptions C82_guess_suits.

(** the possible types are those between the types of the neighbours *)
Theorem C82_possible_types : forall prev next t, (forall p, prev = Some p -> 1 <= p <= 17) -> (forall p, next = Some p -> 1 <= p <= 17) ->
  (In t (possible_types prev next) <-> (t = 1 \/ t = 16 \/ t = 17) /\
    (forall p, prev = Some p -> p <= t \/ (t = 1 /\ p < 16)) /\ (forall p, next = Some p -> t <= p)).
Proof.
  intros prev next t P N. rewrite (possible_in prev next t P N). unfold kind_of_type.
  assert (A : (forall p, prev = Some p -> (if p <? 16 then 1 else if p =? 16 then 16 else 17) <= t) /\ (t = 1 \/ t = 16 \/ t = 17) <-> (forall p, prev = Some p -> p <= t \/ (t = 1 /\ p < 16)) /\ (t = 1 \/ t = 16 \/ t = 17)).
  { split; intros [H T]; (split; [|exact T]); intros p E; specialize (H p E); specialize (P p E); destruct (Z.ltb_spec p 16) as [?|?]; try destruct (Z.eqb_spec p 16) as [?|?]; lia. }
  assert (B : (forall p, next = Some p -> t <= (if p <? 16 then 1 else if p =? 16 then 16 else 17)) /\ (t = 1 \/ t = 16 \/ t = 17) <-> (forall p, next = Some p -> t <= p) /\ (t = 1 \/ t = 16 \/ t = 17)).
  { split; intros [H T]; (split; [|exact T]); intros p E; specialize (H p E); specialize (N p E); destruct (Z.ltb_spec p 16) as [?|?]; try destruct (Z.eqb_spec p 16) as [?|?]; lia. }
  split.
  - intros (T & X & Y). split; [exact T|]. split; [apply A; split; assumption|apply B; split; assumption].
  - intros (T & X & Y). split; [exact T|]. split; [apply A; split; assumption|apply B; split; assumption].
Qed.
Print Assumptions C82_possible_types.

(** ** C83: unlisted instruments survive saving and loading *)

(** a bank whose unlisted instruments can be found again *)
Record findable (b : sbnk) : Prop := {
  f_listed : forall i, In (Some i) (bInsts b) -> expressible (iBody i) /\ exists r, body_save (iBody i) = Ok r;
  (* a dict has each key once *)
  f_keys : NoDup (map fst (bInacc b));
  (* filed under an ID that has an instrument, or None *)
  f_owner : forall id l, In (Some id, l) (bInacc b) -> l <> [] -> exists i, entry b id i;
  f_known : forall k l1 i l2, In (k, l1 ++ i :: l2) (bInacc b) -> recognisable b k (body_size (iBody i) + total l2 + 2) i;
  (* each is written as data of its own *)
  f_unique : forall k l k' l' n n' i j, In (k, l) (bInacc b) -> In (k', l') (bInacc b) -> nth_error l n = Some i -> nth_error l' n' = Some j -> shares i j -> k = k' /\ n = n';
  f_apart : forall k l i id j, In (k, l) (bInacc b) -> In i l -> entry b id j -> ~ shares i j;
  (* instruments with unlisted ones after them are the first to be written with their
     data, and have the smallest ID of those that share it *)
  f_first : forall id l i, In (Some id, l) (bInacc b) -> l <> [] -> entry b id i -> writes b id i /\ forall id' j, entry b id' j -> shares j i -> id <= id' }.

Lemma known_fits b k room i : recognisable b k room i -> body_fits (iBody i) /\ body_good (iBody i) /\ 10 <= body_size (iBody i).
Proof.
  intros (t & d & SV & SH & _). apply body_save_inv in SV as (F & _).
  - split; [exact F|]. destruct (iBody i) as [n|f ns|rs]; cbn [body_good body_size]; [split; [exact I|lia]| |].
    + split; [exact I|]. destruct ns as [|n ns]; [congruence|]. rewrite zlen_cons. pose proof (zlen_nonneg ns). lia.
    + destruct SH as (r & rest & -> & SH). split; [apply Forall_forall; exact SH|]. rewrite zlen_cons. pose proof (zlen_nonneg rest). lia.
  - destruct (iBody i); [|exact I|exact I]. lia.
Qed.
Lemma shares_key i j : body_fits (iBody i) -> body_fits (iBody j) -> (shares i j <-> ikey i = ikey j).
Proof.
  intros F G. pose proof (body_save_ok _ F) as S. pose proof (body_save_ok _ G) as T. unfold shares, ikey. split.
  - intros ((t & t' & d & A & B) & M). rewrite S in A. rewrite T in B. apply ok_inj in A. apply ok_inj in B. congruence.
  - intros [= E M]. split; [|exact M]. do 3 eexists. split; [exact S|]. rewrite E. exact T.
Qed.
Lemma find_separate b : findable b -> separate b.
Proof.
  intros [L K O R U A F].
  assert (LG : insts_good (bInsts b)).
  { intros i Hi. destruct (L i Hi) as [E [[t d] S]]. apply body_save_inv in S as (FT & _).
    - split; [exact FT|]. destruct (iBody i) as [n|f ns|rs]; try exact I. destruct E as (r & rest & -> & E). apply Forall_forall, E.
    - destruct (iBody i); try exact I. cbn [expressible] in E. lia. }
  assert (EG : forall id i, entry b id i -> body_fits (iBody i)) by (intros id i [_ E]; apply (LG i); eapply nth_error_In; exact E).
  assert (H : forall k l i, In (k, l) (bInacc b) -> In i l -> body_fits (iBody i) /\ body_good (iBody i) /\ 10 <= body_size (iBody i)) by (intros k l i I1 I2; apply in_split in I2 as (l1 & l2 & ->); exact (known_fits _ _ _ _ (R k l1 i l2 I1))).
  constructor.
  - exact LG.
  - exact K.
  - intros [id|] l J N; [exact (O id l J N)|exact Logic.I].
  - exact H.
  - intros k l k' l' n n' i j I1 I2 N1 N2 E. apply (U k l k' l' n n' i j I1 I2 N1 N2). apply shares_key; [apply (H k l i I1); eapply nth_error_In; exact N1|apply (H k' l' j I2); eapply nth_error_In; exact N2|exact E].
  - intros k l i id j I1 I2 E1 E2. apply (A k l i id j I1 I2 E1). apply shares_key; [apply (H k l i I1 I2)|exact (EG _ _ E1)|exact E2].
  - intros id l i0 id' j I1 N E1 E2 E3. destruct (F id l i0 I1 N E1) as [[_ W] M]. assert (SH : shares j i0) by (apply shares_key; [exact (EG _ _ E2)|exact (EG _ _ E1)|exact E3]). split; [exact (M id' j E2 SH)|exact (W id' j E2 SH)].
Qed.

(** the listed instruments come back at their IDs and the unlisted ones under the
    same IDs in the same order, whatever follows the file and in whatever order sets
    are walked *)
Theorem C83_bank_roundtrip : forall order b f u w w' post, (forall t, t = 1 \/ t = 16 \/ t = 17 -> In t order) -> findable b -> sbnk_save b = Ok (f, u, w) ->
  u = bUnk b /\ w = bWars b /\
  exists b', sbnk_load order (f ++ post) u w' = Ok b' /\
    map (option_map iBody) (bInsts b') = map (option_map iBody) (bInsts b) /\
    bUnk b' = u /\ bWars b' = match w' with Some l => strip_none l | None => [] end /\
    NoDup (map fst (bInacc b')) /\
    (forall k l', In (k, l') (bInacc b') -> exists l, In (k, l) (bInacc b) /\ map iBody l' = map iBody l) /\
    (forall k l, In (k, l) (bInacc b) -> l <> [] -> exists l', In (k, l') (bInacc b') /\ map iBody l' = map iBody l).
Proof.
  intros order b f u w w' post ORD FB SV. pose proof (find_separate b FB) as SEP.
  pose proof SV as S0. rewrite (sbnk_save_em b (sep_fits b SEP) (sep_ok b SEP)) in S0. apply finish_inv in S0 as (_ & _ & _ & -> & ->). split; [reflexivity|]. split; [reflexivity|].
  destruct (bank_back b SEP order f _ _ w' post ORD (f_known b FB) SV) as (b' & LD & BI & NK & BU & BW & GL).
  exists b'. split; [exact LD|]. split; [rewrite BI, map_map; apply map_ext; intros [i|]; reflexivity|]. split; [exact BU|]. split; [exact BW|]. split; [exact NK|].
  assert (GA : forall k l, In (k, l) (bInacc b') -> get_list k (bInacc b') = l).
  { intros k l I. unfold get_list. rewrite (assoc_In _ k l NK I). reflexivity. }
  split.
  - intros k l' I. pose proof (GL k) as G. rewrite (GA k l' I) in G. destruct (assoc k (bInacc b)) as [l|] eqn:E.
    + exists l. split; [apply assoc_some; exact E|]. unfold inacc_at in G. rewrite E in G. rewrite G, map_map. reflexivity.
    + exfalso. unfold inacc_at in G. rewrite E in G. cbn [map] in G.
      exact (load_nonempty _ _ _ _ _ LD k l' I G).
  - intros k l I N. pose proof (GL k) as G. unfold inacc_at in G. rewrite (assoc_In _ k l (f_keys b FB) I) in G. unfold get_list in G. destruct (assoc k (bInacc b')) as [l'|] eqn:E.
    + exists l'. split; [apply assoc_some; exact E|]. rewrite G, map_map. reflexivity.
    + destruct l; [congruence|discriminate].
Qed.
Print Assumptions C83_bank_roundtrip.

Lemma em_member b e : (forall i, In (Some i) (bInsts b) -> body_fits (iBody i)) -> In e (em b) -> member b (snd e).
Proof.
  intros OK E. assert (H : forall k i, In i (inacc_at b k) -> member b i) by (intros k i I; destruct (at_in b k i I) as (l & A & EA); right; exists k, l; split; [exact A|rewrite <- EA; exact I]).
  unfold em in E. apply in_app_iff in E as [E|E]; [apply in_map_iff in E as (i & <- & I); exact (H _ _ I)|]. apply in_app_iff in E as [E|E].
  - apply in_flat_map in E as ([id i] & P & E). unfold em_of in E. cbn [fst snd] in E. destruct E as [<-|E]; [left; apply (in_order b id i OK) in P as [_ P]; eapply nth_error_In; exact P|]. apply in_map_iff in E as (j & <- & I). exact (H _ _ I).
  - apply in_flat_map in E as (k & _ & E). apply in_map_iff in E as (j & <- & I). exact (H _ _ I).
Qed.

(** whatever is unlisted, the listed instruments survive when the saved file can be
    loaded at all *)
Theorem C83_listed_survive : forall order b f u w w' post b',
  (forall i, member b i -> expressible (iBody i) /\ exists r, body_save (iBody i) = Ok r) ->
  sbnk_save b = Ok (f, u, w) -> sbnk_load order (f ++ post) u w' = Ok b' ->
  map (option_map iBody) (bInsts b') = map (option_map iBody) (bInsts b).
Proof.
  intros order b f u w w' post b' G SV LD.
  assert (FG : forall i, member b i -> body_fits (iBody i) /\ body_good (iBody i)).
  { intros i Hi. destruct (G i Hi) as [E [[t d] S]]. apply body_save_inv in S as (FT & _).
    - split; [exact FT|]. destruct (iBody i) as [n|f0 ns|rs]; try exact I. destruct E as (r & rest & -> & E). apply Forall_forall, E.
    - destruct (iBody i); try exact I. cbn [expressible] in E. lia. }
  assert (EF : em_fits b). { intros e E. apply FG. exact (em_member b e (fun i I => proj1 (FG i (or_introl I))) E). }
  destruct (load_em order b f u w w' post EF (fun i I => FG i (or_introl I)) SV) as (hd & m & un & _ & _ & _ & _ & _ & _ & LE). rewrite LD in LE. symmetry in LE. apply PyLemmas.bind_ok in LE as (inacc & _ & LE). injection LE as <-. cbn [bInsts]. rewrite map_map. apply map_ext. intros [i|]; reflexivity.
Qed.
Print Assumptions C83_listed_survive.

(** ** C84: bank files are kept *)

(** saving a bank, loading the file and saving again gives the same file *)
Theorem C84_resave : forall order b f u w w' post b', (forall t, t = 1 \/ t = 16 \/ t = 17 -> In t order) -> findable b -> is_bytes post ->
  sbnk_save b = Ok (f, u, w) -> sbnk_load order (f ++ post) u w' = Ok b' ->
  sbnk_save b' = Ok (f, u, match w' with Some l => strip_none l | None => [] end).
Proof.
  intros order b f u w w' post b' ORD FB TL SV LD. pose proof (find_separate b FB) as SEP. destruct (bank_back b SEP order f u w w' post ORD (f_known b FB) SV) as (b2 & LD2 & BI & NK & BU & BW & GL).
  rewrite LD in LD2. apply ok_inj in LD2. subst b2. rewrite <- BU, <- BW. eapply saved_again; eassumption.
Qed.
Print Assumptions C84_resave.

(** saving a loaded bank: when the instruments, listed or not, fill the data up to
    [hi] and come in the order of their kinds, the data is kept as it is *)
Theorem C84_loaded_data_kept : forall order f u w b hi, is_bytes f -> sbnk_load order f u w = Ok b -> orderly f hi b ->
  0x3C + 4 * zlen (bInsts b) <= hi <= zlen f -> hi + 3 < 2 ^ 32 ->
  sbnk_save b = Ok (bank_image (map row_of (bInsts b)) (slice f (0x3C + 4 * zlen (bInsts b)) hi), bUnk b, bWars b).
Proof.
  intros order f u w b hi ISB LD O [L H] B. eapply resaved; try eassumption.
  pose proof (Z.mod_pos_bound (- (hi - (0x3C + 4 * zlen (bInsts b)))) 4 ltac:(lia)). lia.
Qed.
Print Assumptions C84_loaded_data_kept.

(** so a file with the header and padding that save() writes is kept byte by byte *)
Theorem C84_file_kept : forall order rows d u w b, is_bytes d -> Forall (fun r => 0 <= fst r < 256 /\ 0 <= snd r < 65536 /\ (fst r = 0 -> snd r = 0)) rows -> zlen (bank_image rows d) < 2 ^ 32 ->
  sbnk_load order (bank_image rows d) u w = Ok b -> orderly (bank_image rows d) (0x3C + 4 * zlen rows + zlen d) b ->
  sbnk_save b = Ok (bank_image rows d, u, match w with Some l => strip_none l | None => [] end).
Proof. exact image_kept. Qed.
Print Assumptions C84_file_kept.

(** each instrument that is read is saved as the bytes it was read from, except for a
    range that ends before it starts and for region ends after the first 0 *)
Theorem C84_instrument_kept : forall f t o i n, is_bytes f -> 0 <= o -> 0 <= t -> makeInstrumentAt f t o = Ok (Some i, n) ->
  match iBody i with Single _ => True | Ranged _ ns => ns <> [] | Regional rs => slice f (o + zlen rs) (o + 8) = zeros (8 - zlen rs) end ->
  body_save (iBody i) = Ok (t, slice f o (o + n)).
Proof. exact inst_kept. Qed.
Print Assumptions C84_instrument_kept.

(** ** a bank with unlisted instruments of all kinds *)
Definition inst_of (b : ibody) (m : Z) : inst := {| iBody := b; iKey := m; iMerge := m |}.
Definition i_single := inst_of (Single (demo_note 3)) 1.
Definition i_range := inst_of (Ranged 40 [demo_note 4; demo_note 5]) 2.
Definition i_regions := inst_of (Regional [(60, demo_note 6); (127, demo_note 7)]) 3.
Definition h_first := inst_of (Single (demo_note 8)) 4.
Definition h_single := inst_of (Single (demo_note 9)) 5.
Definition h_range := inst_of (Ranged 50 [demo_note 10]) 6.
Definition h_regions := inst_of (Regional [(70, demo_note 11); (120, demo_note 12)]) 7.
Definition hidden_bank : sbnk :=
  {| bInsts := [Some i_single; Some i_range; None; Some i_regions];
     bInacc := [(None, [h_first]); (Some 0, [h_single; h_range]); (Some 1, [h_regions])]; bUnk := 0; bWars := [Some 1] |}.

Lemma hb_entry id i : entry hidden_bank id i -> (id = 0 /\ i = i_single) \/ (id = 1 /\ i = i_range) \/ (id = 3 /\ i = i_regions).
Proof.
  intros [P H]. unfold hidden_bank, bInsts in H. destruct (Z.to_nat id) as [|[|[|[|n]]]] eqn:E; cbn [nth_error] in H; try discriminate; try (injection H as <-); [left|right; left|right; right|destruct n; discriminate]; (split; [lia|reflexivity]).
Qed.
Lemma hb_in i : In (Some i) (bInsts hidden_bank) -> i = i_single \/ i = i_range \/ i = i_regions.
Proof. intros [[= <-]|[[= <-]|[H|[[= <-]|[]]]]]; [left|right; left|discriminate|right; right]; reflexivity. Qed.
Lemma hb_has id i : (id = 0 /\ i = i_single) \/ (id = 1 /\ i = i_range) \/ (id = 3 /\ i = i_regions) -> entry hidden_bank id i.
Proof. intros [[-> ->]|[[-> ->]|[-> ->]]]; (split; [lia|reflexivity]). Qed.
Lemma hb_shares i j : shares i j -> iMerge i = iMerge j.
Proof. intros [_ H]. exact H. Qed.
Lemma hb_writes id i : entry hidden_bank id i -> writes hidden_bank id i.
Proof.
  intros E. split; [exact E|]. intros id' j E' S W. apply hb_shares in S. apply hb_entry in E. apply hb_entry in E'.
  assert (id' = id /\ j = i) as [-> ->] by (destruct E as [[-> ->]|[[-> ->]|[-> ->]]], E' as [[-> ->]|[[-> ->]|[-> ->]]]; cbn in S; first [lia|split; reflexivity]). destruct W as [W|[_ [W|[_ W]]]]; lia.
Qed.
Lemma hb_allowed k t : allowed hidden_bank k t <-> match k with None => t = 1 | Some 0 => t = 1 \/ t = 16 | Some 1 => t = 16 \/ t = 17 | _ => allowed hidden_bank k t end.
Proof.
  assert (AF : forall k0 i0 id j, entry hidden_bank k0 i0 -> entry hidden_bank id j -> kind (iBody i0) < kind (iBody j) -> after hidden_bank (Some k0) id j) by (intros k0 i0 id j E0 E L; split; [apply hb_writes; exact E|]; exists i0; split; [exact E0|left; exact L]).
  destruct k as [[|[p|p|]|p]|]; try reflexivity; (split; [intros (T & P & N)|intros T]).
  - specialize (N 1 i_range (AF 0 i_single 1 i_range (hb_has 0 i_single ltac:(tauto)) (hb_has 1 i_range ltac:(tauto)) eq_refl)). cbn in N. lia.
  - split; [lia|]. split.
    + intros id i [= <-] E. apply hb_entry in E as [[_ ->]|[[? _]|[? _]]]; [cbn; lia|lia|lia].
    + intros id j [[E _] (i & E0 & W)]. apply hb_entry in E0 as [[_ ->]|[[? _]|[? _]]]; [|lia|lia]. apply hb_entry in E as [[-> ->]|[[-> ->]|[-> ->]]]; [|cbn; lia|cbn; lia]. exfalso. destruct W as [W|[_ [W|[_ W]]]]; cbn in W; lia.
  - specialize (P 1 i_range eq_refl (hb_has 1 i_range ltac:(tauto))). cbn in P. lia.
  - split; [lia|]. split.
    + intros id i [= <-] E. apply hb_entry in E as [[? _]|[[_ ->]|[? _]]]; [lia|cbn; lia|lia].
    + intros id j [[E _] (i & E0 & W)]. apply hb_entry in E0 as [[? _]|[[_ ->]|[? _]]]; [lia| |lia]. apply hb_entry in E as [[-> ->]|[[-> ->]|[-> ->]]]; [| |cbn; lia]; exfalso; (destruct W as [W|[_ [W|[_ W]]]]; cbn in W; lia).
  - specialize (N 0 i_single (conj (hb_writes 0 i_single (hb_has 0 i_single ltac:(tauto))) Logic.I)). cbn in N. lia.
  - subst t. split; [lia|]. split; [discriminate|]. intros id j [[E _] _]. apply hb_entry in E as [[-> ->]|[[-> ->]|[-> ->]]]; cbn; lia.
Qed.
Lemma hb_known : forall k l1 i l2, In (k, l1 ++ i :: l2) (bInacc hidden_bank) -> recognisable hidden_bank k (body_size (iBody i) + total l2 + 2) i.
Proof.
  intros k l1 i l2 [H|[H|[H|[]]]]; injection H as <- H.
  - destruct l1 as [|? [|]]; try discriminate. injection H as <- <-. do 2 eexists. split; [vm_compute; reflexivity|]. split; [reflexivity|]. rewrite hb_allowed. split; [reflexivity|]. left. intros t'. rewrite hb_allowed. intros ->. reflexivity.
  - destruct l1 as [|? [|? [|]]]; try discriminate.
    + injection H as <- <-. do 2 eexists. split; [vm_compute; reflexivity|]. split; [reflexivity|]. rewrite hb_allowed. split; [left; reflexivity|]. right. split; [left; reflexivity|]. intros t'. rewrite hb_allowed. intros [->| ->]; [reflexivity|]. intros [L _]. vm_compute in L. congruence.
    + injection H as _ <- <-. do 2 eexists. split; [vm_compute; reflexivity|]. split; [discriminate|]. rewrite hb_allowed. split; [right; reflexivity|]. right. split; [vm_compute; discriminate|]. intros t'. rewrite hb_allowed. intros [->| ->]; [|reflexivity]. intros [[L|[L _]] _]; vm_compute in L; discriminate.
  - destruct l1 as [|? [|]]; try discriminate. injection H as <- <-. do 2 eexists. split; [vm_compute; reflexivity|].
    split; [exists (70, demo_note 11), [(120, demo_note 12)]; split; [reflexivity|]; intros x [<-|[]]; discriminate|]. rewrite hb_allowed. split; [right; reflexivity|]. right.
    split; [exists [70; 120], 6%nat; split; [reflexivity|]; split; [repeat constructor; lia|repeat constructor; lia]|]. intros t'. rewrite hb_allowed. intros [->| ->]; [|reflexivity]. intros (_ & L & _). specialize (L eq_refl). vm_compute in L. congruence.
Qed.
Lemma hb_findable : findable hidden_bank.
Proof.
  constructor.
  - intros i H. apply hb_in in H as [->|[->| ->]]; (split; [cbn; try exact Logic.I; try lia|eexists; vm_compute; reflexivity]). do 2 eexists. split; [reflexivity|]. intros x [<-|[]]; discriminate.
  - repeat constructor; cbn; intuition discriminate.
  - intros id l [H|[H|[H|[]]]] _; [discriminate|injection H as <- _; exists i_single; apply hb_has; tauto|injection H as <- _; exists i_range; apply hb_has; tauto].
  - exact hb_known.
  - intros k l k' l' n n' i j A A' N N' S. apply hb_shares in S. destruct A as [A|[A|[A|[]]]], A' as [A'|[A'|[A'|[]]]]; injection A as <- <-; injection A' as <- <-;
      destruct n as [|[|[|n]]], n' as [|[|[|n']]]; cbn [nth_error] in N, N'; try discriminate; injection N as <-; injection N' as <-; cbn in S; first [split; reflexivity|lia].
  - intros k l i id j A I E S. apply hb_shares in S. apply hb_entry in E. destruct A as [A|[A|[A|[]]]]; injection A as <- <-; cbn [In] in I; destruct E as [[-> ->]|[[-> ->]|[-> ->]]];
      repeat (destruct I as [I|I]; [subst i; cbn in S; lia|]); destruct I.
  - intros id l i A N E. split; [apply hb_writes; exact E|]. intros id' j E' S. apply hb_shares in S. apply hb_entry in E. apply hb_entry in E'.
    destruct E as [[-> ->]|[[-> ->]|[-> ->]]], E' as [[-> ->]|[[-> ->]|[-> ->]]]; cbn in S; lia.
Qed.
(** its file, and what C82 and C83 say of it *)
Definition hidden_file : bytes := match sbnk_save hidden_bank with Ok (f, _, _) => f | Err _ => [] end.
Example C83_ex : findable hidden_bank /\ sbnk_save hidden_bank = Ok (hidden_file, 0, [Some 1]) /\ zlen hidden_file = 212 /\
  match sbnk_load [17; 16; 1] (hidden_file ++ [1; 2; 3]) 0 (Some [Some 1]) with
  | Ok b => map (fun p => (fst p, map (fun i => (iKey i, iBody i)) (snd p))) (bInacc b) =
      [(None, [(0x4C, iBody h_first)]); (Some 0, [(0x60, iBody h_single); (0x6A, iBody h_range)]); (Some 1, [(0x92, iBody h_regions)])] /\
      map (option_map iKey) (bInsts b) = [Some 0x56; Some 0x78; None; Some 0xB2] /\
      sbnk_save b = Ok (hidden_file, 0, [Some 1])
  | Err _ => False end.
Proof. split; [exact hb_findable|]. split; [vm_compute; reflexivity|]. split; [vm_compute; reflexivity|]. vm_compute. repeat split. Qed.

Definition moved_to (i : inst) (o : Z) : inst := inst_of (iBody i) o.
Definition hidden_loaded : sbnk :=
  {| bInsts := [Some (moved_to i_single 0x56); Some (moved_to i_range 0x78); None; Some (moved_to i_regions 0xB2)];
     bInacc := [(None, [moved_to h_first 0x4C]); (Some 0, [moved_to h_single 0x60; moved_to h_range 0x6A]); (Some 1, [moved_to h_regions 0x92])];
     bUnk := 0; bWars := [Some 1] |}.
Example C82_ex : is_bytes hidden_file /\ sbnk_load [1; 16; 17] hidden_file 0 (Some [Some 1]) = Ok hidden_loaded /\
  filed_under (bInsts hidden_loaded) 0x6A (Some 0) /\ filed_under (bInsts hidden_loaded) 0x4C None /\ first_after (bInsts hidden_loaded) 0x6A 1 /\
  suits 16 (skipn 0x6A hidden_file) 14 /\ guessInstrumentType [1; 16; 17] hidden_file 0x6A [1; 16] 14 = Ok (Some 16) /\
  suits 17 (skipn 0x92 hidden_file) 32 /\ guessInstrumentType [16; 1; 17] hidden_file 0x92 [16; 17] 32 = Ok (Some 17) /\
  possible_types (Some 3) (Some 16) = [1; 16] /\ possible_types (Some 16) None = [16; 17].
Proof.
  assert (E : forall id j, 0 <= id -> nth_error (bInsts hidden_loaded) (Z.to_nat id) = Some (Some j) -> (id = 0 /\ iKey j = 0x56) \/ (id = 1 /\ iKey j = 0x78) \/ (id = 3 /\ iKey j = 0xB2)).
  { intros id j P H. unfold hidden_loaded, bInsts in H. destruct (Z.to_nat id) as [|[|[|[|n]]]] eqn:E; cbn [nth_error] in H; try discriminate; try (injection H as <-); [left|right; left|right; right|destruct n; discriminate]; (split; [lia|reflexivity]). }
  split; [apply forallb_byteb; vm_compute; reflexivity|]. split; [vm_compute; reflexivity|]. split; [|split; [|split; [|split; [|split; [vm_compute; reflexivity|split; [|split; [vm_compute; reflexivity|split; reflexivity]]]]]]].
  - split; [lia|]. exists (moved_to i_single 0x56). split; [reflexivity|]. split; [reflexivity|]. intros id' j' P N L. destruct (E id' j' P N) as [[-> K]|[[-> K]|[-> K]]]; rewrite K in *; cbn; lia.
  - intros j J. apply In_nth_error in J as [n N]. rewrite <- (Nat2Z.id n) in N. destruct (E _ j (Nat2Z.is_nonneg n) N) as [[_ ->]|[[_ ->]|[_ ->]]]; lia.
  - split; [lia|]. exists (moved_to i_range 0x78). split; [reflexivity|]. split; [reflexivity|]. intros id' j' P N L. destruct (E id' j' P N) as [[-> K]|[[-> K]|[-> K]]]; rewrite K in *; cbn; lia.
  - split; [vm_compute; discriminate|]. split; [intros _; vm_compute; discriminate|discriminate].
  - split; [exists [70; 120], 6%nat; split; [vm_compute; reflexivity|split; repeat constructor; lia]|]. split; [discriminate|]. intros _. split; [lia|]. intros n (a & k & EA & P & <-).
    assert (F : firstn 8 (skipn 146 hidden_file) = [70; 120; 0; 0; 0; 0; 0; 0]) by (vm_compute; reflexivity). rewrite F in EA.
    destruct a as [|x1 [|x2 [|x3 a]]]; [vm_compute; discriminate|vm_compute; discriminate|vm_compute; discriminate|]. injection EA as <- <- <- _. apply Forall_inv_tail, Forall_inv_tail, Forall_inv in P. lia.
Qed.

(** the claim that unlisted instruments never overlap listed ones fails: when only
    single notes are possible, the size of the gap is not looked at *)
Theorem C82_no_overlap_refuted : exists f b i j, is_bytes f /\ sbnk_load [1; 16; 17] f 0 None = Ok b /\ inaccessible b i /\ In (Some j) (bInsts b) /\
  iKey i < iKey j < iKey i + body_size (iBody i).
Proof.
  exists (bank_image [(1, 0x44); (1, 0x52)] (firstn 10 (skipn 0x4C hidden_file) ++ [0; 0; 0; 0] ++ firstn 10 (skipn 0x4C hidden_file))). eexists. eexists. exists (moved_to h_first 0x52).
  split; [apply forallb_byteb; vm_compute; reflexivity|]. split; [vm_compute; reflexivity|]. cbn [bInsts bInacc].
  split; [do 2 eexists; split; [left; reflexivity|left; reflexivity]|]. split; [right; left; reflexivity|]. vm_compute. split; reflexivity.
Qed.
Print Assumptions C82_no_overlap_refuted.

(** unlisted instruments filed under an ID without an instrument are lost *)
Theorem C83_all_banks_refuted : exists b f u w b', (forall i, member b i -> expressible (iBody i) /\ exists r, body_save (iBody i) = Ok r) /\
  bInacc b = [(Some 1, [h_single])] /\ sbnk_save b = Ok (f, u, w) /\ sbnk_load [1; 16; 17] f u (Some w) = Ok b' /\ bInacc b' = [].
Proof.
  exists {| bInsts := [Some i_single; None]; bInacc := [(Some 1, [h_single])]; bUnk := 0; bWars := [] |}. do 4 eexists. split; [|split; [reflexivity|split; [vm_compute; reflexivity|split; [vm_compute; reflexivity|reflexivity]]]].
  intros i [[[= <-]|[H|[]]]|(k & l & [[= <- <-]|[]] & [<-|[]])]; [|discriminate|]; (split; [cbn; lia|eexists; vm_compute; reflexivity]).
Qed.
Print Assumptions C83_all_banks_refuted.
(** an ID beyond the table is as good as the last one *)
Example C83_high_id_ex : exists f, sbnk_save {| bInsts := [Some i_single; None]; bInacc := [(Some 2, [h_single])]; bUnk := 0; bWars := [] |} = Ok (f, 0, []) /\
  match sbnk_load [1; 16; 17] f 0 None with Ok b => map (fun p => (fst p, map iBody (snd p))) (bInacc b) = [(Some 0, [iBody h_single])] | Err _ => False end.
Proof. eexists. split; [vm_compute; reflexivity|]. vm_compute. reflexivity. Qed.

Definition h_rows : list (Z * Z) := [(1, 0x56); (16, 0x78); (0, 0); (17, 0xB2)].
Definition h_data : bytes := slice hidden_file 0x4C 0xD2.
Example C84_ex : hidden_file = bank_image h_rows h_data /\ is_bytes h_data /\
  Forall (fun r => 0 <= fst r < 256 /\ 0 <= snd r < 65536 /\ (fst r = 0 -> snd r = 0)) h_rows /\ zlen (bank_image h_rows h_data) < 2 ^ 32 /\
  sbnk_load [1; 16; 17] (bank_image h_rows h_data) 0 (Some [Some 1]) = Ok hidden_loaded /\
  orderly (bank_image h_rows h_data) (0x3C + 4 * zlen h_rows + zlen h_data) hidden_loaded /\
  map row_of (bInsts hidden_loaded) = h_rows /\
  sbnk_save hidden_loaded = Ok (hidden_file, 0, [Some 1]).
Proof.
  assert (E : bank_image h_rows h_data = hidden_file) by (vm_compute; reflexivity). rewrite E.
  split; [reflexivity|]. split; [apply forallb_byteb; vm_compute; reflexivity|]. split; [repeat constructor; cbn; lia|]. split; [vm_compute; reflexivity|]. split; [vm_compute; reflexivity|]. split; [|split; vm_compute; reflexivity].
  assert (M : forall i, member hidden_loaded i -> In i [moved_to h_first 0x4C; moved_to i_single 0x56; moved_to h_single 0x60; moved_to h_range 0x6A; moved_to i_range 0x78; moved_to h_regions 0x92; moved_to i_regions 0xB2]).
  { intros i [[H|[H|[H|[H|[]]]]]|(k & l & HL & H)]; [| | | |destruct HL as [[= <- <-]|[[= <- <-]|[[= <- <-]|[]]]]]; try discriminate H; try (injection H as <-; cbn; tauto); cbn [In] in *; tauto. }
  assert (Z1 : 0x3C + 4 * zlen (bInsts hidden_loaded) = 0x4C) by reflexivity. assert (Z2 : 0x3C + 4 * zlen h_rows + zlen h_data = 0xD2) by (vm_compute; reflexivity). rewrite Z2. unfold orderly. cbv zeta. rewrite Z1.
  split; [|split; [|split]].
  - intros i I. apply M in I. cbn [In] in I. repeat (destruct I as [<-|I]; [do 2 eexists; split; [vm_compute; reflexivity|split; [vm_compute; reflexivity|split; vm_compute; discriminate]]|]). destruct I.
  - assert (KS : forall i, member hidden_loaded i -> In (iKey i, body_size (iBody i)) [(0x4C, 10); (0x56, 10); (0x60, 10); (0x6A, 14); (0x78, 26); (0x92, 32); (0xB2, 32)]).
    { intros i I. apply M in I. apply (in_map (fun i => (iKey i, body_size (iBody i)))) in I. exact I. }
    intros i j I J. apply KS in I. apply KS in J. unfold before. generalize dependent (body_size (iBody i)). generalize dependent (body_size (iBody j)). generalize (iKey i), (iKey j). clear. intros a b c J d I. cbn [In] in I, J.
    destruct I as [[= <- <-]|[[= <- <-]|[[= <- <-]|[[= <- <-]|[[= <- <-]|[[= <- <-]|[[= <- <-]|[]]]]]]]]; destruct J as [[= <- <-]|[[= <- <-]|[[= <- <-]|[[= <- <-]|[[= <- <-]|[[= <- <-]|[[= <- <-]|[]]]]]]]]; lia.
  - intros x X. assert (C : x < 0x56 \/ 0x56 <= x < 0x60 \/ 0x60 <= x < 0x6A \/ 0x6A <= x < 0x78 \/ 0x78 <= x < 0x92 \/ 0x92 <= x < 0xB2 \/ 0xB2 <= x) by lia.
    assert (H : forall k l i, In (k, l) (bInacc hidden_loaded) -> In i l -> member hidden_loaded i) by (intros k l i A I; right; exists k, l; split; assumption).
    destruct C as [C|[C|[C|[C|[C|[C|C]]]]]].
    + exists (moved_to h_first 0x4C). split; [eapply H; [left; reflexivity|left; reflexivity]|cbn [moved_to inst_of iKey iBody]; change (body_size (iBody h_first)) with 10; lia].
    + exists (moved_to i_single 0x56). split; [left; left; reflexivity|cbn [moved_to inst_of iKey iBody]; change (body_size (iBody i_single)) with 10; lia].
    + exists (moved_to h_single 0x60). split; [eapply H; [right; left; reflexivity|left; reflexivity]|cbn [moved_to inst_of iKey iBody]; change (body_size (iBody h_single)) with 10; lia].
    + exists (moved_to h_range 0x6A). split; [eapply H; [right; left; reflexivity|right; left; reflexivity]|cbn [moved_to inst_of iKey iBody]; change (body_size (iBody h_range)) with 14; lia].
    + exists (moved_to i_range 0x78). split; [left; right; left; reflexivity|cbn [moved_to inst_of iKey iBody]; change (body_size (iBody i_range)) with 26; lia].
    + exists (moved_to h_regions 0x92). split; [eapply H; [right; right; left; reflexivity|left; reflexivity]|cbn [moved_to inst_of iKey iBody]; change (body_size (iBody h_regions)) with 32; lia].
    + exists (moved_to i_regions 0xB2). split; [left; right; right; right; left; reflexivity|cbn [moved_to inst_of iKey iBody]; change (body_size (iBody i_regions)) with 32; lia].
  - intros i j [H|[H|[H|[H|[]]]]] [G|[G|[G|[G|[]]]]]; try discriminate H; try discriminate G; injection H as <-; injection G as <-; cbn; lia.
Qed.

(** not every bank file is kept: bytes between instruments that are none themselves
    grow into instruments *)
Theorem C84_all_files_refuted : exists rows d b f', is_bytes d /\ Forall (fun r => 0 <= fst r < 256 /\ 0 <= snd r < 65536) rows /\
  sbnk_load [1; 16; 17] (bank_image rows d) 0 None = Ok b /\ sbnk_save b = Ok (f', 0, []) /\ zlen (bank_image rows d) < zlen f'.
Proof.
  exists [(1, 0x44); (1, 0x52)], (firstn 10 (skipn 0x4C hidden_file) ++ [0; 0; 0; 0] ++ firstn 10 (skipn 0x4C hidden_file)). do 2 eexists.
  split; [apply forallb_byteb; vm_compute; reflexivity|]. split; [repeat constructor; cbn; lia|]. split; [vm_compute; reflexivity|]. split; [vm_compute; reflexivity|]. vm_compute. reflexivity.
Qed.
Print Assumptions C84_all_files_refuted.

(** and an instrument of several regions with something after its first 0 end *)
Example C84_regions_ex : exists f i, makeInstrumentAt f 17 0 = Ok (Some i, 20) /\ zlen f = 20 /\ (forall t, body_save (iBody i) <> Ok (t, f)) /\
  exists g j, makeInstrumentAt g 17 0 = Ok (Some j, 32) /\ body_save (iBody j) = Ok (17, g) /\ is_bytes g.
Proof.
  exists ([60; 0; 9; 0; 0; 0; 0; 0] ++ skipn 8 (slice hidden_file 0x92 0xA6)). eexists. split; [vm_compute; reflexivity|]. split; [vm_compute; reflexivity|]. split; [intros t; vm_compute; discriminate|].
  exists (slice hidden_file 0x92 0xB2). eexists. split; [vm_compute; reflexivity|]. split; [vm_compute; reflexivity|]. apply forallb_byteb. vm_compute. reflexivity.
Qed.

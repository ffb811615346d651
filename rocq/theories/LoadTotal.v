(** Proofs: loading arbitrary bytes ends, and the exceptions it can raise *)
From Coq Require Import String Permutation.
From Verif Require Import PyBase PyLemmas PyTac Gfx2DLemmas CommonModel FntModel FntSaveLemmas NarcModel BnModel WaveModel SeqModel SeqTotal
  ColorModel SbnkModel SsarModel SsarLemmas SbnkBank SdatModel TexModel NsbmdModel NsbmdLemmas LzModel CodeLzLemmas CodeModel CodeLemmas RomModel.

(** one of these *)
Definition one (l : list exc) (e : exc) : Prop := In e l.
Lemma raises_get {A} (P : exc -> Prop) (l : list A) i : P IndexError -> raises P (get l i).
Proof. intros H. destruct (get l i) eqn:E; cbn [raises]; [exact I|]. apply Gfx2DLemmas.get_err in E. subst. exact H. Qed.
Lemma raises_foldM {A S} P (f : S -> A -> res S) l : (forall s x, raises P (f s x)) -> forall s, raises P (foldM f s l).
Proof. intros H. induction l as [|x l IH]; intros s; cbn [foldM]; [exact I|]. apply raises_bind; [apply H|intros s' _; apply IH]. Qed.
Lemma raises_weak {A} (P Q : exc -> Prop) (r : res A) : (forall e, P e -> Q e) -> raises P r -> raises Q r.
Proof. intros H. destruct r; cbn [raises]; auto. Qed.
Lemma raises_one {A} l l' (r : res A) : incl l l' -> raises (one l) r -> raises (one l') r.
Proof. intros H. apply raises_weak. exact H. Qed.
Lemma raises_pack_u (P : exc -> Prop) n v : P StructError -> raises P (pack_u n v).
Proof. intros H. unfold pack_u, pack_e. destruct (_ && _); [exact I|exact H]. Qed.
Ltac mem := cbn; tauto.
Ltac sub := intros ? ?; cbn in *; tauto.
Ltac rz := repeat match goal with
  | |- raises _ (Ok _) => exact I
  | |- raises _ (Err _) => mem
  | |- raises _ (guard _ _) => apply raises_guard; mem
  | |- raises _ (unpack_u _ _ _) => apply raises_unpack_u; mem
  | |- raises _ (unpack_s _ _ _) => apply raises_unpack_s; mem
  | |- raises _ (pack_u _ _) => apply raises_pack_u; mem
  | |- raises _ (rd _ _ _) => apply raises_rd; mem
  | |- raises _ (get _ _) => apply raises_get; mem
  | |- raises _ (mapM _ _) => apply raises_mapM; intros ? ?
  | |- raises _ (foldM _ _ _) => apply raises_foldM; intros ? ?
  | |- raises _ (let '(_, _) := ?x in _) => destruct x
  | |- raises _ (bind _ _) => apply raises_bind; [|intros ? ?]
  | |- raises _ (match ?x with nil => _ | cons _ _ => _ end) => let Q := fresh "Q" in destruct x eqn:Q
  | |- raises _ (if ?b then _ else _) => destruct b
  | |- raises _ (match ?x with None => _ | Some _ => _ end) => destruct x
  | |- raises _ (let x := _ in _) => cbv zeta
  end.

(** ** FNT and NARC *)
Lemma loadEntries_raises (P : exc -> Prop) rec data n : P StructError -> (forall id, raises P (rec id)) -> forall off fo fi,
  loadEntries rec data n off fo fi <> Err OutOfFuel -> raises P (loadEntries rec data n off fo fi).
Proof.
  intros HS HR. induction n as [|n IH]; intros off fo fi N; cbn [loadEntries] in *; [exfalso; apply N; reflexivity|].
  destruct (unpack_u 1 data off) as [c|e] eqn:E; cbn [bind] in *; [|apply unpack_u_err in E; subst; exact HS].
  destruct (c =? 0); [exact I|]. cbv zeta in *. destruct (negb _); [|apply IH, N].
  destruct (unpack_u 2 data _) as [s|e] eqn:E2; cbn [bind] in *; [|apply unpack_u_err in E2; subst; exact HS].
  specialize (HR s). destruct (rec s) as [f|e]; cbn [bind raises] in *; [apply IH, N|exact HR].
Qed.
Lemma fnt_raises depth data : is_bytes data -> raises (one [StructError; RecursionError]) (FntModel.load depth data).
Proof.
  intros B. unfold FntModel.load. generalize 0xF000 as id. induction depth as [|d IH]; intros id; [mem|].
  pose proof (loadFolder_fuel (S d) data B id) as F. cbn [loadFolder] in *.
  destruct (unpack_u 4 data _) as [o|e] eqn:E; cbn [bind] in *; [|apply unpack_u_err in E; subst; mem].
  destruct (unpack_u 2 data _) as [i|e] eqn:E2; cbn [bind] in *; [|apply unpack_u_err in E2; subst; mem].
  apply raises_bind; [|intros [? ?] _; exact I]. apply loadEntries_raises; [mem|exact IH|]. intros X. rewrite X in F. apply F. reflexivity.
Qed.
Lemma narc_raises depth data : is_bytes data -> raises (one [ValueError; AssertionError; StructError; RecursionError]) (narc_load depth data).
Proof.
  intros B. unfold narc_load, narc_loadFile. rz. eapply raises_one; [|apply fnt_raises, is_bytes_slice, B]. sub.
Qed.

(** ** BNBL, BNCL, SWAV, SWAR, STRM *)
Lemma bnbl_raises data : raises (one [ValueError; StructError]) (bnbl_load data).
Proof. unfold bnbl_load, touchArea_fromData. rz. Qed.
Lemma bncl_raises data : raises (one [ValueError; StructError]) (bncl_load data).
Proof. unfold bncl_load, imagePosition_fromData. rz. Qed.
Lemma swav_raises f : raises (one [ValueError; AssertionError; StructError]) (swav_load f).
Proof. unfold swav_load, std_unpack, swav_info, wt_of. rz. Qed.
Lemma swar_raises f u : raises (one [ValueError; AssertionError; StructError]) (swar_load f u).
Proof. unfold swar_load, std_unpack, swar_loadWave, swav_info, wt_of. rz. Qed.
Lemma strm_raises f i : raises (one [ValueError; AssertionError; StructError]) (strm_load f i).
Proof. unfold strm_load, std_unpack, wt_of. rz. Qed.

(** ** SDAT *)
Definition sdat_errs := [ValueError; AssertionError; StructError; IndexError].
Lemma read_symbols_raises data block : forall n off last, raises (one sdat_errs) (read_symbols_loop data block off last n).
Proof.
  induction n as [|n IH]; intros off last; cbn [read_symbols_loop]; [exact I|]. unfold read_symbol at 1. rz. apply IH.
Qed.
Lemma read_nested_raises data block : forall n off last, raises (one sdat_errs) (read_nested_loop data block off last n).
Proof.
  induction n as [|n IH]; intros off last; cbn [read_nested_loop]; [exact I|]. unfold read_symbol at 1, read_symbols. rz; try apply IH; apply read_symbols_raises.
Qed.
Lemma sseq_raises f i : raises (one [ValueError; StructError]) (sseq_load f i).
Proof. unfold sseq_load. rz. Qed.
Lemma ssar_raises f u n : raises (one [ValueError; AssertionError; StructError]) (ssar_load f u n).
Proof. unfold ssar_load, std_unpack, ssar_loadSeq. rz. Qed.
Lemma sdat_raises order data : raises (one sdat_errs) (sdat_load order data).
Proof.
  unfold sdat_load, std_unpack, info_offsets, read_symbols, read_nested, load_part, load_archs, load_seq, load_arch, load_bank, load_war, load_player, load_group,
    load_splayer, load_strm, SdatModel.fat_step, group_new, sdat_errs.
  rz; first [apply read_symbols_raises | apply read_nested_raises
    | eapply raises_one; [|apply sseq_raises]; sub | eapply raises_one; [|apply ssar_raises]; sub
    | eapply raises_one; [|apply swar_raises]; sub | eapply raises_one; [|apply strm_raises]; sub
    | eapply raises_weak; [|apply sbnk_load_raises]; intros e [->|[->|[->| ->]]]; mem ].
Qed.

(** ** NSBTX and NSBMD *)
Lemma pt_offset_in pts p : In p pts -> exists o, TexModel.pt_offset pts (fst p) = Ok o /\ In o (map snd pts).
Proof.
  intros H. unfold TexModel.pt_offset. destruct (find _ (rev pts)) as [q|] eqn:E.
  - apply find_some in E as [E _]. eexists. split; [reflexivity|]. apply in_map. apply in_rev, E.
  - exfalso. apply in_rev in H. apply (find_none _ _ E) in H. cbv beta in H.
    assert (Q : TexModel.pt_eqb (fst p) (fst p) = true) by (apply TexBlock.pt_eqb_eq; reflexivity). congruence.
Qed.
Lemma list_index_in x : forall l i, In x l -> exists j, TexModel.list_index x l i = Ok j.
Proof.
  induction l as [|y l IH]; intros i H; [destruct H|]. cbn [TexModel.list_index]. destruct (Z.eqb_spec y x); [eexists; reflexivity|].
  destruct H as [H|H]; [contradiction|apply IH, H].
Qed.
Lemma palette_raises d : raises (one []) (loadPalette d).
Proof.
  unfold loadPalette. apply raises_bind; [|intros ? _; exact I]. apply raises_mapM. intros i Hi. apply in_range_z in Hi.
  destruct (unpack_u 2 d (2 * i)) as [v|e] eqn:E; [exact I|]. exfalso. pose proof (zlen_nonneg d).
  pose proof (Z.mul_div_le (zlen d) 2 ltac:(lia)). assert (0 <= zlen d / 2) by (apply Z.div_pos; lia).
  unfold unpack_u, unpack_e in E. rewrite rd_slice in E by lia. discriminate E.
Qed.
Definition tex_errs := [AssertionError; StructError; IndexError].
Lemma infoblock_raises data off x : raises (one [AssertionError; StructError]) (loadInfoBlock data off x).
Proof. unfold loadInfoBlock, loadInfoEntry. rz. Qed.
Lemma readTEX0_raises data : raises (one tex_errs) (readTEX0 data).
Proof.
  unfold readTEX0, tex_errs. rz;
    try (eapply raises_one; [|apply infoblock_raises]; sub).
  - unfold read_texture. rz.
  - unfold read_pt. rz.
  - match goal with H : In ?q _ |- context [read_palette _ _ _ ?q] => rename H into Hp end. unfold read_palette.
    destruct (pt_offset_in _ _ Hp) as (o & -> & Ho). cbn [bind].
    match goal with |- context [list_index o ?l 0] => destruct (list_index_in o l 0) as [j ->] end.
    { eapply Permutation_in; [apply Permutation_sym, SbnkBank.sort_perm|]. apply in_or_app. left. exact Ho. }
    cbn [bind]. rz. unfold pal_new. rz. eapply raises_one; [|apply palette_raises]. sub.
Qed.
Lemma nsbtx_raises f : raises (one [ValueError; AssertionError; StructError; IndexError]) (nsbtx_load f).
Proof. unfold nsbtx_load, std_unpack. rz. eapply raises_one; [|apply readTEX0_raises]. sub. Qed.
Lemma table_reads data off : raises (one [AssertionError; StructError]) (read_table data off).
Proof. unfold read_table, skip_pairs, words. rz. Qed.
Lemma read_model_raises data off : raises (one [AssertionError; StructError]) (read_model data off).
Proof.
  unfold read_model, read_polygon. rz; try apply table_reads.
  match goal with |- context [parseDisplayList ?d] => destruct (parse_ok d) as [c ->] end. exact I.
Qed.
Lemma nsbmd_raises f : raises (one [ValueError; AssertionError; StructError; IndexError]) (nsbmd_load f).
Proof.
  unfold nsbmd_load, std_unpack, words, NsbmdModel.read_block, parse_mdl0, skip_pairs, words. rz.
  - eapply raises_one; [|apply read_model_raises]. sub.
  - eapply raises_one; [|apply readTEX0_raises]. sub.
Qed.

(** ** overlays and ROMs *)
Lemma overlays_raises tab cb ids (P : exc -> Prop) : (forall o f, raises P (cb o f)) -> (forall o f d, cb o f = Ok d -> is_bytes d) ->
  raises (fun e => P e \/ one [StructError; ValueError; RuntimeError; IndexError] e) (loadOverlayTable tab cb ids).
Proof.
  intros HC HB. unfold loadOverlayTable, load_ov. apply raises_foldM. intros s x. apply raises_bind; [apply raises_rd; right; mem|intros b _].
  cbv zeta. match goal with |- raises _ (if ?c then _ else _) => destruct c end; [exact I|].
  apply raises_bind; [eapply raises_weak; [|apply HC]; tauto|]. intros d Hd. apply HB in Hd.
  apply raises_bind; [|intros ? _; exact I]. unfold overlay_new. apply raises_bind; [|intros ? _; exact I].
  match goal with |- raises _ (if ?c then _ else _) => destruct c end; [|exact I].
  pose proof (code_decompress_safe d Hd) as S. destruct (code_decompress d); [exact I|]. cbn [raises]. right. cbn. intuition.
Qed.
Lemma slice_len {A} (l : list A) i j : 0 <= i -> 0 <= j -> zlen (slice l i j) = Z.max 0 (Z.min j (zlen l) - Z.min i (zlen l)).
Proof.
  intros Hi Hj. unfold slice, clamp. pose proof (zlen_nonneg l). destruct (Z.ltb_spec i 0); [lia|]. destruct (Z.ltb_spec j 0); [lia|].
  unfold zlen at 1. rewrite firstn_length, skipn_length. unfold zlen in *. lia.
Qed.
Lemma post_ok fuel : forall d off, 0 <= off -> (1 <= fuel)%nat -> zlen d - off < 12 * (Z.of_nat fuel - 1) + 4 -> exists p, post_loop fuel d off = Ok p.
Proof.
  induction fuel as [|k IH]; intros d off Ho H1 HL; [lia|]. cbn [post_loop].
  destruct (beq _ _) eqn:E; [|eexists; reflexivity]. apply beq_eq in E.
  assert (X : zlen (slice d off (off + 4)) = 4) by (rewrite E; reflexivity). rewrite slice_len in X by lia.
  destruct (IH d (off + 12)) as [p ->]; try lia. eexists. reflexivity.
Qed.
Lemma rom_raises depth data : is_bytes data -> raises (one [StructError; RecursionError]) (rom_load depth data).
Proof.
  intros B. unfold rom_load. cbv zeta.
  match goal with |- context [if zlen data <? 512 then ?x else data] => set (d := if zlen data <? 512 then x else data) end.
  assert (BD : is_bytes d) by (unfold d; destruct (_ <? _); [apply is_bytes_app; split; [exact B|apply is_bytes_zeros]|exact B]).
  assert (LD : 512 <= zlen d). { unfold d. destruct (Z.ltb_spec (zlen data) 512); [|assumption]. rewrite zlen_app, zlen_zeros; lia. }
  clearbody d. clear B data.
  assert (G : forall i, 0 <= i < 512 -> raises (one [StructError; RecursionError]) (get d i)).
  { intros i Hi. destruct (PyLemmas.get_some d i ltac:(lia)) as (x & -> & _). exact I. }
  repeat match goal with |- raises _ (bind (get d ?i) _) => apply raises_bind; [apply G; lia|intros ? _] end.
  rz.
  - unfold sig_off. rz.
  - match goal with |- context [post_loop ?f d (?a + ?b)] => destruct (post_ok f d (a + b)) as [p ->] end;
      [|lia|unfold zlen|exact I].
    + repeat match goal with H : unpack_u _ d _ = Ok _ |- _ => apply unpack_u_range in H; [|exact BD] end. lia.
    + repeat match goal with H : unpack_u _ d _ = Ok _ |- _ => apply unpack_u_range in H; [|exact BD] end. lia.
  - apply fnt_raises. rewrite <- Q. apply is_bytes_slice, BD.
  - unfold load_files, RomModel.fat_step. rz.
Qed.

(** ** how deep a filename table can be *)
Lemma entries_more rec rec' data n : (forall id, rec id <> Err RecursionError -> rec' id = rec id) -> forall off fo fi,
  loadEntries rec data n off fo fi <> Err RecursionError -> loadEntries rec' data n off fo fi = loadEntries rec data n off fo fi.
Proof.
  intros HR. induction n as [|n IH]; intros off fo fi N; cbn [loadEntries] in *; [reflexivity|].
  destruct (unpack_u 1 data off); cbn [bind] in *; [|reflexivity]. destruct (_ =? 0); [reflexivity|]. cbv zeta in *.
  destruct (negb _); [|apply IH, N]. destruct (unpack_u 2 data _) as [s|]; cbn [bind] in *; [|reflexivity].
  rewrite HR; [|intros E; rewrite E in N; apply N; reflexivity]. destruct (rec s); cbn [bind] in *; [apply IH, N|reflexivity].
Qed.
Lemma folder_more data : forall d id, loadFolder d data id <> Err RecursionError -> loadFolder (S d) data id = loadFolder d data id.
Proof.
  induction d as [|d IH]; intros id N; [exfalso; apply N; reflexivity|]. change (loadFolder (S (S d)) data id) with (
    let off := 8 * Z.land id 0xFFF in
    entriesTableOff <- unpack_u 4 data off ;;
    fileID <- unpack_u 2 data (off + 4) ;;
    ' (folders, files) <- loadEntries (loadFolder (S d) data) data (S (length data)) entriesTableOff [] [] ;;
    Ok (Folder folders files fileID)).
  cbn [loadFolder] in N. cbn [loadFolder] in IH |- *. cbv zeta.
  destruct (unpack_u 4 data _) as [o|]; cbn [bind] in *; [|reflexivity]. destruct (unpack_u 2 data _) as [i|]; cbn [bind] in *; [|reflexivity].
  rewrite (entries_more (loadFolder d data) (loadFolder (S d) data)); [reflexivity|exact IH|].
  intros E. rewrite E in N. apply N. reflexivity.
Qed.
Lemma entries_split rec rec' data n : (forall id, rec id <> Err RecursionError -> rec' id = rec id) -> forall off fo fi,
  loadEntries rec data n off fo fi = Err RecursionError -> loadEntries rec' data n off fo fi <> Err RecursionError ->
  exists c, rec c = Err RecursionError /\ rec' c <> Err RecursionError.
Proof.
  intros HR. induction n as [|n IH]; intros off fo fi E N; cbn [loadEntries] in *; [discriminate E|].
  destruct (unpack_u 1 data off); cbn [bind] in *; [|congruence]. destruct (_ =? 0); [discriminate E|]. cbv zeta in *.
  destruct (negb _); [|eapply IH; eassumption]. destruct (unpack_u 2 data _) as [s|]; cbn [bind] in *; [|congruence].
  destruct (rec s) as [f|e] eqn:ES.
  - rewrite HR in N by congruence. rewrite ES in N. cbn [bind] in *. eapply IH; eassumption.
  - cbn [bind] in E. exists s. assert (e = RecursionError) as -> by congruence. split; [exact ES|]. intros X. rewrite X in N. apply N. reflexivity.
Qed.
(** the number of nested calls needed *)
Definition rank (data : bytes) (id : Z) (r : nat) : Prop :=
  loadFolder r data id = Err RecursionError /\ loadFolder (S r) data id <> Err RecursionError.
Lemma rank_step data id d : rank data id (S d) -> exists c, rank data c d.
Proof.
  intros [E N]. unfold rank. cbn [loadFolder] in E. change (loadFolder (S (S d)) data id) with (
    let off := 8 * Z.land id 0xFFF in
    entriesTableOff <- unpack_u 4 data off ;;
    fileID <- unpack_u 2 data (off + 4) ;;
    ' (folders, files) <- loadEntries (loadFolder (S d) data) data (S (length data)) entriesTableOff [] [] ;;
    Ok (Folder folders files fileID)) in N. cbv zeta in *.
  destruct (unpack_u 4 data _) as [o|e] eqn:E1; cbn [bind] in *; [|congruence].
  destruct (unpack_u 2 data _) as [i|e] eqn:E2; cbn [bind] in *; [|congruence].
  apply (entries_split (loadFolder d data) (loadFolder (S d) data) data (S (length data)) (folder_more data d) o [] []).
  - destruct (loadEntries (loadFolder d data) _ _ _ _ _) as [[? ?]|]; cbn [bind] in E; [discriminate E|congruence].
  - intros X. rewrite X in N. apply N. reflexivity.
Qed.
Lemma folder_more_n data id : forall k d, loadFolder d data id <> Err RecursionError -> loadFolder (k + d) data id = loadFolder d data id.
Proof.
  induction k as [|k IH]; intros d N; [reflexivity|]. cbn [Nat.add]. rewrite folder_more; [apply IH, N|]. rewrite IH by exact N. exact N.
Qed.
Lemma rank_unique data id r s : rank data id r -> rank data id s -> r = s.
Proof.
  assert (L : forall r s, rank data id r -> rank data id s -> (r < s)%nat -> False).
  { intros a b [_ A] [B _] H. pose proof (folder_more_n data id (b - S a) (S a) A) as X. replace (b - S a + S a)%nat with b in X by lia. congruence. }
  intros A B. destruct (Nat.lt_trichotomy r s) as [H|[H|H]]; [exfalso; eauto|exact H|exfalso; eauto].
Qed.
Lemma folder_mask data d id : loadFolder d data (Z.land id 0xFFF) = loadFolder d data id.
Proof. destruct d; [reflexivity|]. cbn [loadFolder]. rewrite <- Z.land_assoc. reflexivity. Qed.
Lemma rank_chain data : forall d id, rank data id d ->
  exists l : list Z, length l = S d /\ NoDup l /\ (forall k, In k l -> 0 <= k < 4096 /\ exists r, (r <= d)%nat /\ rank data k r).
Proof.
  assert (M : forall id d, rank data id d -> 0 <= Z.land id 0xFFF < 4096 /\ rank data (Z.land id 0xFFF) d).
  { intros id d [A B]. split; [|split; rewrite folder_mask; assumption]. change 0xFFF with (Z.ones 12). rewrite Z.land_ones by lia. change 4096 with (2 ^ 12). apply Z.mod_pos_bound. reflexivity. }
  induction d as [|d IH]; intros id R.
  - exists [Z.land id 0xFFF]. split; [reflexivity|]. split; [repeat constructor; intros []|]. intros k [<-|[]]. destruct (M id _ R) as [A B].
    split; [exact A|]. exists O. split; [lia|exact B].
  - destruct (rank_step _ _ _ R) as [c C]. destruct (IH c C) as (l & LL & ND & F). destruct (M id _ R) as [A B].
    exists (Z.land id 0xFFF :: l). split; [cbn [length]; rewrite LL; reflexivity|]. split.
    + constructor; [|exact ND]. intros I. destruct (F _ I) as (_ & r & L & Rr). pose proof (rank_unique _ _ _ _ B Rr). lia.
    + intros k [<-|I]; [split; [exact A|]; exists (S d); split; [lia|exact B]|]. destruct (F k I) as (A' & r & L & Rr). split; [exact A'|]. exists r. split; [lia|exact Rr].
Qed.
Lemma rank_bound data id d : rank data id d -> (d < 4096)%nat.
Proof.
  intros R. destruct (rank_chain data d id R) as (l & L & ND & F).
  assert (X : (length (map Z.to_nat l) <= length (seq 0 4096))%nat).
  { apply NoDup_incl_length.
    - clear -ND F. induction ND as [|x l N ND IH]; cbn [map]; constructor.
      + intros I. apply in_map_iff in I as (y & E & I). destruct (F x (or_introl eq_refl)) as [A _]. destruct (F y (or_intror I)) as [B _]. assert (x = y) by lia. subst. contradiction.
      + apply IH. intros k I. apply F. right. exact I.
    - intros k I. apply in_map_iff in I as (y & <- & I). destruct (F y I) as [A _]. apply in_seq. lia. }
  rewrite map_length, seq_length, L in X. lia.
Qed.
Lemma load_limit data depth : (4096 <= depth)%nat -> FntModel.load depth data = FntModel.load 4096 data.
Proof.
  intros H. unfold FntModel.load. generalize 0xF000 as id. intros id. induction H as [|d H IH]; [reflexivity|]. rewrite <- IH.
  assert (D : {loadFolder d data id = Err RecursionError} + {loadFolder d data id <> Err RecursionError}).
  { destruct (loadFolder d data id) as [|e]; [right; discriminate|]. destruct e; (left; reflexivity) || (right; discriminate). }
  destruct D as [E|N]; [|apply folder_more, N]. destruct (loadFolder (S d) data id) as [f|e] eqn:E2.
  - exfalso. assert (R : rank data id d) by (split; [exact E|rewrite E2; discriminate]). apply rank_bound in R. lia.
  - rewrite E. f_equal. destruct e; try reflexivity; exfalso; assert (R : rank data id d) by (split; [exact E|rewrite E2; discriminate]); apply rank_bound in R; lia.
Qed.

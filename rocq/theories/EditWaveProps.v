(** * C130: waves and streams are changed

    Waves of arbitrary wave archives are saved as files of their own, archives are put
    together from waves read anywhere, and the contents of streams are exchanged. *)
From Coq Require Import String.
From Verif Require Import PyBase PyLemmas PyTac WaveModel WaveLemmas WaveProps ViewSpec ViewLemmas ViewFilesProps Exact.
From Verif Require SeqRead ViewTexProps.

Lemma read_ok d u r w : is_bytes d -> zlen d < 0xFFFFFFE8 -> swar_load d u = Ok r -> In w (rWaves r) -> swav_ok w.
Proof.
  intros B LD H I. apply C107_swar in H as ((SH & S38) & _ & _ & W); [|exact B]. apply In_nth_error in I as (i & I). destruct (W i w I) as (B1 & B2 & B3 & B4).
  assert (P : 0 <= swar_start d i) by (unfold swar_start; apply word_range; [exact B|lia|lia]).
  apply (swav_at_ok d _ _ w B P B3 B4). destruct B4 as (_ & _ & _ & _ & _ & _ & ->). unfold part. unfold zlen in *. rewrite firstn_length, skipn_length. lia.
Qed.
(** every wave of an archive can be saved as a file of its own, which is read as that wave *)
Theorem C130_read : forall d u r w post, is_bytes d -> zlen d < 0xFFFFFFE8 -> swar_load d u = Ok r -> In w (rWaves r) ->
  exists f, swav_save0 w = Ok f /\ swav_load (f ++ post) = Ok w.
Proof.
  intros d u r w post B LD H I. destruct (C34_swav_roundtrip w post (read_ok d u r w B LD H I)) as (f & S & _ & L). exists f. split; assumption.
Qed.
Print Assumptions C130_read.

(** a wave of some archive, of some wave file, or a new one in the range of the format *)
Definition wave_source (w : swav) : Prop :=
  (exists d u r, is_bytes d /\ zlen d < 0xFFFFFFE8 /\ swar_load d u = Ok r /\ In w (rWaves r)) \/ (exists d, is_bytes d /\ swav_load d = Ok w) \/
  (0 <= wRate w < 2 ^ 16 /\ 0 <= wTime w < 2 ^ 16 /\ 0 <= wLoop w < 2 ^ 16 /\ 0 <= wTotal w - wLoop w < 2 ^ 32 /\ zlen (wData w) + 0x24 < 2 ^ 32).
Lemma source_ok w : wave_source w -> swav_ok w.
Proof.
  intros [(d & u & r & B & L & H & I)|[(d & B & H)|H]]; [exact (read_ok d u r w B L H I)|exact (C34_swav_loaded d w B H)|]. change (2 ^ 16) with 65536 in H. change (2 ^ 32) with 4294967296 in H. exact H.
Qed.
(** any list of such waves is an archive that can be saved, if the file is small enough *)
Theorem C130_archive : forall ws u post, (forall w, In w ws -> wave_source w) -> 0x3C + fold_right Z.add 0 (map (fun w => 16 + zlen (wData w)) ws) < 2 ^ 32 ->
  exists d, swar_save {| rWaves := ws; rUnk02 := u |} = Ok (d, u) /\ zlen d = 0x3C + fold_right Z.add 0 (map (fun w => 16 + zlen (wData w)) ws) /\ swar_load (d ++ post) u = Ok {| rWaves := ws; rUnk02 := u |}.
Proof.
  intros ws u post S L. change (fun w => 16 + zlen (wData w)) with (fun w => 4 + 0xC + zlen (wData w)) in *. rewrite swar_fileLen in *.
  assert (OK : swar_ok {| rWaves := ws; rUnk02 := u |}) by (split; cbn [rWaves]; [apply Forall_forall; intros w I; exact (source_ok w (S w I))|lia]).
  destruct (C35_swar_roundtrip _ post OK) as (d & E & LD). exists d. split; [exact E|]. split; [|exact LD]. rewrite (swar_save_ok _ OK) in E. cbn [rWaves rUnk02] in E. injection E as <-. rewrite zlen_swar_bytes. lia.
Qed.
Print Assumptions C130_archive.

(** the blocks of a stream of some file are exchanged: the stream can be saved, if the new ones
    have the sizes the format asks for and are not too many *)
Definition with_channels (s : strm) (chans : list (list bytes)) (perBlock inLast : Z) : strm :=
  {| sType := sType s; sLooped := sLooped s; sChannels := chans; sUnk03 := sUnk03 s; sRate := sRate s; sTime := sTime s; sLoop := sLoop s; sPerBlock := perBlock; sInLast := inLast; sUnks := sUnks s; sInfo := sInfo s |}.
Theorem C130_stream : forall f info s chans nb pb il perBlock inLast post, is_bytes f -> strm_load f info = Ok s -> blocks_ok nb pb il chans -> chans <> [] -> 0 < nb < 2 ^ 32 -> zlen chans < 256 ->
  (sType s = ADPCM -> nb = 1 -> 4 <= il) -> 0 <= perBlock < 2 ^ 32 -> 0 <= inLast < 2 ^ 32 -> (nb - 1) * perBlock + inLast < 2 ^ 32 ->
  0x68 + nb * (zlen chans * Z.max pb il + 3) < 2 ^ 32 ->
  exists d, strm_save (with_channels s chans perBlock inLast) false = Ok (with_channels s chans perBlock inLast, (d, info)) /\ strm_load (d ++ post) info = Ok (with_channels s chans perBlock inLast).
Proof.
  intros f info s chans nb pb il perBlock inLast post B H BO NE NB CL AD P1 P2 P3 SZ. change (2 ^ 32) with 4294967296 in *.
  assert (C1 : 0 < zlen chans) by (destruct chans; [congruence|rewrite zlen_cons; pose proof (zlen_nonneg chans); lia]).
  assert (IL : 0 <= il).
  { destruct chans as [|c l]; [congruence|]. destruct (BO c (or_introl eq_refl)) as (E & Q). destruct (nth_error c (Z.to_nat (nb - 1))) as [b|] eqn:N.
    - specialize (Q _ b N). rewrite Z2Nat.id, Z.eqb_refl in Q by lia. rewrite <- Q. apply zlen_nonneg.
    - apply nth_error_None in N. unfold zlen in E. lia. }
  assert (PN : nb = 1 \/ 0 <= pb).
  { destruct chans as [|c l]; [congruence|]. destruct (BO c (or_introl eq_refl)) as (E & Q). destruct (Z.eq_dec nb 1) as [|N1]; [left; assumption|right]. destruct (nth_error c 0) as [b|] eqn:N.
    - specialize (Q _ b N). replace (Z.of_nat 0 =? nb - 1) with false in Q by lia. rewrite <- Q. apply zlen_nonneg.
    - apply nth_error_None in N. unfold zlen in E. lia. }
  assert (WL : forall k, (k <= Z.to_nat nb)%nat -> zlen (WaveLemmas.wave chans k) <= Z.of_nat k * (zlen chans * Z.max pb il + 3)).
  { induction k as [|k IH]; intros K; [change (WaveLemmas.wave chans 0) with (@nil Z); change (zlen (@nil Z)) with 0; lia|]. specialize (IH ltac:(lia)). rewrite WaveLemmas.wave_S, zlen_pad_to by lia. rewrite !zlen_app.
    assert (RL : zlen (concat (WaveLemmas.row chans k)) <= zlen chans * Z.max pb il).
    { unfold WaveLemmas.row. clear - BO K. revert BO. induction chans as [|c l IH]; intros BO; [cbn [map concat]; unfold zlen; cbn [length]; lia|]. cbn [map concat]. rewrite zlen_app, zlen_cons. specialize (IH (fun x I => BO x (or_intror I))).
      destruct (BO c (or_introl eq_refl)) as (E & Q). assert (zlen (nth k c []) <= Z.max pb il). { destruct (nth_error c k) as [b|] eqn:N; [|apply nth_error_None in N; unfold zlen in E; lia]. rewrite (nth_error_nth _ _ _ N), (Q k b N). destruct (_ =? _); lia. }
      lia. }
    pose proof (Z.mod_pos_bound (- (zlen (WaveLemmas.wave chans k) + zlen (concat (WaveLemmas.row chans k)))) 4 ltac:(lia)). rewrite Nat2Z.inj_succ. nia. }
  specialize (WL (Z.to_nat nb) (Nat.le_refl _)). rewrite Z2Nat.id in WL by lia.
  pose proof H as H0. apply C107_strm in H as (SH & T & _ & U3 & R & TM & LP & _ & _ & UN & INF & _); [|exact B].
  destruct (C36_strm_savable (with_channels s chans perBlock inLast) nb pb il BO NE ltac:(lia)) as (d & SV).
  { unfold strm_ranges, strm_adj, u8r, u16r, u32r. cbn [with_channels sChannels sUnk03 sRate sTime sLoop sPerBlock sInLast sUnks sType].
    assert (MX : Z.max pb il + 3 < 4294967296) by (assert (0 <= Z.max pb il) by lia; set (mx := Z.max pb il) in *; assert (mx + 3 <= zlen chans * mx + 3) by nia; nia).
    destruct SH as ((L18 & _) & L60 & _). rewrite U3, R, TM, LP, UN. pose proof (byte_range f 0x1B B ltac:(lia)). pose proof (half_range f 0x1C B ltac:(lia) ltac:(lia)). pose proof (half_range f 0x1E B ltac:(lia) ltac:(lia)). pose proof (word_range f 0x20 B ltac:(lia) ltac:(lia)) as R20. change (2 ^ 32) with 4294967296 in R20.
    assert (A4 : (wt_val (sType s) =? wt_val ADPCM) && (nb =? 1) = true -> 4 <= il /\ nb = 1).
    { intros E. apply andb_prop in E as (E1 & E2). apply Z.eqb_eq in E1, E2. split; [apply AD; [destruct (sType s); [discriminate E1|discriminate E1|reflexivity]|exact E2]|exact E2]. }
    assert (0 <= (nb - 1) * perBlock) by (apply Z.mul_nonneg_nonneg; lia).
    repeat match goal with |- _ /\ _ => split end; try lia; try (destruct (nb =? 1) eqn:E; destruct (wt_val (sType s) =? wt_val ADPCM) eqn:F; cbn [andb] in *; try specialize (A4 eq_refl); lia).
    apply Forall_forall. intros v I. apply in_map_iff in I as (i & <- & I). apply in_seq in I. exact (word_range f (0x40 + 4 * Z.of_nat i) B ltac:(lia) ltac:(lia)). }
  cbn [with_channels sInfo] in SV. rewrite INF in SV. fold (with_channels s chans perBlock inLast) in SV. exists d. split; [rewrite <- SV; reflexivity|].
  eapply C36_strm_roundtrip; [|exact SV]. cbn [with_channels sUnks]. rewrite UN, zlen_map. reflexivity.
Qed.
Print Assumptions C130_stream.

(** the second wave of one archive and the wave of a file become a new archive; the blocks of
    a stream are exchanged for longer ones *)
Example C130_ex : is_bytes odd_archive /\ is_bytes odd_wave /\ is_bytes odd_stream /\
  match (r <- swar_load odd_archive 0 ;; w <- swav_load odd_wave ;; v <- get (rWaves r) 1 ;; f <- swav_save0 v ;; v' <- swav_load f ;; x <- swar_save {| rWaves := [w; v; w]; rUnk02 := 3 |} ;; r' <- swar_load (fst x) (snd x) ;; Ok (v, v', w, r')) with
  | Err _ => False | Ok (v, v', w, r') => v' = v /\ rWaves r' = [w; v; w] /\ rUnk02 r' = 3 end /\
  blocks_ok 2 5 4 [[[1; 2; 3; 4; 5]; [6; 7; 8; 9]]] /\
  match (s <- strm_load odd_stream (0, 1, 2, 3, 4) ;; x <- strm_save (with_channels s [[[1; 2; 3; 4; 5]; [6; 7; 8; 9]]] 5 4) false ;; s' <- strm_load (fst (snd x)) (snd (snd x)) ;; Ok (s, s')) with
  | Err _ => False | Ok (s, s') => sType s <> ADPCM /\ zlen (sChannels s) = 2 /\ sChannels s' = [[[1; 2; 3; 4; 5]; [6; 7; 8; 9]]] /\ sUnks s' = sUnks s /\ sLoop s' = sLoop s end.
Proof.
  split; [all_bytes|]. split; [all_bytes|]. split; [all_bytes|]. split; [vm_compute; repeat split|]. split; [|vm_compute; repeat split; discriminate].
  intros c [<-|[]]. split; [reflexivity|]. intros [|[|[|j]]] b H; cbn in H; try discriminate H; injection H as <-; reflexivity.
Qed.

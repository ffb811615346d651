(** * C129: the banks of a sound archive are changed *)
From Coq Require Import String.
From Verif Require Import PyBase PyLemmas PyTac WaveModel SeqModel SsarModel SbnkModel SbnkSpec SbnkLemmas SbnkBank SbnkInacc SbnkLayout SbnkBack SbnkLoaded SbnkProps SbnkInaccProps SdatModel SdatFiles SdatSymb SdatFat SdatSave SdatLoad SdatBack SdatSpec SdatLayout SdatReload SdatRound SdatProps
  ViewSpec ViewSdatSpec EditSdatSpec EditSdat EditSdatProps EditBankProps ViewTexProps.

Lemma listed_savable b r : (forall i, member b i -> expressible (iBody i)) -> sbnk_save b = Ok r -> forall i, In (Some i) (bInsts b) -> expressible (iBody i) /\ exists td, body_save (iBody i) = Ok td.
Proof.
  intros G SV i I. split; [exact (G i (or_introl I))|]. unfold sbnk_save in SV. apply PyLemmas.bind_ok in SV as (r0 & D & _). apply In_nth_error in I as (k & N).
  apply (save_each b r0 D (Some (Z.of_nat k), Some (Z.of_nat k), i)). unfold em. rewrite !in_app_iff. right. left. apply in_flat_map. exists (Z.of_nat k, i). split; [|left; reflexivity].
  unfold save_order. rewrite !in_app_iff, !in_group, Nat2Z.id. pose proof (itype_expressible i (G i (or_introl (nth_error_In _ _ N)))) as T. assert (0 <= Z.of_nat k) by lia. tauto.
Qed.

(** banks without inaccessible instruments come back without any, with the same instruments
    under the same IDs; two instruments share their data exactly if they have the same bytes
    and had the same merge ID; and the bank read is saved to the same file *)
Theorem C129_in_sdat : forall order order' d s s1 d', is_bytes d -> sdat_load order d = Ok s -> made_from s s1 -> sdat_save s1 = Ok d' ->
  exists s', sdat_load order' d' = Ok s' /\ same_entries d' s1 s' /\
  forall j n m b, nth_error (dBanks s1) j = Some (n, Some (m, b)) -> bInacc b = [] ->
    exists m2 b2 f w2, nth_error (dBanks s') j = Some (n, Some (m2, b2)) /\ bInacc b2 = [] /\ map (option_map iBody) (bInsts b2) = map (option_map iBody) (bInsts b) /\
      (forall i k x y x' y', nth_error (bInsts b) i = Some (Some x) -> nth_error (bInsts b) k = Some (Some y) -> nth_error (bInsts b2) i = Some (Some x') -> nth_error (bInsts b2) k = Some (Some y') ->
         (iMerge x' = iMerge y' <-> (exists tx ty z, body_save (iBody x) = Ok (tx, z) /\ body_save (iBody y) = Ok (ty, z)) /\ iMerge x = iMerge y)) /\
      sbnk_save b = Ok (f, bUnk b, bWars b) /\ sbnk_save b2 = Ok (f, bUnk b, w2) /\ exists z, file_view d' m2 = f ++ zeros z.
Proof.
  intros order order' d s s1 d' B H M S. pose proof (made_readable s s1 (loaded_readable order d s B H) M) as R. destruct (sdat_save_inv s1 d' S) as (y & bss & FS & o1 & o2 & o3 & SV).
  destruct (read_back s1 d' y bss FS o1 o2 o3 SV order' R) as (s' & E & RE & C). exists s'. split; [exact E|]. split; [exact C|].
  intros j n m b NJ IA. destruct (proj2 (re_banks _ _ _ _ RE) j n _ NJ) as ([[m2 b2]|] & N' & X); [|destruct X]. destruct X as (f & u & l & SS & EM & LF). cbn [snd fst] in *.
  destruct (SdatRound.view s1 d' y bss FS o1 o2 o3 SV 2 j f m ltac:(exists n, b, u, l; split; assumption)) as (z & VW). rewrite <- EM in VW. rewrite VW in LF.
  assert (BE : bank_expressible b) by (split; [exact IA|exact (listed_savable b _ (fun i => rd_banks _ R _ _ _ i (nth_error_In _ _ NJ)) SS)]).
  destruct (C42_bank_roundtrip order' b f u l (Some (four_ids l)) (zeros z) BE SS) as (E1 & E2 & b3 & L3 & I3 & A3 & _ & _ & M3). rewrite LF in L3. apply SeqRead.ok_inj in L3. subst b3.
  pose proof (C54_resave order' b f u l _ (zeros z) b2 BE SS LF) as RS. subst u l. exists m2, b2, f, (strip_none (four_ids (bWars b))).
  split; [exact N'|]. split; [exact A3|]. split; [exact I3|]. split; [exact M3|]. split; [exact SS|]. split; [exact RS|]. exists z. exact VW.
Qed.
Print Assumptions C129_in_sdat.

(** in the archive of C60 the bank gets the instruments of [C129_ex], and the first of them
    again, with the same merge ID *)
Definition ex_band : sbnk := {| bInsts := ex_insts ++ [Some (an_inst (Single (demo_note 5)) 0)]; bInacc := []; bUnk := 3; bWars := [Some 0] |}.
Definition ex_hire (s : sdat) : sdat :=
  {| dSeqs := dSeqs s; dArchs := dArchs s; dBanks := [(Some [90], Some (7, ex_band))]; dWars := dWars s; dPlayers := dPlayers s; dGroups := dGroups s; dSPlayers := dSPlayers s; dStrms := dStrms s;
     firstAlign := firstAlign s; fileAlign := fileAlign s; fatPad := fatPad s; padEnd := padEnd s; padSymb := padSymb s |}.
Lemma ex_hire_made s : made_from s (ex_hire s).
Proof.
  constructor.
  - unfold names. cbn [ex_hire dSeqs dArchs dBanks dWars dPlayers dGroups dSPlayers dStrms]. intros n J. rewrite !in_app_iff in *. cbn [map fst In] in J. destruct J as [J|[J|[[<-|[]]|J]]]; try (left; tauto). right. cbn. intuition discriminate.
  - intros n m b i [J|[]] M. injection J as <- <- <-. right. destruct M as [M|(k & l & [] & _)]. cbn in M.
    destruct M as [M|[M|[M|[M|[M|[]]]]]]; try discriminate M; injection M as <-; [vm_compute; split; discriminate || reflexivity|vm_compute; split; discriminate || reflexivity|exact Logic.I|vm_compute; split; discriminate || reflexivity].
  - intros n l g J G. left. exists n, l. split; assumption.
  - intros n m x J. left. exists n, m. exact J.
Qed.
Example C129_sound_ex : is_bytes SdatProps.ex_file /\ (forall s, made_from s (ex_hire s)) /\
  match (s <- sdat_load [1; 16; 17] SdatProps.ex_file ;; d' <- sdat_save (ex_hire s) ;; s' <- sdat_load [] d' ;; Ok (s, s')) with Err _ => False | Ok (s, s') =>
    match nth_error (dBanks s) 0, nth_error (dBanks s') 0 with
    | Some (None, Some (_, b)), Some (Some [90], Some (_, b')) => bInsts b <> bInsts b' /\ map (option_map iBody) (bInsts b') = map (option_map iBody) (bInsts ex_band) /\ bInacc b' = [] /\ bWars b' = [Some 0] /\
        option_map (option_map iMerge) (nth_error (bInsts b') 4) = option_map (option_map iMerge) (nth_error (bInsts b') 0) /\ sbnk_save b' = sbnk_save ex_band
    | _, _ => False end end.
Proof. split; [all_bytes|]. split; [exact ex_hire_made|]. vm_compute. repeat split. discriminate. Qed.

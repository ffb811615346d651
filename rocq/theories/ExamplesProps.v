(** * tools/instrumentExamples.py and soundfontExport.py (C126) *)
From Coq Require Import String.
From Verif Require Import PyBase PyLemmas TextModel TextSpec SeqTextSpec SeqTextLemmas SeqModel SeqSpec SeqProps SeqStraightProps SsarModel SsarLemmas SbnkModel SdatModel FilesModel ExamplesModel.

Lemma range_distinct n : forall a, NoDup (range_z a n).
Proof. induction n as [|n IH]; intros a; cbn [range_z]; constructor; [rewrite in_range_z; lia|apply IH]. Qed.
Lemma placed_size pos evs off P : placed pos off evs P -> Forall (fun p => forall b, ev_save (snd p) pos = Ok b -> zlen b <= 16) evs -> zlen (concat (map snd P)) <= 16 * zlen evs.
Proof.
  induction 1 as [|off i e b r r' _ W PL IH]; intros F; [reflexivity|]. inversion F as [|? ? F1 F2]; subst. cbn [map concat snd]. rewrite zlen_app, zlen_cons. specialize (F1 b W). specialize (IH F2). lia.
Qed.
(** the scale of every instrument can be saved; the file has the instrument, all 128 notes
    from the lowest to the highest, and the end; the settings are unknown value and bank 0,
    volume 127, channel pressure 64, polyphonic pressure 50, player 0 *)
Theorem C126_scale : forall bankID instrumentID, 0 <= bankID < 2 ^ 28 -> 0 <= instrumentID < 128 ->
  let info := (0, 0, 127, 64, 50, 0) in
  exists f s s', sseq_save (makeScaleSSEQ bankID instrumentID) = Ok (f, info) /\ sseq_load f info = Ok s /\ sseq_parse 1000 s = Ok s' /\ 
    exists notes, map snd (qEvents s') = Instr bankID instrumentID :: notes ++ [Bare 0xFF] /\ zlen notes = 128 /\
      forall k n, nth_error notes k = Some n -> n = Note (Z.of_nat k) 127 false 50.
Proof.
  intros bankID instrumentID B I info.
  set (evs := (0, Instr bankID instrumentID) :: map (fun i => (1 + i, Note i 127 false 50)) (range_z 0 0x80)).
  assert (E : qEvents (makeScaleSSEQ bankID instrumentID) = evs ++ [(0x81, Bare 0xFF)]) by reflexivity.
  assert (N : NoDup (map fst (evs ++ [(0x81, Bare 0xFF)]))).
  { change (map fst (evs ++ [(0x81, Bare 0xFF)])) with (range_z 0 0x82). apply range_distinct. }
  assert (F : Forall (fun p => straight (snd p)) evs).
  { constructor; [cbn [snd]; repeat (split; [cbn; lia || reflexivity|]); reflexivity|]. apply Forall_forall. intros p X. apply in_map_iff in X as (k & <- & X). apply in_range_z in X. cbn [snd].
    repeat (split; [cbn; lia || reflexivity|]); reflexivity. }
  destruct (C39_straight 1000 evs 0x81) as (data & evs' & SV & RD & M); [change (length evs) with 129%nat; apply Nat.ltb_lt; reflexivity|exact N|exact F|].
  assert (LD : zlen data <= 16 * 130).
  { destruct (C39_list_exact 0 _ _ _ _ (straight_ok evs 0x81 N F) ltac:(discriminate) SV) as (pos & P & PL & -> & _). apply (placed_size _ _ _ _ PL).
    apply Forall_app. split; [|constructor; [|constructor]; intros b W; vm_compute in W; injection W as <-; vm_compute; discriminate].
    constructor.
    - intros b W. apply C38_announced_length_partial in W; [|cbn; lia|reflexivity]. cbn [snd dataLength] in W. apply bind_ok in W as (n & W & L). apply SeqRead.ok_inj in L.
      destruct (C37_written (Z.lor (Z.shiftl bankID 7) instrumentID)) as (w & W1 & W2); [apply Z.lor_nonneg; split; [apply Z.shiftl_nonneg; lia|lia]|]. rewrite W2 in W. apply SeqRead.ok_inj in W.
      assert (zlen w <= 15); [|lia]. apply (C37_minimal _ _ 15 W1); [lia|]. rewrite Z.lor_comm, (PyTac.lor_add instrumentID bankID 7) by lia. lia.
    - apply Forall_forall. intros p X. apply in_map_iff in X as (k & <- & X). apply in_range_z in X. intros b W. apply C38_announced_length_partial in W; [|cbn; lia|reflexivity]. cbn [snd] in W.
      change (dataLength (Note k 127 false 50)) with (Ok 3) in W. apply SeqRead.ok_inj in W. lia. }
  exists (sseq_bytes data), {| qParsed := false; qEvents := []; qData := data; qInfo := info |}, {| qParsed := true; qEvents := evs'; qData := data; qInfo := info |}.
  split; [apply sseq_save_eq; [unfold sseq_data; rewrite E; cbn [qParsed makeScaleSSEQ sseq_fromEvents]; rewrite SV; reflexivity|lia]|].
  split; [rewrite <- (app_nil_r (sseq_bytes data)); apply sseq_load_bytes; lia|]. split; [unfold sseq_parse; cbn [qParsed qData qInfo]; rewrite RD; reflexivity|].
  exists (map (fun i => Note i 127 false 50) (range_z 0 0x80)). cbn [qEvents]. split; [|split; [reflexivity|]].
  - rewrite M. unfold evs. cbn [map snd app]. rewrite map_map. reflexivity.
  - intros k n X. rewrite nth_error_map in X. destruct (nth_error (range_z 0 0x80) k) as [v|] eqn:V; [|discriminate X]. cbn [option_map] in X. injection X as <-. assert (K : (k < 128)%nat) by (change 128%nat with (length (range_z 0 128)); apply nth_error_Some; congruence). rewrite nth_error_range_z in V by exact K. injection V as <-. reflexivity.
Qed.
Print Assumptions C126_scale.
Example C126_scale_ex : match sseq_save (makeScaleSSEQ 2 5) with Err _ => False | Ok (f, _) =>
  zlen f = 0x1C + 3 + 128 * 3 + 1 /\ slice f 0x1C 0x2B = [0x81; 0x82; 5;  0; 127; 50;  1; 127; 50;  2; 127; 50;  3; 127; 50] end.
Proof. vm_compute. split; reflexivity. Qed.

Fixpoint slots_from (k : nat) (banks : list (name * option (merged sbnk))) : list (nat * nat) :=
  match banks with
  | (_, Some (_, b)) :: r => (if uses_first b then map (pair k) (seq 0 (length (bInsts b))) else []) ++ slots_from (S k) r
  | _ :: r => slots_from (S k) r
  | [] => []
  end.
Lemma uses_first_in b : uses_first b = true <-> In (Some 0) (bWars b).
Proof.
  unfold uses_first. rewrite existsb_exists. split.
  - intros ([n|] & I & E); [|discriminate E]. apply Z.eqb_eq in E. subst. exact I.
  - intros I. exists (Some 0). split; [exact I|reflexivity].
Qed.
Lemma slots_in banks : forall k i j, In (i, j) (slots_from k banks) <-> (k <= i)%nat /\
  exists n m b, nth_error banks (i - k) = Some (n, Some (m, b)) /\ In (Some 0) (bWars b) /\ (j < length (bInsts b))%nat.
Proof.
  assert (SH : forall (x : name * option (merged sbnk)) banks k i j, (forall n m b, x = (n, Some (m, b)) -> ~ (i = k /\ In (Some 0) (bWars b) /\ (j < length (bInsts b))%nat)) ->
    ((S k <= i)%nat /\ exists n m b, nth_error banks (i - S k) = Some (n, Some (m, b)) /\ In (Some 0) (bWars b) /\ (j < length (bInsts b))%nat) <->
    ((k <= i)%nat /\ exists n m b, nth_error (x :: banks) (i - k) = Some (n, Some (m, b)) /\ In (Some 0) (bWars b) /\ (j < length (bInsts b))%nat)).
  { intros x l k i j H. split; intros (L & n & m & b & E & U & J).
    - split; [lia|]. exists n, m, b. replace (i - k)%nat with (S (i - S k)) by lia. auto.
    - destruct (Nat.eq_dec i k) as [->|N]; [rewrite Nat.sub_diag in E; cbn [nth_error] in E; exfalso; injection E as E; exact (H n m b E (conj eq_refl (conj U J)))|].
      split; [lia|]. exists n, m, b. replace (i - k)%nat with (S (i - S k)) in E by lia. auto. }
  induction banks as [|[n [[m b]|]] banks IH]; intros k i j; cbn [slots_from].
  - split; [intros []|]. intros (_ & n & m & b & E & _). destruct (i - k)%nat; discriminate E.
  - rewrite in_app_iff, IH. destruct (Nat.eq_dec i k) as [->|N].
    + rewrite Nat.sub_diag. cbn [nth_error]. split.
      * intros [H|(H & _)]; [|lia]. split; [lia|]. exists n, m, b. split; [reflexivity|]. destruct (uses_first b) eqn:U; [|destruct H]. apply uses_first_in in U. apply in_map_iff in H as (y & E & Y). injection E as <-. apply in_seq in Y. split; [exact U|lia].
      * intros (_ & n' & m' & b' & E & U & J). injection E as <- <- <-. left. apply uses_first_in in U. rewrite U. apply in_map, in_seq. lia.
    + rewrite (SH (n, Some (m, b)) banks k i j) by (intros ? ? ? _ (Q & _); contradiction). split; [intros [H|H]; [|exact H]|intro H; right; exact H].
      exfalso. destruct (uses_first b); [|destruct H]. apply in_map_iff in H as (y & E & _). injection E as E _. congruence.
  - rewrite IH. apply SH. intros ? ? ? Q. discriminate Q.
Qed.
Lemma slots_nodup banks : forall k, NoDup (slots_from k banks).
Proof.
  induction banks as [|[n [[m b]|]] banks IH]; intros k; cbn [slots_from]; [constructor| |apply IH].
  assert (D : NoDup (map (pair k) (seq 0 (length (bInsts b))))). { apply FinFun.Injective_map_NoDup; [intros x y E; injection E as E; exact E|apply seq_NoDup]. }
  destruct (uses_first b); [|apply IH]. revert D. assert (O : forall x, In x (map (pair k) (seq 0 (length (bInsts b)))) -> fst x = k) by (intros x X; apply in_map_iff in X as (y & <- & _); reflexivity).
  induction (map (pair k) (seq 0 (length (bInsts b)))) as [|x l IL]; intros D; [apply IH|]. inversion D; subst. cbn [app]. constructor; [|apply IL; [intros; apply O; right; assumption|assumption]].
  rewrite in_app_iff. intros [Q|Q]; [contradiction|]. destruct x as [i j]. apply slots_in in Q as (Q & _). specialize (O (i, j) (or_introl eq_refl)). cbn [fst] in O. lia.
Qed.
Lemma slots_kept banks : forall k kept, keep_banks banks = Ok kept -> zlen (flat_map bInsts kept) = zlen (slots_from k banks).
Proof.
  induction banks as [|[n [[m b]|]] banks IH]; intros k kept H; cbn [keep_banks] in H; [injection H as <-; reflexivity| |discriminate H].
  apply bind_ok in H as (rest & R & H). injection H as <-. specialize (IH (S k) rest R). cbn [slots_from]. destruct (uses_first b); [|exact IH].
  cbn [flat_map]. rewrite !zlen_app, IH, zlen_map. unfold zlen at 3. rewrite seq_length. reflexivity.
Qed.
Lemma kept_none banks n : In (n, None) banks -> keep_banks banks = Err AttributeError.
Proof.
  induction banks as [|[n' [[m b]|]] banks IH]; intros H; [destruct H| |reflexivity]. cbn [keep_banks]. destruct H as [H|H]; [discriminate H|]. rewrite (IH H). reflexivity.
Qed.
Lemma kept_all banks : (forall n, ~ In (n, None) banks) -> exists kept, keep_banks banks = Ok kept.
Proof.
  induction banks as [|[n [[m b]|]] banks IH]; intros H; cbn [keep_banks]; [eexists; reflexivity| |exfalso; exact (H n (or_introl eq_refl))].
  destruct IH as (kept & ->); [intros n' Q; exact (H n' (or_intror Q))|]. eexists. reflexivity.
Qed.
(** the number printed is that of the slots for instruments in all banks that use the first
    wave archive; no file is changed *)
Theorem C126_instruments : forall order d p b s, contents d p = Some b -> sdat_load order b = Ok s ->
  (dWars s = [] -> prepareSDAT order p d = (Failed (Raised IndexError), d)) /\
  (forall n, dWars s <> [] -> In (n, None) (dBanks s) -> prepareSDAT order p d = (Failed (Raised AttributeError), d)) /\
  (dWars s <> [] -> (forall n, ~ In (n, None) (dBanks s)) -> exists t slots, prepareSDAT order p d = (Done t, d) /\ number t = Some (zlen slots) /\ NoDup slots /\
     forall i j, In (i, j) slots <-> exists n m bank, nth_error (dBanks s) i = Some (n, Some (m, bank)) /\ In (Some 0) (bWars bank) /\ (j < length (bInsts bank))%nat).
Proof.
  intros order d p b s C L. unfold prepareSDAT, io_bind, read_file. rewrite C. unfold pure at 1. rewrite L. cbv beta iota. unfold pure. cbv beta iota.
  assert (G : dWars s <> [] -> exists w, get (dWars s) 0 = Ok w) by (destruct (dWars s) as [|w l]; intros H; [contradiction|exists w; reflexivity]).
  split; [|split].
  - intros E. rewrite E. reflexivity.
  - intros n W H. destruct (G W) as (w & ->). cbv beta iota. rewrite (kept_none _ _ H). reflexivity.
  - intros W H. destruct (G W) as (w & ->). destruct (kept_all _ H) as (kept & K). rewrite K. exists (str_int (zlen (flat_map bInsts kept))), (slots_from 0 (dBanks s)).
    split; [reflexivity|]. split; [rewrite number_str; f_equal; apply slots_kept, K|]. split; [apply slots_nodup|]. intros i j. rewrite slots_in, Nat.sub_0_r. split; [intros (_ & X); exact X|intros X; split; [lia|exact X]].
Qed.
Print Assumptions C126_instruments.
Definition some_banks (wars : list (name * option (merged WaveModel.swar))) (banks : list (name * option (merged sbnk))) : sdat :=
  {| dSeqs := []; dArchs := []; dBanks := banks; dWars := wars; dPlayers := []; dGroups := []; dSPlayers := []; dStrms := [];
     fatPad := false; firstAlign := None; fileAlign := 0x20; padEnd := false; padSymb := false |}.
Definition some_bank (wars : list (option Z)) (n : nat) : sbnk := {| bInsts := repeat None n; bInacc := []; bUnk := 0; bWars := wars |}.
Definition some_wars : list (name * option (merged WaveModel.swar)) := [(None, Some (0, {| WaveModel.rWaves := []; WaveModel.rUnk02 := 0 |}))].
Definition some_file (s : sdat) : bytes := match sdat_save s with Ok d => d | Err _ => [] end.
Definition prepared (s : sdat) : outcome text := let p := {| pDir := asc "a"; pName := asc "b" |} in fst (prepareSDAT [] p {| contents := fun _ => Some (some_file s); writable := fun _ => true |}).
Example C126_instruments_ex :
  prepared (some_banks some_wars [(None, Some (0, some_bank [Some 0] 7)); (None, Some (0, some_bank [Some 1] 5)); (None, Some (0, some_bank [Some 2; Some 0] 4))]) = Done (asc "11") /\
  prepared (some_banks some_wars [(None, Some (0, some_bank [Some 0] 7)); (None, None); (None, Some (0, some_bank [] 4))]) = Failed (Raised AttributeError) /\
  prepared (some_banks [] [(None, Some (0, some_bank [Some 0] 7))]) = Failed (Raised IndexError).
Proof. vm_compute. auto. Qed.

(** the soundfont tool ends without an error exactly if both files are there and can be read
    and the third can be written; that one is then empty, whatever the bank, and nothing else
    is changed; after an error nothing is changed at all *)
Theorem C126_soundfont : forall order here d, let at_ n := {| pDir := here; pName := n |} in
  let '(o, d') := soundfont_main order here d in
  (o = Done tt <-> (exists f b, contents d (at_ (asc "HGSS.sbnk")) = Some f /\ sbnk_load order f 0 None = Ok b) /\
                   (exists f w, contents d (at_ (asc "HGSS.swar")) = Some f /\ WaveModel.swar_load f 0 = Ok w) /\ writable d (at_ (asc "HGSS-ndspy.sf2")) = true) /\
  (o = Done tt -> contents d' (at_ (asc "HGSS-ndspy.sf2")) = Some [] /\ writable d' = writable d /\ forall p, p <> at_ (asc "HGSS-ndspy.sf2") -> contents d' p = contents d p) /\
  (o <> Done tt -> d' = d).
Proof.
  intros order here d at_. unfold soundfont_main, io_bind, read_file. fold (at_ (asc "HGSS.sbnk")) (at_ (asc "HGSS.swar")) (at_ (asc "HGSS-ndspy.sf2")).
  destruct (contents d (at_ (asc "HGSS.sbnk"))) as [f|] eqn:F; cbv beta iota.
  2: { split; [split; [discriminate|intros ((? & ? & [=] & _) & _)]|]. split; [discriminate|reflexivity]. }
  destruct (contents d (at_ (asc "HGSS.swar"))) as [g|] eqn:G; cbv beta iota.
  2: { split; [split; [discriminate|intros (_ & (? & ? & [=] & _) & _)]|]. split; [discriminate|reflexivity]. }
  unfold pure. destruct (sbnk_load order f 0 None) as [b|e] eqn:B; cbv beta iota zeta.
  2: { split; [split; [discriminate|intros ((f' & b & E & X) & _); injection E as <-; congruence]|]. split; [discriminate|reflexivity]. }
  destruct (WaveModel.swar_load g 0) as [w|e] eqn:W; cbv beta iota.
  2: { split; [split; [discriminate|intros (_ & (g' & w & E & X) & _); injection E as <-; congruence]|]. split; [discriminate|reflexivity]. }
  unfold write_file. destruct (writable d (at_ (asc "HGSS-ndspy.sf2"))) eqn:O; cbv beta iota.
  2: { split; [split; [discriminate|intros (_ & _ & [=])]|]. split; [discriminate|reflexivity]. }
  split; [split; [|reflexivity]|]. { intros _. split; [exists f, b|split; [exists g, w|reflexivity]]; split; (assumption || reflexivity). }
  split; [|intros X; contradiction]. intros _. cbn [contents writable]. split; [unfold path_eqb; rewrite !beq_refl; reflexivity|]. split; [reflexivity|].
  intros p N. destruct (path_eqb p (at_ (asc "HGSS-ndspy.sf2"))) eqn:E; [|reflexivity]. exfalso. apply N. unfold path_eqb in E. apply andb_prop in E as [E1 E2]. apply beq_eq in E1, E2. destruct p as [a c]. cbn [pDir pName] in *. subst. reflexivity.
Qed.
Print Assumptions C126_soundfont.
Definition some_disk (f g : bytes) : disk := {| contents := fun p => if beq (pName p) (asc "HGSS.sbnk") then Some f else if beq (pName p) (asc "HGSS.swar") then Some g else None; writable := fun _ => true |}.
Example C126_soundfont_ex : match sbnk_save (some_bank [Some 0] 3), WaveModel.swar_save {| WaveModel.rWaves := []; WaveModel.rUnk02 := 0 |} with
  | Ok (f, _, _), Ok (g, _) => fst (soundfont_main [1; 16; 17] (asc "d") (some_disk f g)) = Done tt /\ fst (soundfont_main [1; 16; 17] (asc "d") (some_disk g f)) = Failed (Raised ValueError)
  | _, _ => False end.
Proof. vm_compute. split; reflexivity. Qed.

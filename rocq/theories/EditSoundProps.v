(** * C128: sequences of sound archives are changed

    A sound archive is loaded, one of its sequences or sequence archives is parsed, events are
    removed, reordered, changed and added, and the sound archive is saved and read again. *)
From Coq Require Import String.
From Verif Require Import PyBase PyLemmas PyTac SeqModel SeqSpec SeqParse SeqRead SsarModel SsarLemmas SbnkModel SdatModel SdatFiles SdatSymb SdatFat SdatSave SdatLoad SdatBack SdatSpec SdatLayout SdatReload SdatRound SdatProps ViewSpec ViewSdatSpec ViewSdatProps EditSeqProps EditSsarProps EditSdatSpec EditSdat EditSdatProps ViewTexProps.

(** what C120 states of the entries holds as well; the events of a sequence that was read,
    rearranged and put anywhere in the archive, are read as in C128_edited *)
Theorem C128_in_sdat : forall order order' d s s1 d', is_bytes d -> sdat_load order d = Ok s -> made_from s s1 -> sdat_save s1 = Ok d' ->
  exists s', sdat_load order' d' = Ok s' /\ same_entries d' s1 s' /\
  forall depth depth' k n m q q' j n1 m1 evs1 data1 info1, nth_error (dSeqs s) k = Some (n, Some (m, q)) -> sseq_parse depth q = Ok q' -> rearranged (qEvents q') evs1 -> evs1 <> [] ->
    nth_error (dSeqs s1) j = Some (n1, Some (m1, {| qParsed := true; qEvents := evs1; qData := data1; qInfo := info1 |})) ->
    exists m2 q1 pos P, nth_error (dSeqs s') j = Some (n1, Some (m2, q1)) /\ qInfo q1 = info1 /\ SeqSpec.placed pos 0 evs1 P /\ qData q1 = concat (map snd P) /\
      ((forall o, In o (map (fun x => fst (fst x)) P) -> reachable [0] P o) -> forall q2, sseq_parse depth' q1 = Ok q2 -> qEvents q2 = map fst P) /\
      ((length evs1 < depth')%nat -> (exists p, last (map Some evs1) None = Some p /\ is_end (snd p) = true) -> (forall i, ~ In (i, Bare 0xFD) evs1) -> exists q2, sseq_parse depth' q1 = Ok q2).
Proof.
  intros order order' d s s1 d' B H M S. pose proof (made_readable s s1 (loaded_readable order d s B H) M) as R. destruct (sdat_save_inv s1 d' S) as (y & bss & FS & o1 & o2 & o3 & SV).
  destruct (read_back s1 d' y bss FS o1 o2 o3 SV order' R) as (s' & E & RE & C). exists s'. split; [exact E|]. split; [exact C|].
  intros depth depth' k n m q q' j n1 m1 evs1 data1 info1 NK PS RA NE NJ. apply C109_read in H as (_ & V); [|exact B].
  destruct (proj2 (vi_seqs _ _ _ V) k n _ NK) as (_ & _ & _ & _ & _ & _ & L). cbn [snd] in L.
  destruct (seq_one s1 d' y bss FS o1 o2 o3 SV j n1 _ NJ) as (dd & SS & LL & _ & LD). cbn [snd qInfo] in *.
  destruct (proj2 (re_seqs _ _ _ _ RE) j n1 _ NJ) as ([[m2 q1]|] & N' & X); [|destruct X]. destruct X as (f & info & SF & EM & LF). cbn [snd fst] in *. rewrite SS in SF. injection SF as <- <-. rewrite EM, LD in LF. apply ok_inj in LF.
  destruct (C128_edited depth depth' _ _ _ _ evs1 data1 info1 _ _ (is_bytes_slice _ _ _ B) L PS RA NE SS) as (_ & z & pos & P & LZ & IZ & PL & DZ & A1 & A2).
  specialize (LZ []). rewrite sseq_load_bytes in LZ by exact LL. apply ok_inj in LZ. assert (z = q1) as -> by (rewrite <- LZ; exact LF). exists m2, q1, pos, P. repeat match goal with |- _ /\ _ => split end; assumption.
Qed.
Print Assumptions C128_in_sdat.

(** the same for the events of a sequence archive, which the sequences point into *)
Theorem C128_archive_in_sdat : forall order order' d s s1 d', is_bytes d -> sdat_load order d = Ok s -> made_from s s1 -> sdat_save s1 = Ok d' ->
  exists s', sdat_load order' d' = Ok s' /\ same_entries d' s1 s' /\
  forall depth depth' k n m r r' j n1 m1 evs1 data1 seqs1 u1, nth_error (dArchs s) k = Some (n, Some (m, r)) -> ssar_parse depth r = Ok r' -> rearranged (rEvents r') evs1 -> evs1 <> [] ->
    (forall p, In p seqs1 -> aParsed (snd p) = true /\ aFirst (snd p) <> None) ->
    nth_error (dArchs s1) j = Some (n1, Some (m1, {| rParsed := true; rEvents := evs1; rData := data1; rSeqs := seqs1; rUnk := u1 |})) ->
    exists m2 r1 pos P os, nth_error (dArchs s') j = Some (n1, Some (m2, r1)) /\ rUnk r1 = u1 /\ SeqSpec.placed pos 0 evs1 P /\ rData r1 = concat (map snd P) /\
    Forall2 (starts_at pos aOffset) seqs1 (rSeqs r1) /\ Forall2 (fun p o => pos_of pos (aFirst (snd p)) = Some o) seqs1 os /\
    ((forall o, In o (map (fun x => fst (fst x)) P) -> reachable (match os with [] => [0] | _ => os end) P o) -> forall r2, ssar_parse depth' r1 = Ok r2 ->
       rEvents r2 = map fst P /\ rUnk r2 = u1 /\ Forall2 (starts_at pos aFirst) seqs1 (rSeqs r2)) /\
    ((length evs1 < depth')%nat -> (exists p, last (map Some evs1) None = Some p /\ is_end (snd p) = true) -> (forall i, ~ In (i, Bare 0xFD) evs1) -> exists r2, ssar_parse depth' r1 = Ok r2).
Proof.
  intros order order' d s s1 d' B H M S. pose proof (made_readable s s1 (loaded_readable order d s B H) M) as R. destruct (sdat_save_inv s1 d' S) as (y & bss & FS & o1 & o2 & o3 & SV).
  destruct (read_back s1 d' y bss FS o1 o2 o3 SV order' R) as (s' & E & RE & C). exists s'. split; [exact E|]. split; [exact C|].
  intros depth depth' k n m r r' j n1 m1 evs1 data1 seqs1 u1 NK PS RA NE SQ NJ. apply C109_read in H as (_ & V); [|exact B].
  destruct (proj2 (vi_archs _ _ _ V) k n _ NK) as (_ & _ & _ & _ & _ & _ & L). cbn [snd] in L.
  destruct (entry_of s1 d' y bss FS o1 o2 o3 SV _ 1 _ _ _ _ ltac:(lia) (is_arch _ _ _ (sv_spec _ _ _ _ _ _ _ _ SV)) NJ) as (_ & b & (f & u & l & SS & _) & _). cbn [snd fst] in SS.
  destruct (SdatRound.view s1 d' y bss FS o1 o2 o3 SV 1 j f m1 ltac:(eexists n1, _, u, l; split; [exact NJ|exact SS])) as (z & VW).
  destruct (proj2 (re_archs _ _ _ _ RE) j n1 _ NJ) as ([[m2 r1]|] & N' & X); [|destruct X]. destruct X as (f' & u' & l' & SF & EM & LF). cbn [snd fst] in *. rewrite SS in SF. injection SF as <- <- <-.
  destruct (C128_archive depth depth' _ _ _ _ _ evs1 seqs1 data1 u1 _ _ _ (is_bytes_slice _ _ _ B) L PS RA NE SQ SS) as (-> & -> & r3 & pos & P & os & LZ & A).
  rewrite EM, VW in LF. cbn [rSeqs] in LF. rewrite LZ in LF. apply ok_inj in LF. subst r3. exists m2, r1, pos, P, os. split; [exact N'|exact A].
Qed.
Print Assumptions C128_archive_in_sdat.

(** in the archive of C60 the first sequence, a rest of 5 and the end, gets a note and a loop,
    and the two sequences of the sequence archive a common tail *)
Definition ex_tune : list (Z * ev) := [(50, Note 60 100 false 48); (0, Rest 5); (51, Bare 0xA2); (52, Jump (Some 50)); (2, Bare 0xFF)].
Definition ex_effects : list (Z * ev) := [(50, Note 60 100 false 48); (51, Jump (Some 0)); (52, Byte1 0xC1 70); (0, Rest 5); (2, Bare 0xFF)].
Definition ex_starts : list (name * aseq) := [(Some [97; 98], {| aParsed := true; aOffset := None; aFirst := Some 50; aParams := (1, 2, 3, 4, 5) |}); (None, {| aParsed := true; aOffset := None; aFirst := Some 52; aParams := (6, 7, 8, 9, 10) |})].
Definition ex_edit (s : sdat) : sdat :=
  {| dSeqs := upd (dSeqs s) 0 (Some [65], Some (9, {| qParsed := true; qEvents := ex_tune; qData := []; qInfo := (1, 2, 100, 64, 50, 3) |}));
     dArchs := upd (dArchs s) 0 (Some [68], Some (8, {| rParsed := true; rEvents := ex_effects; rData := []; rSeqs := ex_starts; rUnk := 4 |})); dBanks := dBanks s; dWars := dWars s; dPlayers := dPlayers s;
     dGroups := dGroups s; dSPlayers := dSPlayers s; dStrms := dStrms s;
     firstAlign := firstAlign s; fileAlign := fileAlign s; fatPad := fatPad s; padEnd := padEnd s; padSymb := padSymb s |}.
Lemma ex_edit_made s : made_from s (ex_edit s).
Proof.
  constructor.
  - unfold names. cbn [ex_edit dSeqs dArchs dBanks dWars dPlayers dGroups dSPlayers dStrms]. intros n J. rewrite !in_app_iff in *.
    destruct J as [J|[J|J]]; [| |left; tauto].
    + apply in_map_iff in J as (e & <- & J). apply in_upd in J as [J| ->]; [left; left; apply in_map; exact J|right; cbn; intuition discriminate].
    + apply in_flat_map in J as (e & J & Q). apply in_upd in J as [J| ->]; [left; right; left; apply in_flat_map; exists e; split; assumption|]. right. cbn in Q. destruct Q as [<-|[<-|[<-|[]]]]; cbn; intuition discriminate.
  - intros n m b i J M. left. exists n, m, b. split; assumption.
  - intros n l g J G. left. exists n, l. split; assumption.
  - intros n m x J. left. exists n, m. exact J.
Qed.
Example C128_sound_ex : is_bytes SdatProps.ex_file /\ (forall s, made_from s (ex_edit s)) /\ rearranged [(0, Rest 5); (2, Bare 0xFF)] ex_tune /\ rearranged [(0, Rest 5); (2, Bare 0xFF)] ex_effects /\
  (forall p, In p ex_starts -> aParsed (snd p) = true /\ aFirst (snd p) <> None) /\
  match (s <- sdat_load [1; 16; 17] SdatProps.ex_file ;; d' <- sdat_save (ex_edit s) ;; s' <- sdat_load [] d' ;; Ok (s, s')) with Err _ => False | Ok (s, s') =>
    match nth_error (dSeqs s) 0, nth_error (dSeqs s') 0, nth_error (dArchs s) 0, nth_error (dArchs s') 0 with
    | Some (_, Some (_, q)), Some (_, Some (_, q')), Some (_, Some (_, r)), Some (_, Some (_, r')) =>
      match sseq_parse 9 q, sseq_parse 9 q', ssar_parse 9 r, ssar_parse 9 r' with
      | Ok a, Ok a', Ok b, Ok b' => qEvents a = [(0, Rest 5); (2, Bare 0xFF)] /\ qEvents a' = [(0, Note 60 100 false 48); (3, Rest 5); (5, Bare 0xA2); (6, Jump (Some 0)); (10, Bare 0xFF)] /\
          rEvents b = [(0, Rest 5); (2, Bare 0xFF)] /\ rEvents b' = [(0, Note 60 100 false 48); (3, Jump (Some 9)); (7, Byte1 0xC1 70); (9, Rest 5); (11, Bare 0xFF)] /\
          map (fun p => aFirst (snd p)) (rSeqs b') = [Some 0; Some 7]
      | _, _, _, _ => False end
    | _, _, _, _ => False end end.
Proof.
  split; [all_bytes|]. split; [exact ex_edit_made|]. split; [|split; [|split; [|vm_compute; repeat split]]].
  - constructor.
    + cbn [map fst ex_tune]. repeat constructor; cbn [In]; lia.
    + intros p [<-|[<-|[<-|[<-|[<-|[]]]]]]; [right; split; cbn; lia|left; left; reflexivity|right; split; cbn; lia|right; split; cbn; lia|left; right; left; reflexivity].
    + intros p [<-|[<-|[<-|[<-|[<-|[]]]]]]; split; reflexivity.
    + intros p [<-|[<-|[<-|[<-|[<-|[]]]]]] H; try discriminate H. exists 50. split; [reflexivity|]. left. reflexivity.
  - constructor.
    + cbn [map fst ex_effects]. repeat constructor; cbn [In]; lia.
    + intros p [<-|[<-|[<-|[<-|[<-|[]]]]]]; [right; split; cbn; lia|right; split; cbn; lia|right; split; cbn; lia|left; left; reflexivity|left; right; left; reflexivity].
    + intros p [<-|[<-|[<-|[<-|[<-|[]]]]]]; split; reflexivity.
    + intros p [<-|[<-|[<-|[<-|[<-|[]]]]]] H; try discriminate H. exists 0. split; [reflexivity|]. cbn. tauto.
  - intros p [<-|[<-|[]]]; split; [reflexivity|discriminate|reflexivity|discriminate].
Qed.

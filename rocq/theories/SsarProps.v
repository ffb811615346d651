(** * Sequence files and sequence archives *)
From Coq Require Import String.
From Verif Require Import PyBase PyLemmas WaveModel WaveLemmas SeqModel SeqSpec SeqGood SsarModel SsarLemmas.

(** C40: the file made of the header, the DATA block and [d], field by field *)
Theorem C40_sseq_layout : forall d, sseq_bytes d =
  asc "SSEQ" ++ le 2 0xFEFF ++ le 2 0x100 ++ le 4 (0x1C + zlen d) ++ le 2 0x10 ++ le 2 1
  ++ asc "DATA" ++ le 4 (0x0C + zlen d) ++ le 4 0x1C ++ d.
Proof. intros d. unfold sseq_bytes, std_bytes. rewrite <- !app_assoc. reflexivity. Qed.
Print Assumptions C40_sseq_layout.

(** loading it gives the events data [d] whatever follows, and saving gives it back *)
Theorem C40_sseq_preserved : forall d info post, 0x1C + zlen d < 2 ^ 32 ->
  exists s, sseq_load (sseq_bytes d ++ post) info = Ok s /\ sseq_eventsData s = Ok d /\ sseq_events s = Err ValueError /\
            qInfo s = info /\ sseq_save s = Ok (sseq_bytes d, info).
Proof.
  intros d i post L. eexists. split; [apply sseq_load_bytes, L|]. repeat (split; [reflexivity|]).
  exact (sseq_save_eq {| qParsed := false; qEvents := []; qData := d; qInfo := i |} d eq_refl L).
Qed.
Print Assumptions C40_sseq_preserved.

(** whatever was saved, from events or from data, is such a file and loads as the same data *)
Theorem C40_sseq_saved_loads : forall s f info, sseq_save s = Ok (f, info) ->
  exists d, f = sseq_bytes d /\ info = qInfo s /\
    (if qParsed s then exists ns, saveSequenceEvents (qEvents s) [] = Ok (d, ns) else d = qData s) /\
    sseq_load f info = Ok {| qParsed := false; qEvents := []; qData := d; qInfo := info |}.
Proof.
  intros s f i H. apply sseq_save_inv in H as (d & E & L & H). injection H as -> ->. exists d. repeat (split; [reflexivity|]). split.
  - unfold sseq_data in E. destruct (qParsed s); [|congruence]. apply bind_ok in E as ([x ns] & E & H). injection H as <-. exists ns. exact E.
  - rewrite <- (app_nil_r (sseq_bytes d)). apply sseq_load_bytes, L.
Qed.
Print Assumptions C40_sseq_saved_loads.

Theorem C40_sseq_load_errors : forall f info e, sseq_load f info = Err e -> e = ValueError \/ e = StructError.
Proof. exact sseq_load_err. Qed.
Print Assumptions C40_sseq_load_errors.

(** a row of an archive: start offset, bank, volume, two pressures, player *)
Theorem C40_ssar_layout : forall rows d, ssar_bytes rows d =
  asc "SSAR" ++ le 2 0xFEFF ++ le 2 0x100 ++ le 4 (0x20 + 12 * zlen rows + zlen d) ++ le 2 0x10 ++ le 2 1
  ++ asc "DATA" ++ le 4 (0x10 + 12 * zlen rows + zlen d) ++ le 4 (0x20 + 12 * zlen rows) ++ le 4 (zlen rows)
  ++ concat (map (fun r : Z * seqParams => let '(o, (bank, vol, cp, pp, pl)) := r in
       le 4 (o mod 2 ^ 32) ++ le 2 bank ++ le 1 vol ++ le 1 cp ++ le 1 pp ++ le 1 pl ++ [0; 0]) rows) ++ d.
Proof. intros rows d. unfold ssar_bytes, std_bytes. rewrite <- !app_assoc. reflexivity. Qed.
Print Assumptions C40_ssar_layout.

Theorem C40_ssar_preserved : forall names rows d unk02 post, length names = length rows ->
  Forall (fun r => i32 (fst r) /\ params_ok (snd r)) rows -> 0x20 + 12 * zlen rows + zlen d < 2 ^ 32 ->
  exists r, ssar_load (ssar_bytes rows d ++ post) unk02 names = Ok r /\
    rParsed r = false /\ rData r = d /\ rUnk r = unk02 /\
    rSeqs r = map (fun p => (fst p, aseq_unparsed (Some (fst (snd p))) (snd (snd p)))) (combine names rows) /\
    ssar_save r = Ok (ssar_bytes rows d, unk02, names).
Proof. exact ssar_preserved. Qed.
Print Assumptions C40_ssar_preserved.

(** whatever was saved, parsed or not, is such a file, with the parameters of the
    sequences, and loads whatever follows *)
Theorem C40_ssar_saved_loads : forall r f u l post, ssar_save r = Ok (f, u, l) -> u = rUnk r /\ l = map fst (rSeqs r) /\
  exists r', ssar_load (f ++ post) u l = Ok r' /\ rParsed r' = false /\ (rParsed r = false -> rData r' = rData r) /\
    map (fun p => aParams (snd p)) (rSeqs r') = map (fun p => aParams (snd p)) (rSeqs r) /\ ssar_save r' = Ok (f, u, l).
Proof. exact ssar_saved_loads. Qed.
Print Assumptions C40_ssar_saved_loads.

Theorem C40_ssar_load_errors : forall f unk02 names e, ssar_load f unk02 names = Err e ->
  e = ValueError \/ e = StructError \/ e = AssertionError.
Proof. intros f u n e H. pose proof (ssar_load_err f u n) as R. rewrite H in R. exact R. Qed.
Print Assumptions C40_ssar_load_errors.

Example C40_ex :
  (exists f, sseq_save {| qParsed := false; qEvents := []; qData := [0x80; 5; 0xFF]; qInfo := (1, 2, 3, 4, 5, 6) |} = Ok (f, (1, 2, 3, 4, 5, 6)) /\
     zlen f = 31) /\
  sseq_load (asc "SSAR" ++ zeros 60) (0, 0, 0, 0, 0, 0) = Err ValueError /\ sseq_load (asc "SSEQ") (0, 0, 0, 0, 0, 0) = Err StructError /\
  i32 (-1) /\ params_ok (700, 127, 64, 50, 3) /\
  (exists r, ssar_load (ssar_bytes [(0, (700, 127, 64, 50, 3)); (-1, (0, 0, 0, 0, 0))] [0x80; 5; 0xFF]) 9 [Some [65]; None] = Ok r /\
     map (fun p => aOffset (snd p)) (rSeqs r) = [Some 0; None] /\ map fst (rSeqs r) = [Some [65]; None] /\ rData r = [0x80; 5; 0xFF]).
Proof.
  split; [eexists; split; vm_compute; reflexivity|]. split; [vm_compute; reflexivity|]. split; [vm_compute; reflexivity|].
  split; [unfold i32; lia|]. split; [unfold params_ok; lia|]. eexists. split; [vm_compute; reflexivity|]. repeat split.
Qed.

(** C41: "after parse succeeds, save succeeds" is false of archives with an empty
    sequence slot (offset -1) ... *)
Theorem C41_empty_slot_refuted : exists r r', ssar_load (ssar_bytes [(0, (0, 0, 0, 0, 0)); (-1, (0, 0, 0, 0, 0))] [0xFF]) 0 [None; None] = Ok r /\
  ssar_parse 100 r = Ok r' /\ ssar_save r' = Err ValueError.
Proof. eexists. eexists. split; [vm_compute; reflexivity|]. split; [vm_compute; reflexivity|]. vm_compute. reflexivity. Qed.
Print Assumptions C41_empty_slot_refuted.
(** ... and of events that overlap: the second track starts inside a rest *)
Theorem C41_overlap_refuted : exists r r', ssar_load (ssar_bytes [(0, (0, 0, 0, 0, 0))] [0x93; 1; 6; 0; 0; 0x80; 0x7F; 0x80; 5; 0xFF]) 0 [None] = Ok r /\
  ssar_parse 100 r = Ok r' /\ ssar_save r' = Err KeyError.
Proof. eexists. eexists. split; [vm_compute; reflexivity|]. split; [vm_compute; reflexivity|]. vm_compute. reflexivity. Qed.
Print Assumptions C41_overlap_refuted.

(** What holds: the parsed archive can be saved exactly when every sequence has a
    start offset and every start and every referenced event is in the list of
    events; then the file has the same table and names (and so the same start
    offsets and parameters) as before.  The 13 allows for the padding up to an
    event that ran over the end of the data. *)
Theorem C41_savable_partial : forall names rows d unk02 post depth r r', length names = length rows ->
  Forall (fun r => i32 (fst r) /\ params_ok (snd r)) rows -> 0x20 + 12 * zlen rows + zlen d + 13 < 2 ^ 32 -> is_bytes d ->
  ssar_load (ssar_bytes rows d ++ post) unk02 names = Ok r -> ssar_parse depth r = Ok r' ->
  let savable := (forall o, In o (map fst rows) -> o <> -1 /\ In o (map fst (rEvents r'))) /\
                 (forall p o, In p (rEvents r') -> ev_ref (snd p) = Some o -> In o (map fst (rEvents r'))) in
  (savable -> exists d', ssar_save r' = Ok (ssar_bytes rows d', unk02, names) /\ zlen d' <= zlen d + 13 /\
     exists r2, ssar_load (ssar_bytes rows d') unk02 names = Ok r2 /\ rSeqs r2 = rSeqs r) /\
  ((exists out, ssar_save r' = Ok out) -> savable).
Proof. exact ssar_parsed. Qed.
Print Assumptions C41_savable_partial.

(** a single sequence *)
Theorem C41_sseq_savable_partial : forall depth d info s', is_bytes d -> 0x1C + zlen d + 13 < 2 ^ 32 ->
  sseq_parse depth {| qParsed := false; qEvents := []; qData := d; qInfo := info |} = Ok s' ->
  let savable := forall p o, In p (qEvents s') -> ev_ref (snd p) = Some o -> In o (map fst (qEvents s')) in
  (savable -> exists d', sseq_save s' = Ok (sseq_bytes d', info) /\ zlen d' <= zlen d + 13) /\
  ((exists out, sseq_save s' = Ok out) -> savable).
Proof.
  intros depth d i s' B L H. destruct (sseq_parse_save depth d i s' B L H) as [S1 S2]. split.
  - intros C. apply S1. split; [intros ? []|exact C].
  - intros [out S]. apply (S2 _ S).
Qed.
Print Assumptions C41_sseq_savable_partial.

(** parsing starts from the offsets of the sequences that have events; None and -1
    both stand for a sequence without events *)
Theorem C41_parse_starts : forall depth r r', rParsed r = false -> ssar_parse depth r = Ok r' ->
  exists starts ns, readSequenceEvents depth (rData r) starts = Ok (rEvents r', ns) /\
    map (fun o => if in_dec Z.eq_dec o starts then Some o else None)
      (flat_map (fun p => match aOffset (snd p) with Some o => [o] | None => [] end) (rSeqs r)) =
    map (fun o => if o =? -1 then None else Some o)
      (flat_map (fun p => match aOffset (snd p) with Some o => [o] | None => [] end) (rSeqs r)) /\
    incl starts (flat_map (fun p => match aOffset (snd p) with Some o => [o] | None => [] end) (rSeqs r)).
Proof. exact ssar_parse_starts. Qed.
Print Assumptions C41_parse_starts.
(** parsing again changes nothing *)
Theorem C41_parse_twice : forall depth depth' r r', ssar_parse depth r = Ok r' -> ssar_parse depth' r' = Ok r'.
Proof. exact ssar_parse_twice. Qed.
Print Assumptions C41_parse_twice.
Theorem C41_sseq_parse_twice : forall depth depth' s s', sseq_parse depth s = Ok s' -> sseq_parse depth' s' = Ok s'.
Proof. exact sseq_parse_twice. Qed.
Print Assumptions C41_sseq_parse_twice.
Example C41_starts_ex : exists r r', ssar_load (ssar_bytes [(0, (0, 0, 0, 0, 0)); (-1, (0, 0, 0, 0, 0)); (2, (0, 0, 0, 0, 0))] [0x80; 5; 0xFF]) 0 [] = Ok r /\
  rParsed r = false /\ ssar_parse 100 r = Ok r' /\ rEvents r' = [(0, Rest 5); (2, Bare 0xFF)] /\
  map (fun p => aOffset (snd p)) (rSeqs r) = [Some 0; None; Some 2].
Proof. eexists. eexists. split; [vm_compute; reflexivity|]. split; [reflexivity|]. split; [vm_compute; reflexivity|]. split; reflexivity. Qed.

Example C41_ex : exists r r', ssar_load (ssar_bytes [(0, (1, 2, 3, 4, 5)); (6, (0, 0, 0, 0, 0)); (0, (9, 9, 9, 9, 9))] [0x80; 5; 0x94; 0; 0; 0; 60; 100; 7; 0xFF]) 0 [None; Some [65]; None] = Ok r /\
  ssar_parse 100 r = Ok r' /\ map fst (rEvents r') = [0; 2; 6; 9] /\
  (forall o, In o [0; 6; 0] -> o <> -1 /\ In o (map fst (rEvents r'))) /\
  (forall p o, In p (rEvents r') -> ev_ref (snd p) = Some o -> In o (map fst (rEvents r'))).
Proof.
  eexists. eexists. split; [vm_compute; reflexivity|]. split; [vm_compute; reflexivity|]. cbn [rEvents map fst]. split; [reflexivity|]. split.
  - intros o [<-|[<-|[<-|[]]]]; (split; [discriminate|vm_compute; tauto]).
  - intros p o [<-|[<-|[<-|[<-|[]]]]]; vm_compute; intros [= <-]; tauto.
Qed.
Example C41_sseq_ex : exists s', sseq_parse 100 {| qParsed := false; qEvents := []; qData := [0x80; 5; 0xFF]; qInfo := (0, 0, 0, 0, 0, 0) |} = Ok s' /\
  qEvents s' = [(0, Rest 5); (2, Bare 0xFF)] /\ exists f, sseq_save s' = Ok (f, (0, 0, 0, 0, 0, 0)) /\ f = sseq_bytes [0x80; 5; 0xFF].
Proof. eexists. split; [vm_compute; reflexivity|]. split; [reflexivity|]. eexists. split; vm_compute; reflexivity. Qed.

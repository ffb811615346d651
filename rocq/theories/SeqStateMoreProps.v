(** * C98, continued: what parsing an archive reports *)
From Coq Require Import String.
From Verif Require Import PyBase PyLemmas WaveModel SeqModel SeqProps SsarModel SsarLemmas SeqStateModel.

(** an archive whose events cannot be read reports that, and nothing changes; one with a
    sequence that has been given a first event before reports a ValueError *)
Theorem C98_ssar_parse_fails : forall depth r ops, rParsed r = false ->
  (forall k, Forall (fun p => aParsed (snd p) = false) (rSeqs r) ->
    readSequenceEvents depth (rData r) (flat_map (fun p => match aOffset (snd p) with Some o => if o =? -1 then [] else [o] | None => [] end) (rSeqs r)) = Err k ->
    rrun depth r (RParse :: ops) = Err k :: rrun depth r ops) /\
  (Exists (fun p => aParsed (snd p) = true) (rSeqs r) -> rrun depth r (RParse :: ops) = Err ValueError :: rrun depth r ops).
Proof.
  intros depth r ops P. split.
  - intros k F R. cbn [rrun rstep]. unfold ssar_parse. rewrite P.
    assert (O : startOffs (rSeqs r) = Ok (flat_map (fun p => match aOffset (snd p) with Some o => if o =? -1 then [] else [o] | None => [] end) (rSeqs r))).
    { clear - F. unfold startOffs. induction F as [|p l A F IH]; [reflexivity|]. cbn [mapM]. unfold aseq_firstEventOffset at 1. rewrite A. cbn [bind]. destruct (mapM _ l) as [x|]; [|discriminate IH]. cbn [bind] in IH |- *. apply SeqRead.ok_inj in IH. cbn [flat_map]. rewrite IH. apply (f_equal Ok). f_equal. unfold usable. destruct (aOffset (snd p)) as [o|]; [|reflexivity]. destruct (o =? -1); reflexivity. }
    rewrite O. cbn [bind]. rewrite R. reflexivity.
  - intro E. cbn [rrun rstep]. unfold ssar_parse. rewrite P. assert (O : startOffs (rSeqs r) = Err ValueError).
    { clear - E. unfold startOffs. replace (mapM _ _) with (@Err (list (option Z)) ValueError); [reflexivity|]. symmetry. induction E as [p l A|p l E IH]; cbn [mapM]; unfold aseq_firstEventOffset at 1; [rewrite A; reflexivity|]. destruct (aParsed (snd p)); [reflexivity|]. cbn [bind]. rewrite IH. reflexivity. }
    rewrite O. reflexivity.
Qed.
Print Assumptions C98_ssar_parse_fails.
Definition unread (d : bytes) (s : aseq) : ssar := {| rParsed := false; rEvents := []; rData := d; rSeqs := [(None, s)]; rUnk := 0 |}.
Example C98_ssar_parse_fails_ex : readSequenceEvents 10 [0x80; 5] [0] = Err EOFError /\ rrun 10 (unread [0x80; 5] (aseq_unparsed (Some 0) (0, 0, 0, 0, 0))) [RParse; RParsed] = [Err EOFError; Ok (SBool false)] /\
  rrun 10 (unread [0xFF] (aseq_parsed (Some 0) (0, 0, 0, 0, 0))) [RParse; RParsed] = [Err ValueError; Ok (SBool false)].
Proof. repeat split; vm_compute; reflexivity. Qed.

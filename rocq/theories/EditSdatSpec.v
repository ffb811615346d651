(** * Changing sound archives read from arbitrary files (for C120) *)
From Verif Require Import PyBase WaveModel SeqModel SsarModel SbnkModel SdatModel SbnkSpec SbnkProps SdatSpec.

(** the archive [s1] is made of what is in [s] and of new things: whatever is exchanged,
    added, removed, renamed or moved, new names have no NULs, new instruments can be
    expressed in a file, new group entries have one of the four types, and new streams
    eight unknown values *)
Record made_from (s s1 : sdat) : Prop := {
  mf_names : forall n, In n (names s1) -> In n (names s) \/ nul_free n;
  mf_banks : forall n m b i, In (n, Some (m, b)) (dBanks s1) -> member b i ->
    (exists n' m' b', In (n', Some (m', b')) (dBanks s) /\ member b' i) \/ expressible (iBody i);
  mf_groups : forall n l g, In (n, Some l) (dGroups s1) -> In g l -> (exists n' l', In (n', Some l') (dGroups s) /\ In g l') \/ 0 <= gType g < 4;
  mf_strms : forall n m x, In (n, Some (m, x)) (dStrms s1) -> (exists n' m', In (n', Some (m', x)) (dStrms s)) \/ zlen (sUnks x) = 8
}.

(** the archive [s'] read from [d] has, entry by entry, the names and contents of [s]; the
    merge IDs are the numbers of the files *)
Record same_entries (d : bytes) (s s' : sdat) : Prop := {
  se_seqs : reloads (fun j x y => fst y = file_id d 0 j /\ qParsed (snd y) = false /\ qInfo (snd y) = qInfo (snd x) /\
                       (qParsed (snd x) = false -> qData (snd y) = qData (snd x)) /\ sseq_save (snd y) = sseq_save (snd x)) (dSeqs s) (dSeqs s');
  se_archs : reloads (fun j x y => fst y = file_id d 1 j /\ rParsed (snd y) = false /\ map fst (rSeqs (snd y)) = map fst (rSeqs (snd x)) /\
                       map (fun p => aParams (snd p)) (rSeqs (snd y)) = map (fun p => aParams (snd p)) (rSeqs (snd x)) /\
                       (rParsed (snd x) = false -> rData (snd y) = rData (snd x)) /\ ssar_save (snd y) = ssar_save (snd x)) (dArchs s) (dArchs s');
  se_banks : reloads (fun j x y => fst y = file_id d 2 j /\ map (option_map iBody) (bInsts (snd y)) = map (option_map iBody) (bInsts (snd x)) /\
                       bUnk (snd y) = bUnk (snd x) /\ bWars (snd y) = strip_none (four_ids (bWars (snd x)))) (dBanks s) (dBanks s');
  se_wars : reloads (fun j x y => y = (file_id d 3 j, snd x)) (dWars s) (dWars s');
  se_players : reloads (fun _ x y => let '(a, c, h) := x in exists c', y = (a, c', h) /\ forall i, In i c' <-> In i c /\ 0 <= i < 16) (dPlayers s) (dPlayers s');
  se_groups : reloads (fun _ x y => y = x) (dGroups s) (dGroups s');
  se_splayers : reloads (fun _ x y => y = x) (dSPlayers s) (dSPlayers s');
  se_strms : reloads (fun j x y => y = (file_id d 7 j, snd x)) (dStrms s) (dStrms s')
}.

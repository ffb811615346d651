(** * Model of the minification functions of ndspy/extras/music.py

    The instruments of the bank and their note definitions are taken to be
    distinct objects (SBNK() and the constructors make them so), so that changing
    one changes nothing else; after minification a range instrument holds its
    first definition several times, which here is a list with equal entries.  The
    events are named objects, as in MusicModel.  A wave archive is its list of
    waves.  The order in which equal keys of the set [usedWaves] would be sorted is
    taken to be that of insertion (keys are equal only for wave numbers of 99999999
    and more).  The state after an exception is not modelled. *)
From Verif Require Import PyBase SeqModel SsarModel SbnkModel MusicModel.

(** what the first loop (music.py:82-93) knows: currentInstrument, and
    playedNotes, whose keys are the members of usedInsts *)
Definition played := (option Z * list (Z * list Z))%type.
Definition note_step (st : played) (e : ev) : played :=
  let (current, d) := st in
  match e with
  | Instr _ i => (Some i, match lookup i d with Some _ => d | None => dict_set d i [] end)
  | Note p _ _ _ =>
    (current, match current with
              | Some i => match lookup i d with Some ps => dict_set d i (add_z p ps) | None => d end
              | None => d
              end)
  | _ => st
  end.
Definition playedNotes (events : evs) : list (Z * list Z) :=
  snd (fold_left (fun st p => note_step st (snd p)) events (None, [])).
(** [l.index(x)] *)
Fixpoint index_by {A} (eq : A -> A -> bool) (l : list A) (x : A) (i : Z) : res Z :=
  match l with
  | [] => Err ValueError
  | y :: r => if eq y x then Ok i else index_by eq r x (i + 1)
  end.
(** the loop over the events at music.py:97-99 *)
Definition renumber_events (used : list Z) (events : evs) : res evs :=
  foldM (fun l n =>
           match lookup n l with
           | Some (Instr b i) => j <- index_by Z.eqb used i 0 ;; Ok (assign n (Instr b j) l)
           | _ => Ok l
           end) events (map fst events).

(** a member of usedWaves: (waveArchiveIDID, waveID) *)
Definition wave := (Z * Z)%type.
Definition wave_eqb (a b : wave) : bool := (fst a =? fst b) && (snd a =? snd b).
Definition wave_in (w : wave) (l : list wave) : bool := existsb (wave_eqb w) l.
Definition add_wave (w : wave) (l : list wave) : list wave := if wave_in w l then l else l ++ [w].
Definition wave_of (n : note) : wave := (nArch n, nWave n).
(** the loop over the definitions of a range instrument (music.py:110-115) *)
Fixpoint range_waves (noteNum : Z) (ns : list note) (notes : list Z) (used : list wave) : list wave :=
  match ns with
  | [] => used
  | d :: r => range_waves (noteNum + 1) r notes (if inb noteNum notes then add_wave (wave_of d) used else used)
  end.
(** the loop over the regions (music.py:117-128) *)
Fixpoint region_waves (low : Z) (rs : list (Z * note)) (notes : list Z) (used : list wave) : list wave :=
  match rs with
  | [] => used
  | (lastPitch, d) :: r =>
    if existsb (fun i => inb i notes) (range_z low (Z.to_nat (lastPitch + 1 - low)))
    then region_waves (lastPitch + 1) r notes (add_wave (wave_of d) used)
    else region_waves low r notes used
  end.
(** one turn of the loop at music.py:106-128 *)
Definition inst_waves (used : list wave) (p : option inst * list Z) : list wave :=
  match fst p with
  | None => used
  | Some i =>
    match iBody i with
    | Single n => add_wave (wave_of n) used
    | Ranged first ns => range_waves first ns (snd p) used
    | Regional rs => region_waves 0 rs (snd p) used
    end
  end.
(** music.py:105-129 *)
Definition used_waves (insts : list (option inst)) (notes : list (list Z)) : list wave :=
  sort_by (fun w => fst w * 99999999 + snd w) (fold_left inst_waves (combine insts notes) []).

(** the loop over the wave archives (music.py:131-136) *)
Definition keep_waves {W} (used : list wave) (swars : list (list W)) : res (list (list W)) :=
  mapM (fun p => mapM (fun w => get (snd p) (snd w)) (filter (fun w => fst p =? fst w) used))
    (enumerate_from 0 swars).

(** [d.waveID = ...] *)
Definition with_wave (n : note) (w : Z) : note :=
  {| nWave := w; nArch := nArch n; nPitch := nPitch n; nAttack := nAttack n; nDecay := nDecay n;
     nSustain := nSustain n; nRelease := nRelease n; nPan := nPan n; nType := nType n |}.
Definition renumber_note (used : list wave) (n : note) : res note :=
  i <- index_by wave_eqb used (wave_of n) 0 ;; Ok (with_wave n i).
(** the last region's [lastPitch = 127] (music.py:162-163) *)
Fixpoint open_last (rs : list (Z * note)) : list (Z * note) :=
  match rs with
  | [] => []
  | [(_, n)] => [(127, n)]
  | r :: rs' => r :: open_last rs'
  end.
(** one turn of the loop at music.py:138-163.  In a range instrument the unused
    definitions become the first one, as it is at the end: with its new number if
    its wave is used. *)
Definition renumber_body (used : list wave) (b : ibody) : res ibody :=
  match b with
  | Single n => n' <- renumber_note used n ;; Ok (Single n')
  | Ranged first ns =>
    d0 <- get ns 0 ;;
    dummy <- (if wave_in (wave_of d0) used then renumber_note used d0 else Ok d0) ;;
    ns' <- mapM (fun d => if wave_in (wave_of d) used then renumber_note used d else Ok dummy) ns ;;
    Ok (Ranged first ns')
  | Regional rs =>
    rs' <- mapM (fun r : Z * note => d <- renumber_note used (snd r) ;; Ok (fst r, d))
             (filter (fun r => wave_in (wave_of (snd r)) used) rs) ;;
    Ok (Regional (open_last rs'))
  end.
Definition renumber_inst (used : list wave) (i : option inst) : res (option inst) :=
  match i with
  | None => Ok None
  | Some x => b <- renumber_body used (iBody x) ;; Ok (Some {| iBody := b; iKey := iKey x; iMerge := iMerge x |})
  end.

(** minifyByEvents (music.py:13-163); [swars] is [None] or the list of archives *)
Definition minifyByEvents {W} (events : evs) (b : sbnk) (swars : option (list (list W))) : res (evs * sbnk * list (list W)) :=
  let notes := playedNotes events in
  let used := sort_by (fun x => x) (map fst notes) in
  insts <- mapM (get (bInsts b)) used ;;
  let perInst := map (fun i => match lookup i notes with Some ps => ps | None => [] end) used in
  events' <- renumber_events used events ;;
  let waves := used_waves insts perInst in
  match swars with
  | None => Err TypeError
  | Some s =>
    s' <- keep_waves waves s ;;
    insts' <- mapM (renumber_inst waves) insts ;;
    Ok (events', {| bInsts := insts'; bInacc := []; bUnk := bUnk b; bWars := bWars b |}, s')
  end.
(** minifyBySseq (music.py:166-176) is minifyByEvents on sseq.events.
    minifyBySseqs (music.py:179-191) of parsed sequences, and SSEQMusic.minify
    (music.py:731-748) with a bank: the events of all sequences or tracks in a row *)
Definition minifyTracks {W} (t : tracks) (b : sbnk) (swars : option (list (list W))) : res (tracks * sbnk * list (list W)) :=
  ' (events', b', s') <- minifyByEvents (concat (map snd t)) b swars ;;
  Ok (map (fun x => (fst x, refresh events' (snd x))) t, b', s').
(** SSEQMusic.minify (music.py:731-748) *)
Definition music_minify {W} (t : tracks) (b : option sbnk) (swars : option (list (list W))) :=
  match b with
  | None => Ok (t, None, swars)
  | Some b => ' (t', b', s') <- minifyTracks t b swars ;; Ok (t', Some b', Some s')
  end.

(** * Model of ndspy/soundBank.py

    fromFile and saveToFile are in FilesModel, __str__ and __repr__ in ReprModel.  Not
    modelled: the abstract Instrument.fromData.  The [type] of
    a range or regional instrument is the constant its constructor stores (a user
    could overwrite the attribute).  A NoteType is the integer it stands for
    (NoteType is an IntEnum, so it compares and packs as that integer). *)
From Coq Require Import String.
From Verif Require Import PyBase WaveModel.

(** ** NoteDefinition (soundBank.py:47-108) *)
Record note := { nWave : Z; nArch : Z; nPitch : Z; nAttack : Z; nDecay : Z; nSustain : Z; nRelease : Z; nPan : Z; nType : Z }.
(** struct '<HH6B' at [off] (soundBank.py:80), and the constructor *)
Definition note_read (data : bytes) (off type : Z) : res note :=
  wave <- unpack_u 2 data off ;;
  arch <- unpack_u 2 data (off + 2) ;;
  pitch <- unpack_u 1 data (off + 4) ;;
  attack <- unpack_u 1 data (off + 5) ;;
  decay <- unpack_u 1 data (off + 6) ;;
  sustain <- unpack_u 1 data (off + 7) ;;
  release <- unpack_u 1 data (off + 8) ;;
  pan <- unpack_u 1 data (off + 9) ;;
  Ok {| nWave := wave; nArch := arch; nPitch := pitch; nAttack := attack; nDecay := decay;
        nSustain := sustain; nRelease := release; nPan := pan; nType := type |}.
(** fromData (soundBank.py:75-80) *)
Definition note_fromData (data : bytes) (type : Z) : res note := note_read data 0 type.
(** fromDataWithType (soundBank.py:84-90) *)
Definition note_fromDataWithType (data : bytes) : res note :=
  type <- unpack_u 2 data 0 ;; note_read data 2 type.
(** save (soundBank.py:93-100) and saveWithType (soundBank.py:103-108) *)
Definition note_save (n : note) : res bytes :=
  pack_us [(2%nat, nWave n); (2%nat, nArch n); (1%nat, nPitch n); (1%nat, nAttack n); (1%nat, nDecay n);
           (1%nat, nSustain n); (1%nat, nRelease n); (1%nat, nPan n)].
Definition note_saveWithType (n : note) : res bytes :=
  t <- pack_u 2 (nType n) ;; d <- note_save n ;; Ok (t ++ d).

(** ** Instruments (soundBank.py:141-359) *)
Inductive ibody : Type :=
| Single (n : note)
| Ranged (firstPitch : Z) (ns : list note)
| Regional (regions : list (Z * note)).   (* lastPitch, noteDefinition *)
(** [iKey] is bankOrderKey, [iMerge] is dataMergeOptimizationID *)
Record inst := { iBody : ibody; iKey : Z; iMerge : Z }.
Definition body_type (b : ibody) : Z := match b with Single n => nType n | Ranged _ _ => 16 | Regional _ => 17 end.
Definition itype (i : inst) : Z := body_type (iBody i).

(** SingleNoteInstrument.fromData (soundBank.py:200-208) *)
Definition single_fromData (type : Z) (data : bytes) (start : Z) : res (ibody * Z) :=
  n <- note_fromData (slice data start (start + 10)) type ;; Ok (Single n, 10).
(** RangeInstrument.fromData (soundBank.py:239-255) *)
Definition range_fromData (data : bytes) (start : Z) : res (ibody * Z) :=
  firstPitch <- unpack_u 1 data start ;;
  lastPitch <- unpack_u 1 data (start + 1) ;;
  ns <- mapM (fun i => let off := start + 2 + 0xC * i in note_fromDataWithType (slice data off (off + 0xC)))
          (range_z 0 (Z.to_nat (lastPitch - firstPitch + 1))) ;;
  Ok (Ranged firstPitch ns, 2 + 0xC * zlen ns).
(** the loop of RegionalInstrument.fromData (soundBank.py:332-339); [k] regions
    have been read *)
Fixpoint regions_loop (data : bytes) (start k : Z) (ends : bytes) : res (list (Z * note)) :=
  match ends with
  | [] => Ok []
  | e :: r =>
      if (e =? 0) && negb (k =? 0) then Ok []
      else
        let off := start + 8 + 0xC * k in
        n <- note_fromDataWithType (slice data off (off + 0xC)) ;;
        rest <- regions_loop data start (k + 1) r ;;
        Ok ((e, n) :: rest)
  end.
(** RegionalInstrument.fromData (soundBank.py:324-341) *)
Definition regional_fromData (data : bytes) (start : Z) : res (ibody * Z) :=
  ends <- rd data start 8 ;;
  rs <- regions_loop data start 0 ends ;;
  Ok (Regional rs, 8 + 0xC * zlen rs).

(** SingleNoteInstrument.save (soundBank.py:211-216), RangeInstrument.save
    (soundBank.py:258-272): the note definitions are twelve bytes each and fill the
    rest of the bytearray *)
Definition range_save (firstPitch : Z) (ns : list note) : res bytes :=
  h <- pack_us [(1%nat, firstPitch); (1%nat, firstPitch + zlen ns - 1)] ;;
  ds <- mapM note_saveWithType ns ;;
  Ok (h ++ concat ds).
(** RegionalInstrument.save (soundBank.py:344-359): region [i] sets byte [i]
    (ValueError unless it is in range(256)), then its twelve bytes *)
Definition regional_save (rs : list (Z * note)) : res bytes :=
  _ <- guard (zlen rs <=? 8) ValueError ;;
  ds <- mapM (fun r : Z * note => _ <- guard (byteb (fst r)) ValueError ;; note_saveWithType (snd r)) rs ;;
  Ok (map fst rs ++ zeros (8 - zlen rs) ++ concat ds).
Definition body_save (b : ibody) : res (Z * bytes) :=
  d <- match b with Single n => note_save n | Ranged f ns => range_save f ns | Regional rs => regional_save rs end ;;
  Ok (body_type b, d).

(** makeInstrumentAt (soundBank.py:585-594) with instrumentClass
    (soundBank.py:382-396), without the bookkeeping; the second component is
    consumedBytesHere *)
Definition makeInstrumentAt (data : bytes) (type offset : Z) : res (option inst * Z) :=
  if type =? 0 then Ok (None, 0)
  else
    ' (b, n) <- (if type <? 16 then single_fromData type data offset
                 else if type =? 16 then range_fromData data offset
                 else if type =? 17 then regional_fromData data offset
                 else Err ValueError) ;;
    Ok (Some {| iBody := b; iKey := offset; iMerge := offset |}, n).

(** ** guessInstrumentType (soundBank.py:399-511) *)

(** sets of types are lists without duplicates; [list(s)[0]] is the first member of
    [s] in the list [order], which stands for CPython's unspecified iteration order
    of a set *)
Definition inb (x : Z) (l : list Z) : bool := existsb (Z.eqb x) l.
Definition remove_z (x : Z) (l : list Z) : list Z := filter (fun y => negb (y =? x)) l.
Definition add_z (x : Z) (l : list Z) : list Z := if inb x l then l else x :: l.
Definition early (order possible : list Z) : option Z := find (fun t => inb t possible) order.
Definition few (l : list Z) : bool := zlen l <? 2.
(** the check of the region ends (soundBank.py:484-497): [true] when the loop ends without break *)
Fixpoint ends_ok (previous : Z) (ends : bytes) : bool :=
  match ends with
  | [] => true
  | e :: r => if negb (previous =? 0) && (e =? 0) then ends_ok 0 r
              else if (previous =? 0) && negb (e =? 0) then false
              else if negb (previous =? 0) then (if e <=? previous then false else ends_ok e r)
              else ends_ok previous r
  end.
(** regionCount (soundBank.py:500-503) *)
Fixpoint count_nonzero (ends : bytes) : Z :=
  match ends with [] => 0 | e :: r => if e =? 0 then 0 else 1 + count_nonzero r end.

(** soundBank.py:478-511 *)
Definition guess_regional (order : list Z) (data : bytes) (start avail : Z) (p : list Z) : option Z :=
  if inb 17 p then
    let ends := slice data start (start + 8) in
    if ends_ok (-1) ends then
      if 8 + 0xC * count_nonzero ends >? avail then early order (remove_z 17 p) else early order p
    else early order (remove_z 17 p)
  else early order p.
(** soundBank.py:468-476 *)
Definition guess_range (order : list Z) (data : bytes) (start avail : Z) (p : list Z) : res (option Z) :=
  p' <- (if inb 16 p then
           match slice data start (start + 2) with
           | [firstPitch; lastPitch] =>
               Ok (if firstPitch >? lastPitch then remove_z 16 p
                   else if 2 + 0xC * (lastPitch - firstPitch + 1) >? avail then remove_z 16 p else p)
           | _ => Err ValueError
           end
         else Ok p) ;;
  if few p' then Ok (early order p') else Ok (guess_regional order data start avail p').
(** soundBank.py:455-466 *)
Definition guess_single (order : list Z) (data : bytes) (start avail : Z) (p : list Z) : res (option Z) :=
  if inb 1 p then
    b1 <- get data (start + 1) ;;
    b3 <- get data (start + 3) ;;
    b4 <- get data (start + 4) ;;
    let p' := if (b1 >=? 10) || (b3 >=? 10) || (b4 =? 0) then remove_z 1 p else p in
    if b4 =? 0x3C then Ok (Some 1)
    else if few p' then Ok (early order p') else guess_range order data start avail p'
  else if few p then Ok (early order p) else guess_range order data start avail p.
Definition guessInstrumentType (order : list Z) (data : bytes) (start : Z) (possible : list Z) (avail : Z) : res (option Z) :=
  let p := if inb 2 possible then add_z 1 (remove_z 2 possible) else possible in
  let p := if inb 3 p then add_z 1 (remove_z 3 p) else p in
  if few p then Ok (early order p) else
  let p := if avail <? 10 then remove_z 0 p else p in
  let p := if avail <? 2 + 0xC then remove_z 16 p else p in
  let p := if avail <? 8 + 0xC then remove_z 17 p else p in
  if few p then Ok (early order p) else guess_single order data start avail p.

(** ** SBNK *)

(** [bInacc] is the dict inaccessibleInstruments in insertion order; [bWars] is
    waveArchiveIDs *)
Record sbnk := { bInsts : list (option inst); bInacc : list (option Z * list inst); bUnk : Z; bWars : list (option Z) }.

(** the loop at soundBank.py:533-534 *)
Fixpoint strip_none (l : list (option Z)) : list (option Z) :=
  match l with
  | [] => []
  | x :: r => match strip_none r, x with [], None => [] | r', _ => x :: r' end
  end.
(** fromInstruments (soundBank.py:548-554) *)
Definition sbnk_fromInstruments (insts : list (option inst)) (unk : Z) (wars : option (list (option Z))) : sbnk :=
  {| bInsts := insts; bInacc := []; bUnk := unk; bWars := match wars with Some l => strip_none l | None => [] end |}.

Definition oeqb (a b : option Z) : bool :=
  match a, b with Some x, Some y => x =? y | None, None => true | _, _ => false end.
Definition assoc {A} (k : option Z) (l : list (option Z * A)) : option A :=
  match find (fun p => oeqb (fst p) k) l with Some p => Some (snd p) | None => None end.
(** [if k not in d: d[k] = []; d[k].append(v)] (soundBank.py:692-694) *)
Fixpoint push {A} (k : option Z) (v : A) (l : list (option Z * list A)) : list (option Z * list A) :=
  match l with
  | [] => [(k, [v])]
  | (k', vs) :: r => if oeqb k' k then (k', vs ++ [v]) :: r else (k', vs) :: push k v r
  end.

(** the set unconsumedBytes is the ascending list of its members; consuming
    [n] bytes at [offset] (soundBank.py:597-599) *)
Definition consume (offset n : Z) (un : list Z) : list Z :=
  filter (fun x => negb ((offset <=? x) && (x <? offset + n))) un.
(** the first loop (soundBank.py:603-613): the instruments, idsToOffsets and the remaining bytes *)
Fixpoint load_table (data : bytes) (ids : list Z) (un : list Z) : res (list (option inst) * list (Z * Z) * list Z) :=
  match ids with
  | [] => Ok ([], [], un)
  | id :: r =>
      type <- unpack_u 1 data (0x3C + 4 * id) ;;
      offset <- unpack_u 2 data (0x3C + 4 * id + 1) ;;
      _ <- unpack_u 1 data (0x3C + 4 * id + 3) ;;
      ' (i, n) <- makeInstrumentAt data type offset ;;
      ' (is, m, un') <- load_table data r (consume offset n un) ;;
      Ok (i :: is, (match i with Some _ => [(id, offset)] | None => [] end) ++ m, un')
  end.

(** soundBank.py:629-641: IDs of the nearest instruments before and after; the
    start values -1 and 9E9 stand for none *)
Definition prev_of (this : Z) (m : list (Z * Z)) : option (Z * Z) :=
  fold_left (fun (acc : option (Z * Z)) p => if (snd p <? this) && (match acc with Some q => snd p >? snd q | None => true end)
                        then Some p else acc) m None.
Definition next_of (this : Z) (m : list (Z * Z)) : option (Z * Z) :=
  fold_left (fun (acc : option (Z * Z)) p => if (snd p >? this) && (match acc with Some q => snd p <? snd q | None => true end)
                        then Some p else acc) m None.
(** type of the instrument with that ID (soundBank.py:647-648) *)
Definition type_of_id (insts : list (option inst)) (p : option (Z * Z)) : option Z :=
  match p with
  | None => None
  | Some (id, _) => match nth_error insts (Z.to_nat id) with Some (Some i) => Some (itype i) | _ => None end
  end.
(** soundBank.py:644-660 *)
Definition possible_types (prev next : option Z) : list Z :=
  let p := [1; 16; 17] in
  let p := match prev with
           | Some t => let p := if t >=? 16 then remove_z 1 p else p in
                       if t =? 17 then remove_z 16 p else p
           | None => p end in
  match next with
  | Some t => let p := if t <=? 16 then remove_z 17 p else p in
              if t <? 16 then remove_z 16 p else p
  | None => p end.
(** soundBank.py:663-666 *)
Fixpoint run_length (from : Z) (un : list Z) : Z :=
  match un with [] => 0 | x :: r => if x =? from then 1 + run_length (from + 1) r else 0 end.

(** the loop over the bytes no instrument uses (soundBank.py:616-694); every
    iteration removes the first byte *)
Definition drop_padding (filesize : Z) (un : list Z) : list Z :=
  if inb (filesize - 1) un && inb (filesize - 2) un && negb (inb (filesize - 3) un)
  then remove_z (filesize - 2) (remove_z (filesize - 1) un) else un.
Fixpoint scan (fuel : nat) (order : list Z) (data : bytes) (filesize : Z) (insts : list (option inst)) (m : list (Z * Z))
         (un : list Z) (acc : list (option Z * list inst)) : res (list (option Z * list inst)) :=
  match un with
  | [] => Ok acc
  | _ =>
    match fuel with
    | O => Err OutOfFuel
    | S k =>
      match drop_padding filesize un with
      | [] => Ok acc
      | (this :: rest) as un' =>
          let prev := prev_of this m in
          let avail := run_length this un' in
          t <- guessInstrumentType order data this
                 (possible_types (type_of_id insts prev) (type_of_id insts (next_of this m))) avail ;;
          let made := match t with None => Ok (None, 0) | Some t => makeInstrumentAt data t this end in
          match made with
          | Ok (Some i, n) =>
              scan k order data filesize insts m (consume this n un')
                   (push (match prev with Some p => Some (fst p) | None => None end) i acc)
          | _ => scan k order data filesize insts m (remove_z (this + 1) (remove_z this un')) acc
          end
      end
    end
  end.

(** SBNK(file, unk02, waveArchiveIDs) (soundBank.py:524-544, 566-694) *)
Definition sbnk_load (order : list Z) (file : bytes) (unk : Z) (wars : option (list (option Z))) : res sbnk :=
  _ <- guard (prefixb (asc "SBNK") file) ValueError ;;
  h <- std_unpack file ;;
  _ <- guard (beq (hMagic h) (asc "SBNK")) AssertionError ;;
  _ <- guard (hVersion h =? 0x100) ValueError ;;
  dataMagic <- rd file 0x10 4 ;;
  _ <- unpack_u 4 file 0x14 ;;
  count <- unpack_u 4 file 0x38 ;;
  _ <- guard (beq dataMagic (asc "DATA")) AssertionError ;;
  let start := 0x3C + count * 4 in
  let un := range_z start (Z.to_nat (hSize h - start)) in
  ' (insts, m, un) <- load_table file (range_z 0 (Z.to_nat count)) un ;;
  inacc <- scan (S (length un)) order file (hSize h) insts m un [] ;;
  Ok {| bInsts := insts; bInacc := inacc; bUnk := unk; bWars := match wars with Some l => strip_none l | None => [] end |}.

(** ** save (soundBank.py:697-782) *)

(** instrumentsData and dataReuseCache *)
Definition cache : Type := list (bytes * Z * Z).
Definition cache_find (c : cache) (d : bytes) (merge : Z) : option Z :=
  match find (fun p => beq (fst (fst p)) d && (snd (fst p) =? merge)) c with Some p => Some (snd p) | None => None end.
(** addInstrument (soundBank.py:719-729) *)
Definition addInstrument (st : bytes * cache) (i : inst) : res (bytes * cache * Z) :=
  ' (_, d) <- body_save (iBody i) ;;
  match cache_find (snd st) d (iMerge i) with
  | Some o => Ok (st, o)
  | None => Ok ((fst st ++ d, (d, iMerge i, zlen (fst st)) :: snd st), zlen (fst st))
  end.
Definition add_all (st : bytes * cache) (l : list inst) : res (bytes * cache) :=
  foldM (fun st i => ' (st', _) <- addInstrument st i ;; Ok st') st l.
(** [d.get(k, [])] *)
Definition inacc_at (b : sbnk) (k : option Z) : list inst := match assoc k (bInacc b) with Some l => l | None => [] end.

(** a stable sort by key (soundBank.py:744) *)
Fixpoint insert_by {A} (key : A -> Z) (x : A) (l : list A) : list A :=
  match l with [] => [x] | y :: r => if key x <=? key y then x :: l else y :: insert_by key x r end.
Definition sort_by {A} (key : A -> Z) (l : list A) : list A := fold_right (insert_by key) [] l.

(** inThisGroup (soundBank.py:738-744) *)
Fixpoint enumerate_from {A} (i : Z) (l : list A) : list (Z * A) :=
  match l with [] => [] | x :: r => (i, x) :: enumerate_from (i + 1) r end.
Definition group (test : Z -> bool) (insts : list (option inst)) : list (Z * inst) :=
  sort_by (fun p => iKey (snd p))
    (flat_map (fun p : Z * option inst => match snd p with Some i => if test (itype i) then [(fst p, i)] else [] | None => [] end)
       (enumerate_from 0 insts)).
(** one instrument and the inaccessible ones after it (soundBank.py:746-751); the
    third component collects indexToOffset *)
Definition save_one (b : sbnk) (st : bytes * cache * list (Z * Z)) (p : Z * inst) : res (bytes * cache * list (Z * Z)) :=
  ' (st1, o) <- addInstrument (fst st) (snd p) ;;
  st2 <- add_all st1 (inacc_at b (Some (fst p))) ;;
  Ok (st2, (fst p, o) :: snd st).
(** IDs beyond the instruments (soundBank.py:754-759) *)
Definition high_ids (b : sbnk) : list Z :=
  filter (fun i => zlen (bInsts b) <=? i)
    (sort_by (fun i => i) (flat_map (fun p => match fst p with Some i => [i] | None => [] end) (bInacc b))).
(** the three tests (soundBank.py:731-733) *)
Definition save_order (b : sbnk) : list (Z * inst) :=
  group (fun t => t <? 16) (bInsts b) ++ group (fun t => t =? 16) (bInsts b) ++ group (fun t => t =? 17) (bInsts b).
Definition save_data (b : sbnk) : res (bytes * list (Z * Z)) :=
  st0 <- add_all ([], []) (inacc_at b None) ;;
  ' (st1, offs) <- foldM (save_one b) (st0, []) (save_order b) ;;
  st2 <- foldM (fun st k => add_all st (inacc_at b (Some k))) st1 (high_ids b) ;;
  Ok (fst st2, offs).
Definition zassoc (k : Z) (l : list (Z * Z)) : option Z :=
  match find (fun p => fst p =? k) l with Some p => Some (snd p) | None => None end.
(** one row of the table, struct '<BH' into four zero bytes (soundBank.py:762-770) *)
Definition save_row (base : Z) (offs : list (Z * Z)) (p : Z * option inst) : res bytes :=
  let offset := match zassoc (fst p) offs with Some o => o + base | None => 0 end in
  r <- pack_us [(1%nat, match snd p with Some i => itype i | None => 0 end); (2%nat, offset)] ;;
  Ok (r ++ [0]).
(** the file: the two headers fill the first 0x3C bytes *)
Definition sbnk_save (b : sbnk) : res (bytes * Z * list (option Z)) :=
  ' (instData, offs) <- save_data b ;;
  rows <- mapM (save_row (0x3C + 4 * zlen (bInsts b)) offs) (enumerate_from 0 (bInsts b)) ;;
  let len := 0x3C + 4 * zlen (bInsts b) + zlen instData + (- (zlen instData)) mod 4 in
  h <- std_pack (asc "SBNK") 0x100 len 1 ;;
  b1 <- pack_us [(4%nat, len - 0x10)] ;;
  b2 <- pack_us [(4%nat, zlen (bInsts b))] ;;
  Ok (h ++ (asc "DATA" ++ b1 ++ zeros 32 ++ b2) ++ concat rows ++ pad_to 4 0 instData, bUnk b, bWars b).

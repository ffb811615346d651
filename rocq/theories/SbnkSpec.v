(** * Vocabulary for instruments that no table entry points to *)
From Coq Require Import String Sorted.
From Verif Require Import PyBase SbnkModel.

(** the bytes an instrument takes in the file *)
Definition body_size (b : ibody) : Z :=
  match b with Single _ => 10 | Ranged _ ns => 2 + 12 * zlen ns | Regional rs => 8 + 12 * zlen rs end.
(** [i] lies wholly before [j] (offsets are kept in bankOrderKey) *)
Definition before (i j : inst) : Prop := iKey i + body_size (iBody i) <= iKey j.

(** [id] is the instrument of the table that starts last before offset [o]; of several
    starting there, the one with the smallest ID *)
Definition last_before (insts : list (option inst)) (o : Z) (id : Z) : Prop :=
  0 <= id /\ exists j, nth_error insts (Z.to_nat id) = Some (Some j) /\ iKey j < o /\
  forall id' j', 0 <= id' -> nth_error insts (Z.to_nat id') = Some (Some j') -> iKey j' < o ->
    iKey j' <= iKey j /\ (iKey j' = iKey j -> id <= id').
Definition none_before (insts : list (option inst)) (o : Z) : Prop := forall j, In (Some j) insts -> o <= iKey j.
Definition filed_under (insts : list (option inst)) (o : Z) (k : option Z) : Prop :=
  match k with Some id => last_before insts o id | None => none_before insts o end.
(** the listed instrument that starts first after [o]; of several, the one with the smallest ID *)
Definition first_after (insts : list (option inst)) (o : Z) (id : Z) : Prop :=
  0 <= id /\ exists j, nth_error insts (Z.to_nat id) = Some (Some j) /\ o < iKey j /\
  forall id' j', 0 <= id' -> nth_error insts (Z.to_nat id') = Some (Some j') -> o < iKey j' ->
    iKey j <= iKey j' /\ (iKey j' = iKey j -> id <= id').
(** all inaccessible instruments *)
Definition inaccessible (b : sbnk) (i : inst) : Prop := exists k l, In (k, l) (bInacc b) /\ In i l.

(** ** telling what unlabelled bytes are *)

(** the type under which an instrument of this kind is looked for *)
Definition kind (b : ibody) : Z := match b with Single _ => 1 | Ranged _ _ => 16 | Regional _ => 17 end.

(** region ends: strictly increasing, then zeros only *)
Definition good_ends (l : bytes) : Prop := exists a k, l = a ++ repeat 0 k /\ StronglySorted Z.lt a /\ Forall (fun e => 0 < e) a.
Definition regions_in (l : bytes) (n : Z) : Prop := exists a k, l = a ++ repeat 0 k /\ Forall (fun e => 0 < e) a /\ zlen a = n.

(** [avail] bytes [d] may hold an instrument of type [t] *)
Definition looks (t : Z) (d : bytes) : Prop :=
  if t =? 1 then nth 4 d 0 = 0x3C \/ (nth 1 d 0 < 10 /\ nth 3 d 0 < 10 /\ nth 4 d 0 <> 0)
  else if t =? 16 then nth 0 d 0 <= nth 1 d 0
  else good_ends (firstn 8 d).
Definition suits (t : Z) (d : bytes) (avail : Z) : Prop :=
  looks t d /\
  (t = 16 -> 2 + 12 * (nth 1 d 0 - nth 0 d 0 + 1) <= avail) /\
  (t = 17 -> 20 <= avail /\ forall n, regions_in (firstn 8 d) n -> 8 + 12 * n <= avail).

(** ** where saving puts instruments, and which unlisted ones can be found again *)
Definition entry (b : sbnk) (id : Z) (i : inst) : Prop := 0 <= id /\ nth_error (bInsts b) (Z.to_nat id) = Some (Some i).
(** the same bytes with the same merge ID are written once *)
Definition shares (i j : inst) : Prop :=
  (exists t t' d, body_save (iBody i) = Ok (t, d) /\ body_save (iBody j) = Ok (t', d)) /\ iMerge i = iMerge j.
(** single notes first, then ranges, then regions; by bankOrderKey; by ID *)
Definition written_before (p q : Z * inst) : Prop :=
  kind (iBody (snd p)) < kind (iBody (snd q)) \/ (kind (iBody (snd p)) = kind (iBody (snd q)) /\
  (iKey (snd p) < iKey (snd q) \/ (iKey (snd p) = iKey (snd q) /\ fst p < fst q))).
(** the instrument for which shared bytes are written *)
Definition writes (b : sbnk) (id : Z) (i : inst) : Prop :=
  entry b id i /\ forall id' j, entry b id' j -> shares j i -> ~ written_before (id', j) (id, i).
(** instruments whose bytes come after those filed under [k] *)
Definition after (b : sbnk) (k : option Z) (id : Z) (j : inst) : Prop :=
  writes b id j /\ match k with None => True | Some k => exists i, entry b k i /\ written_before (k, i) (id, j) end.
(** the types an unlisted instrument filed under [k] can have by its neighbours *)
Definition allowed (b : sbnk) (k : option Z) (t : Z) : Prop :=
  (t = 1 \/ t = 16 \/ t = 17) /\ (forall id i, k = Some id -> entry b id i -> kind (iBody i) <= t) /\
  (forall id j, after b k id j -> t <= kind (iBody j)).
(** [room] bounds the free bytes from the start of the instrument on *)
Definition recognisable (b : sbnk) (k : option Z) (room : Z) (i : inst) : Prop :=
  exists t d, body_save (iBody i) = Ok (t, d) /\
  match iBody i with Single n => nType n = 1 | Ranged _ ns => ns <> []
    | Regional rs => exists r rest, rs = r :: rest /\ forall x, In x rest -> fst x <> 0 end /\
  allowed b k (kind (iBody i)) /\
  ((forall t', allowed b k t' -> t' = kind (iBody i)) \/
   (looks (kind (iBody i)) d /\ forall t', allowed b k t' -> suits t' d room -> t' = kind (iBody i))).
Definition total (l : list inst) : Z := fold_right (fun i n => body_size (iBody i) + n) 0 l.
(** the list filed under [k] *)
Definition filed (b : sbnk) (k : option Z) (l : list inst) : Prop := In (k, l) (bInacc b) \/ (l = [] /\ forall l', ~ In (k, l') (bInacc b)).

(** ** files that are kept *)
Definition member (b : sbnk) (i : inst) : Prop := In (Some i) (bInsts b) \/ inaccessible b i.
(** a bank file with the table [rows] (type, offset) and the instrument data [d] *)
Definition bank_image (rows : list (Z * Z)) (d : bytes) : bytes :=
  let pad := (- zlen d) mod 4 in
  let size := 0x3C + 4 * zlen rows + zlen d + pad in
  asc "SBNK" ++ le 2 0xFEFF ++ le 2 0x100 ++ le 4 size ++ le 2 0x10 ++ le 2 1 ++
  asc "DATA" ++ le 4 (size - 0x10) ++ zeros 32 ++ le 4 (zlen rows) ++
  concat (map (fun r => le 1 (fst r) ++ le 2 (snd r) ++ [0]) rows) ++ d ++ zeros pad.
Definition row_of (o : option inst) : Z * Z := match o with Some i => (body_type (iBody i), iKey i) | None => (0, 0) end.
(** the loaded instruments fill the bytes from the table to [hi] without overlapping,
    each one is what saving it gives, and the listed ones come in the order of their kinds *)
Definition orderly (f : bytes) (hi : Z) (b : sbnk) : Prop :=
  let lo := 0x3C + 4 * zlen (bInsts b) in
  (forall i, member b i -> exists t d, body_save (iBody i) = Ok (t, d) /\ slice f (iKey i) (iKey i + zlen d) = d /\ lo <= iKey i /\ iKey i + zlen d <= hi) /\
  (forall i j, member b i -> member b j -> (iKey i = iKey j /\ body_size (iBody i) = body_size (iBody j)) \/ before i j \/ before j i) /\
  (forall x, lo <= x < hi -> exists i, member b i /\ iKey i <= x < iKey i + body_size (iBody i)) /\
  (forall i j, In (Some i) (bInsts b) -> In (Some j) (bInsts b) -> iKey i < iKey j -> kind (iBody i) <= kind (iBody j)).

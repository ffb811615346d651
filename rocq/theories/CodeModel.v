(** * Model of ndspy/code.py: overlays, overlay tables and main code files. *)
From Verif Require Import PyBase LzModel.

(** ** Overlay *)

(** attributes of [Overlay] (code.py:323-331) *)
Record overlay := {
  oData : bytes; oRamAddress : Z; oRamSize : Z; oBssSize : Z; oSiStart : Z; oSiEnd : Z;
  oFileID : Z; oCompressedSize : Z; oFlags : Z }.

(** [bool(flags & 1)], [bool(flags & 2)] and the setters (code.py:361-380) *)
Definition flags_compressed (fl : Z) : bool := negb (Z.land fl 1 =? 0).
Definition flags_verifyHash (fl : Z) : bool := negb (Z.land fl 2 =? 0).
Definition set_compressed (v : bool) (fl : Z) : Z := if v then Z.lor fl 1 else Z.land fl (Z.lnot 1).
Definition set_verifyHash (v : bool) (fl : Z) : Z := if v then Z.lor fl 2 else Z.land fl (Z.lnot 2).

(** [Overlay.__init__] (code.py:334-358) *)
Definition overlay_new (data : bytes) (ra rs bs s0 s1 fid cs fl : Z) : res overlay :=
  d <- (if flags_compressed fl then code_decompress data else Ok data) ;;
  Ok {| oData := d; oRamAddress := ra; oRamSize := rs; oBssSize := bs; oSiStart := s0; oSiEnd := s1;
        oFileID := fid; oCompressedSize := cs; oFlags := fl |}.

(** [Overlay.save] (code.py:383-394): the bytes returned and the object after the
    call (when [compress] raises, only the exception is modelled, not the
    [ramSize] assignment that has already happened). *)
Definition overlay_save (ov : overlay) (compress : bool) : res (bytes * overlay) :=
  d <- (if compress then code_compress (oData ov) false else Ok (oData ov)) ;;
  Ok (d, {| oData := oData ov; oRamAddress := oRamAddress ov; oRamSize := zlen (oData ov);
            oBssSize := oBssSize ov; oSiStart := oSiStart ov; oSiEnd := oSiEnd ov;
            oFileID := oFileID ov; oCompressedSize := zlen d;
            oFlags := set_compressed compress (oFlags ov) |}).

(** ** Overlay tables.  A [dict[int, Overlay]] is the list of its items in
    insertion order. *)

(** [d[k] = v]: an existing key keeps its place *)
Fixpoint dset {V} (d : list (Z * V)) (k : Z) (v : V) : list (Z * V) :=
  match d with
  | [] => [(k, v)]
  | (k', v') :: r => if k' =? k then (k, v) :: r else (k', v') :: dset r k v
  end.

(** one iteration of the loop of [loadOverlayTable] (code.py:431-443).
    [ids] is [idsToLoad]: [None], or the membership test of the container. *)
Definition load_ov (tableData : bytes) (cb : Z -> Z -> res bytes) (ids : option (Z -> bool))
           (ovs : list (Z * overlay)) (i : Z) : res (list (Z * overlay)) :=
  b <- rd tableData i 32 ;;
  let w k := unle (slice b (4 * k) (4 * k + 4)) in
  let skip := match ids with None => false | Some f => negb (f (w 0)) end in
  if skip then Ok ovs else
  fileData <- cb (w 0) (w 6) ;;
  ov <- overlay_new fileData (w 1) (w 2) (w 3) (w 4) (w 5) (w 6)
          (Z.land (w 7) 0xFFFFFF) (Z.shiftr (w 7) 24) ;;
  Ok (dset ovs (w 0) ov).

(** [loadOverlayTable] (code.py:422-445); [range(0, len, 32)] has
    [ceil(len / 32)] elements *)
Definition loadOverlayTable (tableData : bytes) (cb : Z -> Z -> res bytes)
           (ids : option (Z -> bool)) : res (list (Z * overlay)) :=
  foldM (load_ov tableData cb ids) []
    (map (fun n => 32 * n) (range_z 0 (Z.to_nat ((zlen tableData + 31) / 32)))).

(** [sorted(table)]: the items in order of their keys (keys of a dict are
    distinct, so any sorting algorithm gives this list) *)
Fixpoint insert_key {V} (x : Z * V) (l : list (Z * V)) : list (Z * V) :=
  match l with
  | [] => [x]
  | y :: r => if fst x <=? fst y then x :: y :: r else y :: insert_key x r
  end.
Fixpoint sort_keys {V} (l : list (Z * V)) : list (Z * V) :=
  match l with [] => [] | x :: r => insert_key x (sort_keys r) end.

(** one row (code.py:461-472) *)
Definition save_ov (x : Z * overlay) : res bytes :=
  let (ovId, ov) := x in
  pack_us [(4%nat, ovId); (4%nat, oRamAddress ov); (4%nat, oRamSize ov); (4%nat, oBssSize ov);
           (4%nat, oSiStart ov); (4%nat, oSiEnd ov); (4%nat, oFileID ov);
           (4%nat, Z.lor (oCompressedSize ov) (Z.shiftl (oFlags ov) 24))].

(** [saveOverlayTable] (code.py:448-474) *)
Definition saveOverlayTable (table : list (Z * overlay)) : res bytes :=
  rows <- mapM save_ov (sort_keys table) ;; Ok (concat rows).

(** ** Main code files *)

(** [MainCodeFile.Section] (code.py:58-78) *)
Record section := { sData : bytes; sRam : Z; sBss : Z; sImplicit : bool }.
(** attributes of [MainCodeFile] (code.py:96-98) *)
Record mcf := { mSections : list section; mRam : Z; mCso : option Z }.

(** [struct.unpack_from('<3I', data, off)] *)
Definition unpack3 (data : bytes) (off : Z) : res (Z * Z * Z) :=
  b <- rd data off 12 ;;
  Ok (unle (slice b 0 4), unle (slice b 4 8), unle (slice b 8 12)).

(** b'\x21\x06\xC0\xDE\xDE\xC0\x06\x21' (code.py:274) *)
Definition cs_magic : bytes := [0x21; 0x06; 0xC0; 0xDE; 0xDE; 0xC0; 0x06; 0x21].

(** the loop [for i in range(0, 0x8000, 4)] (code.py:273-275): [n] iterations left *)
Fixpoint search_magic (n : nat) (data : bytes) (i : Z) : option Z :=
  match n with
  | O => None
  | S k => if beq (slice data i (i + 8)) cs_magic then Some (i - 0x1C)
           else search_magic k data (i + 4)
  end.

(** the loop [while match is not None] (code.py:289-299); [m] is [match], with
    -1 for None.  Every iteration moves [match] to a later position of [data],
    so [length data + 1] iterations suffice. *)
Fixpoint search_end (fuel : nat) (data pat : bytes) (tend m : Z) : res (option Z) :=
  match fuel with
  | O => Err OutOfFuel
  | S k =>
    if m =? -1 then Ok None else
    start <- unpack_u 4 data (m - 4) ;;
    if (start mod 4 =? 0) && ((tend - start) mod 12 =? 0) && (tend - start <? 0x100)
    then Ok (Some (m - 4))
    else search_end k data pat tend (find_in data pat (m + 1) (zlen data))
  end.

(** [_searchForCodeSettingsOffs] (code.py:266-299) *)
Definition search_cso (ram : Z) (data : bytes) : res (option Z) :=
  match search_magic (Z.to_nat (0x8000 / 4)) data 0 with
  | Some o => Ok (Some o)
  | None =>
    let tend := ram + zlen data in
    pat <- pack_u 4 tend ;;
    search_end (S (length data)) data pat tend (find_in data pat 0 (zlen data))
  end.

(** the [try] block (code.py:110-119): [None] when anything was raised *)
Definition cso_from_pointer (ram : Z) (data : bytes) (p : Z) : option Z :=
  match unpack_u 4 data (p - ram - 4) with
  | Ok a => let o := a - ram in
            if (0 <=? o) && (o <? zlen data - 4) then Some o else None
  | Err _ => None
  end.

(** code.py:107-123: [if codeSettingsPointerAddress:] is false for None and 0 *)
Definition find_cso (ram : Z) (data : bytes) (ptr : option Z) : res (option Z) :=
  let o := match ptr with
           | Some p => if p =? 0 then None else cso_from_pointer ram data p
           | None => None
           end in
  match o with Some x => Ok (Some x) | None => search_cso ram data end.

(** the copy table loop (code.py:152-161).  A position outside
    [-len .. len) raises struct.error, so at most [2 * len + 1] iterations run. *)
Fixpoint copy_table (fuel : nat) (data : bytes) (pos tend dataBegin : Z) : res (list section) :=
  match fuel with
  | O => Err OutOfFuel
  | S k =>
    if pos <? tend then
      '(ra, sz, bss) <- unpack3 data pos ;;
      rest <- copy_table k data (pos + 12) tend (dataBegin + sz) ;;
      Ok ({| sData := slice data dataBegin (dataBegin + sz); sRam := ra; sBss := bss;
             sImplicit := false |} :: rest)
    else Ok []
  end.

(** [MainCodeFile.__init__] (code.py:101-161) *)
Definition mcf_new (data0 : bytes) (ram : Z) (ptr : option Z) : res mcf :=
  data <- code_decompress data0 ;;
  cso <- find_cso ram data ptr ;;
  '(ctb, cte, dbegin) <-
    match cso with
    | Some o => '(a, b, c) <- unpack3 data o ;; Ok (a - ram, b - ram, c - ram)
    | None => Ok (0, 0, zlen data)
    end ;;
  rest <- copy_table (S (S (2 * length data))) data ctb cte dbegin ;;
  Ok {| mSections := {| sData := slice data 0 dbegin; sRam := ram; sBss := 0; sImplicit := true |} :: rest;
        mRam := ram; mCso := cso |}.

(** [fromSections] (code.py:180-186) *)
Definition mcf_fromSections (secs : list section) (ram : Z) : res mcf :=
  m <- mcf_new [] ram None ;;
  Ok {| mSections := secs; mRam := mRam m; mCso := mCso m |}.

(** one entry of the section table (code.py:219-228) *)
Definition save_sec (s : section) : res bytes :=
  pack_us [(4%nat, sRam s); (4%nat, zlen (sData s)); (4%nat, sBss s)].

(** [setInt] (code.py:233-234) *)
Definition setInt (data : bytes) (addr v : Z) : res bytes := w <- pack_u 4 v ;; put data addr w.

(** [MainCodeFile.save] (code.py:198-253).  [None + 0x14] raises TypeError. *)
Definition mcf_save (m : mcf) (compress : bool) : res bytes :=
  let body := fold_left (fun d s => pad_to 4 0 (d ++ sData s)) (mSections m) [] in
  t1 <- mapM save_sec (filter (fun s => negb (sImplicit s) && negb (zlen (sData s) =? 0)) (mSections m)) ;;
  t2 <- mapM save_sec (filter (fun s => negb (sImplicit s) && (zlen (sData s) =? 0)) (mSections m)) ;;
  let table := concat t1 ++ concat t2 in
  let data := body ++ table in
  let tableAddr := mRam m + zlen body in
  let tableEnd := tableAddr + zlen table in
  data <- match mCso m with
          | Some cso =>
            d1 <- setInt data cso tableAddr ;;
            d2 <- setInt d1 (cso + 4) tableEnd ;;
            s0 <- get (mSections m) 0 ;;
            setInt d2 (cso + 8) (mRam m + zlen (sData s0))
          | None => Ok data
          end ;;
  if compress then
    c <- code_compress data true ;;
    match mCso m with
    | Some cso => setInt c (cso + 0x14) (mRam m + zlen c)
    | None => Err TypeError
    end
  else
    match mCso m with
    | Some cso => setInt data (cso + 0x14) 0
    | None => Err TypeError
    end.

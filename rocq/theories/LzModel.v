(** * Model of ndspy/_lzCommon.py, ndspy/lz10.py and ndspy/codeCompression.py *)
From Verif Require Import PyBase.

(** Parameters of [_lzCommon.compress] (_lzCommon.py:19-20). *)
Record lzparams := {
  posSubtract : Z; maxMatchDiff : Z; maxMatchLen : Z;
  zerosAtEnd : bool; searchReverse : bool }.

(** The binary search of _lzCommon.py:51-69.  [fuel] bounds the number of
    iterations of [while lower <= upper]; OutOfFuel is excluded by theorem. *)
Fixpoint search_loop (fuel : nat) (p : lzparams) (data : bytes) (pos start : Z)
         (lower upper recPos recLen : Z) : res (Z * Z) :=
  match fuel with
  | O => Err OutOfFuel
  | S k =>
    if lower <=? upper then
      let matchLen := (lower + upper) / 2 in
      let pat := slice data pos (pos + matchLen) in
      let matchPos := if searchReverse p then rfind_in data pat start pos
                      else find_in data pat start pos in
      if matchPos =? -1 then search_loop k p data pos start lower (matchLen - 1) recPos recLen
      else if recLen <? matchLen
           then search_loop k p data pos start (matchLen + 1) upper matchPos matchLen
           else search_loop k p data pos start (matchLen + 1) upper recPos recLen
    else Ok (recPos, recLen)
  end.

(** [compressionSearch] (_lzCommon.py:31-69) *)
Definition compressionSearch (p : lzparams) (data : bytes) (pos : Z) : res (Z * Z) :=
  let start := Z.max 0 (pos - maxMatchDiff p) in
  let upper := Z.min (maxMatchLen p) (zlen data - pos) in
  search_loop (Z.to_nat (upper + 2)) p data pos start 0 upper 0 0.

(** Loop state of [compress] (_lzCommon.py:71-79).  The variables
    [ignorableDataAmount]/[ignorableCompressedAmount] are never read by the
    returned value (only by a commented-out return) and are left out.
    [ignoreDict] is an association list, newest entry last. *)
Record lzstate := { cur : Z; result : bytes; idict : list (Z * (Z * Z)); best : Z }.

Fixpoint dict_get {V} (d : list (Z * V)) (k : Z) : option V :=
  match d with
  | [] => None
  | (k', v) :: r => if k' =? k then Some v else dict_get r k
  end.

(** One iteration of [for i in range(8)] (_lzCommon.py:89-123); returns the new
    state and the new [blockFlags]. *)
Definition token_step (p : lzparams) (data : bytes) (sf : lzstate * Z) (i : Z)
  : res (lzstate * Z) :=
  let '(s, flags) := sf in
  if zlen data <=? cur s then
    Ok ({| cur := cur s; idict := idict s; best := best s;
           result := if zerosAtEnd p then result s ++ [0] else result s |}, flags)
  else
    '(searchPos, searchLen) <- compressionSearch p data (cur s) ;;
    let searchDisp := cur s - searchPos - posSubtract p in
    '(cur1, result1, flags1) <-
      (if 2 <? searchLen then
         Ok (cur s + searchLen,
             result s ++ [Z.lor (Z.shiftl (Z.land (searchLen - 3) 0xF) 4)
                                (Z.land (Z.shiftr searchDisp 8) 0xF);
                          Z.land searchDisp 0xFF],
             Z.lor flags (Z.shiftl 1 (7 - i)))
       else
         b <- get data (cur s) ;;
         Ok (cur s + 1, result s ++ [b], flags)) ;;
    let savingsNow := cur1 - zlen result1 in
    if best s <? savingsNow then
      Ok ({| cur := cur1; result := result1; best := savingsNow;
             idict := match dict_get (idict s) savingsNow with
                      | None => idict s ++ [(savingsNow, (cur1, zlen result1))]
                      | Some _ => idict s
                      end |}, flags1)
    else
      Ok ({| cur := cur1; result := result1; best := best s; idict := idict s |}, flags1).

(** The outer loop (_lzCommon.py:81-125): a flag byte is reserved, eight tokens
    are written and the flag byte is filled in.  [fuel] bounds the number of
    iterations. *)
Fixpoint compress_loop (fuel : nat) (p : lzparams) (data : bytes) (s : lzstate)
  : res lzstate :=
  match fuel with
  | O => Err OutOfFuel
  | S k =>
    if cur s <? zlen data then
      let blockFlagsOffset := zlen (result s) in
      let s0 := {| cur := cur s; result := result s ++ [0]; idict := idict s; best := best s |} in
      '(s1, flags) <- foldM (token_step p data) (s0, 0) (range_z 0 8) ;;
      result' <- setl (result s1) blockFlagsOffset flags ;;
      compress_loop k p data
        {| cur := cur s1; result := result'; idict := idict s1; best := best s1 |}
    else Ok s
  end.

(** [while finalSavings not in ignoreDict: finalSavings += 1] (_lzCommon.py:133-134) *)
Fixpoint dict_seek (fuel : nat) (d : list (Z * (Z * Z))) (k : Z) : res (Z * Z) :=
  match fuel with
  | O => Err OutOfFuel
  | S n => match dict_get d k with Some v => Ok v | None => dict_seek n d (k + 1) end
  end.

(** [_lzCommon.compress] (_lzCommon.py:19-139) *)
Definition lz_compress (p : lzparams) (data : bytes) : res (bytes * Z * Z) :=
  s <- compress_loop (S (length data)) p data
         {| cur := 0; result := []; idict := [(0, (0, 0))]; best := 0 |} ;;
  let finalSavings := cur s - zlen (result s) in
  if finalSavings <? best s then
    '(c, r) <- dict_seek (Z.to_nat (best s - finalSavings)) (idict s) (finalSavings + 1) ;;
    Ok (result s, cur s - c, zlen (result s) - r)
  else Ok (result s, 0, 0).

(** ** lz10.py *)

Definition lz10_params : lzparams :=
  {| posSubtract := 1; maxMatchDiff := 0x1000; maxMatchLen := 18;
     zerosAtEnd := true; searchReverse := false |}.

(** [lz10.compress] (lz10.py:103-114) *)
Definition lz10_compress (data : bytes) : res bytes :=
  '(compressed, _, _) <- lz_compress lz10_params data ;;
  h <- pack_u 4 (Z.lor (Z.shiftl (zlen data) 8) 0x10) ;;
  Ok (h ++ compressed).

(** decoder loop state of [lz10.decompress] (lz10.py:43-46) *)
Record dstate := { inPos : Z; out : bytes; outPos : Z; left : Z }.
Inductive ctl (S R : Type) : Type := Cont (s : S) | Ret (r : R).
Arguments Cont {S R} s.
Arguments Ret {S R} r.

(** lz10.py:60-65: [for j in range(length): out[outPos] = out[windowOffset]; ...] *)
Fixpoint lz10_copy (n : nat) (s : dstate) (win : Z) : res (ctl dstate bytes) :=
  match n with
  | O => Ok (Cont s)
  | S k =>
    b <- get (out s) win ;;
    out' <- setl (out s) (outPos s) b ;;
    let s' := {| inPos := inPos s; out := out'; outPos := outPos s + 1; left := left s - 1 |} in
    if left s' =? 0 then Ok (Ret out') else lz10_copy k s' (win + 1)
  end.

(** lz10.py:68-72 (and 77-81): copy one literal byte *)
Definition lz10_lit (data : bytes) (s : dstate) : res (ctl dstate bytes) :=
  b <- get data (inPos s) ;;
  out' <- setl (out s) (outPos s) b ;;
  let s' := {| inPos := inPos s + 1; out := out'; outPos := outPos s + 1; left := left s - 1 |} in
  if left s' =? 0 then Ok (Ret out') else Ok (Cont s').

(** lz10.py:52-74: [for i in range(8)] with a non-zero flag byte *)
Fixpoint lz10_block (n : nat) (data : bytes) (d : Z) (s : dstate) : res (ctl dstate bytes) :=
  match n with
  | O => Ok (Cont s)
  | S k =>
    r <- (if negb (Z.land d 0x80 =? 0) then
            thing <- unpack_e BE 2 data (inPos s) ;;
            let len := Z.shiftr thing 12 + 3 in
            let offset := Z.land thing 0xFFF in
            let s1 := {| inPos := inPos s + 2; out := out s; outPos := outPos s; left := left s |} in
            lz10_copy (Z.to_nat len) s1 (outPos s - offset - 1)
          else lz10_lit data s) ;;
    match r with
    | Ret b => Ok (Ret b)
    | Cont s' => lz10_block k data (Z.shiftl d 1) s'
    end
  end.

(** lz10.py:76-81: [for i in range(8)] with a zero flag byte *)
Fixpoint lz10_raw (n : nat) (data : bytes) (s : dstate) : res (ctl dstate bytes) :=
  match n with
  | O => Ok (Cont s)
  | S k => r <- lz10_lit data s ;;
           match r with Ret b => Ok (Ret b) | Cont s' => lz10_raw k data s' end
  end.

(** lz10.py:48-83: [while dataLen > 0] *)
Fixpoint lz10_loop (fuel : nat) (data : bytes) (s : dstate) : res bytes :=
  match fuel with
  | O => Err OutOfFuel
  | S k =>
    if 0 <? left s then
      d <- get data (inPos s) ;;
      let s1 := {| inPos := inPos s + 1; out := out s; outPos := outPos s; left := left s |} in
      r <- (if negb (d =? 0) then lz10_block 8 data d s1 else lz10_raw 8 data s1) ;;
      match r with
      | Ret b => Ok b
      | Cont s' => lz10_loop k data s'
      end
    else Ok (out s)
  end.

(** [lz10.decompress] (lz10.py:32-83) *)
Definition lz10_decompress (data : bytes) : res bytes :=
  b0 <- get data 0 ;;
  if negb (b0 =? 0x10) then Err TypeError else
  h <- unpack_u 4 data 0 ;;
  let dataLen := Z.shiftr h 8 in
  lz10_loop (S (length data)) data
    {| inPos := 4; out := zeros dataLen; outPos := 0; left := dataLen |}.

(** ** codeCompression.py *)

Definition code_params : lzparams :=
  {| posSubtract := 3; maxMatchDiff := 0x1002; maxMatchLen := 18;
     zerosAtEnd := false; searchReverse := true |}.

(** [_compress] (codeCompression.py:253-294).  [((len + 3) & ~4)] is [Z.land (len+3) (-5)]. *)
Definition code_compress_body (data : bytes) : res bytes :=
  '(fwd, ignorableD, ignorableC) <- lz_compress code_params (rev data) ;;
  let compressed := rev fwd in
  if (zlen compressed =? 0)
     || (zlen data + 4 <? Z.land (zlen compressed + 3) (-5) + 8) then
    Ok (pad_to 4 0 data ++ [0; 0; 0; 0])
  else
    let actualCompLen := zlen compressed - ignorableC in
    let c1 := slice_to data ignorableD ++ slice_from compressed ignorableC in
    let extraLen := zlen data - zlen c1 in
    let c2 := pad_to 4 0xFF c1 in
    let headerLen := 8 + (zlen c2 - zlen c1) in
    let ptr := zlen c2 in
    let c3 := c2 ++ zeros 8 in
    w1 <- pack_u 4 (actualCompLen + headerLen) ;;
    c4 <- put c3 ptr w1 ;;
    c5 <- setl c4 (ptr + 3) headerLen ;;
    w2 <- pack_u 4 (extraLen - headerLen) ;;
    put c5 (ptr + 4) w2.

(** [compress] (codeCompression.py:233-250) *)
Definition code_compress (data : bytes) (isArm9 : bool) : res bytes :=
  if isArm9 then
    c <- code_compress_body (slice_from data 0x4000) ;; Ok (slice_to data 0x4000 ++ c)
  else code_compress_body data.

(** One candidate of the loop of [_detectAppendedData] (codeCompression.py:38-54):
    [Ok None] = "continue", [Ok (Some r)] = "return r".  The inner
    [for byte in ...: continue] only continues the inner loop, so it has no
    effect and is left out. *)
Definition detect_one (data : bytes) (amt : Z) : res (option (option Z)) :=
  match get data (-5 - amt) with
  | Err _ => Ok (Some None)
  | Ok _ =>
    clhl <- unpack_u 4 data (zlen data - amt - 8) ;;
    _ <- unpack_u 4 data (zlen data - amt - 8 + 4) ;;
    let headerLen := Z.shiftr clhl 24 in
    let compressedLen := Z.land clhl 0xFFFFFF in
    if headerLen <? 8 then Ok None
    else if zlen data <? compressedLen then Ok None
    else Ok (Some (Some amt))
  end.
Fixpoint detect_loop (data : bytes) (amts : list Z) : res (option Z) :=
  match amts with
  | [] => Ok None
  | a :: r => o <- detect_one data a ;;
              match o with Some x => Ok x | None => detect_loop data r end
  end.
(** [_detectAppendedData] (codeCompression.py:32-56) *)
Definition detectAppendedData (data : bytes) : res (option Z) :=
  detect_loop data [0; 4; 8; 12; 16; 20; 24; 28].

(** main loop state of [decompress] (codeCompression.py:145-150) *)
Record cstate := { outSize : Z; readBytes : Z; flags : Z; mask : Z; decomp : bytes }.

(** codeCompression.py:196-201 *)
Fixpoint code_copy (n : nat) (dd : bytes) (bufIdx outSize : Z) : res (bytes * Z) :=
  match n with
  | O => Ok (dd, outSize)
  | S k => x <- get dd (-1 - bufIdx) ;;
           dd' <- setl dd (-1 - outSize) x ;;
           code_copy k dd' (bufIdx + 1) (outSize + 1)
  end.

(** one iteration of the main loop (codeCompression.py:151-211) *)
Definition code_iter (dataLen compressedLen : Z) (compData : bytes) (s : cstate) : res cstate :=
  s1 <- (if mask s =? 1 then
           if compressedLen <=? readBytes s then Err RuntimeError
           else f <- get compData (-1 - readBytes s) ;;
                Ok {| outSize := outSize s; readBytes := readBytes s + 1; flags := f;
                      mask := 0x80; decomp := decomp s |}
         else Ok {| outSize := outSize s; readBytes := readBytes s; flags := flags s;
                    mask := Z.shiftr (mask s) 1; decomp := decomp s |}) ;;
  if negb (Z.land (flags s1) (mask s1) =? 0) then
    if dataLen <=? readBytes s1 + 1 then Err RuntimeError
    else
      byte1 <- get compData (-1 - readBytes s1) ;;
      byte2 <- get compData (-1 - (readBytes s1 + 1)) ;;
      let len := Z.shiftr byte1 4 + 3 in
      let disp0 := Z.lor (Z.shiftl (Z.land byte1 0x0F) 8) byte2 + 3 in
      disp <- (if outSize s1 <? disp0 then
                 if outSize s1 <? 2 then Err RuntimeError else Ok 2
               else Ok disp0) ;;
      '(dd, o) <- code_copy (Z.to_nat len) (decomp s1) (outSize s1 - disp) (outSize s1) ;;
      Ok {| outSize := o; readBytes := readBytes s1 + 2; flags := flags s1; mask := mask s1;
            decomp := dd |}
  else
    if dataLen <? readBytes s1 then Err RuntimeError
    else
      x <- get compData (-1 - readBytes s1) ;;
      dd <- setl (decomp s1) (-1 - outSize s1) x ;;
      Ok {| outSize := outSize s1 + 1; readBytes := readBytes s1 + 1; flags := flags s1;
            mask := mask s1; decomp := dd |}.

Fixpoint code_loop (fuel : nat) (dataLen compressedLen decompLen : Z) (compData : bytes)
         (s : cstate) : res bytes :=
  match fuel with
  | O => Err OutOfFuel
  | S k =>
    if outSize s <? decompLen then
      s' <- code_iter dataLen compressedLen compData s ;;
      code_loop k dataLen compressedLen decompLen compData s'
    else Ok (decomp s)
  end.

(** [decompress] (codeCompression.py:59-213).  Every iteration of the main loop
    reads at least one byte of [compData] or fails, so [length compData + 1]
    iterations suffice. *)
Definition code_decompress (data0 : bytes) : res bytes :=
  det <- detectAppendedData data0 ;;
  match det with
  | None => Ok data0
  | Some amt =>
    let appendedData := if amt =? 0 then [] else slice_from data0 (- amt) in
    let data := if amt =? 0 then data0 else slice_to data0 (- amt) in
    if beq (slice_from data (-4)) [0; 0; 0; 0] then Ok data else
    clhl <- unpack_u 4 data (zlen data - 8) ;;
    extraSize <- unpack_u 4 data (zlen data - 8 + 4) ;;
    let headerLen := Z.shiftr clhl 24 in
    let compressedLen0 := Z.land clhl 0xFFFFFF in
    if zlen data <? headerLen then Err ValueError else
    if zlen data <? compressedLen0 then Err ValueError else
    if negb (forallb (fun b => b =? 0xFF) (slice data (- headerLen) (-8))) then Err ValueError else
    let compressedLen := if zlen data <=? compressedLen0 then zlen data else compressedLen0 in
    let passthroughLen := zlen data - compressedLen in
    let passthroughData := slice_to data passthroughLen in
    let compData := slice data passthroughLen (passthroughLen + compressedLen - headerLen) in
    let decompLen := zlen data + extraSize - passthroughLen in
    dd <- code_loop (S (length compData)) (zlen data) compressedLen decompLen compData
            {| outSize := 0; readBytes := 0; flags := 0; mask := 1; decomp := zeros decompLen |} ;;
    Ok (passthroughData ++ dd ++ appendedData)
  end.

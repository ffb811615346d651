(** * Model of ndspy/_common.py and the named lists of ndspy/__init__.py *)
From Verif Require Import PyBase.

(** ** crc16 (_common.py:40-49) *)
(** body of the inner loop (_common.py:45-48) *)
Definition crc_bit (crc : Z) : Z :=
  let carry := Z.land crc 1 in
  let crc' := Z.shiftr crc 1 in
  if carry =? 0 then crc' else Z.lxor crc' 0xA001.
(** [for _ in range(8)] (_common.py:44) *)
Fixpoint crc_bits (n : nat) (crc : Z) : Z :=
  match n with O => crc | S k => crc_bits k (crc_bit crc) end.
(** [for b in data] (_common.py:42-48) *)
Definition crc_loop (data : bytes) (crc : Z) : Z :=
  fold_left (fun c b => crc_bits 8 (Z.lxor c b)) data crc.
Definition crc16 (data : bytes) : Z := Z.land (crc_loop data 0xFFFF) 0xFFFF.

(** ** loadNullTerminatedStringFrom (_common.py:52-59), before [.decode(encoding)]
    (latin-1, the only encoding used with one-byte characters, is the identity here) *)
Definition loadNullTerminatedStringFrom (data : bytes) (offset charWidth : Z) : bytes :=
  let e := find_in data (zeros charWidth) offset (zlen data) in
  slice data offset e.

(** ** listFind (_common.py:62-66) on a byte list *)
Fixpoint index_of (x : Z) (l : bytes) (pos : Z) : Z :=
  match l with
  | [] => -1
  | y :: r => if y =? x then pos else index_of x r (pos + 1)
  end.

(** ** info blocks (_common.py:136-225) *)
(** (name, unk00, unk02, entry); [None] names are allowed by saveInfoBlock *)
Record infoEntry := { ieName : option bytes; ieUnk00 : Z; ieUnk02 : Z; ieData : bytes }.

(** one entry (_common.py:175-184) *)
Definition loadInfoEntry (data : bytes) (unkOff entryOff nameOff each : Z) (i : Z) : res infoEntry :=
  unk00 <- unpack_u 2 data (unkOff + 4 * i) ;;
  unk02 <- unpack_u 2 data (unkOff + 4 * i + 2) ;;
  let entry := slice data (entryOff + each * i) (entryOff + each * i + each) in
  let name := rstrip 0 (slice data (nameOff + 16 * i) (nameOff + 16 * i + 16)) in
  Ok {| ieName := Some name; ieUnk00 := unk00; ieUnk02 := unk02; ieData := entry |}.

(** loadInfoBlock (_common.py:136-186); offsets of the entry loop are written as
    [base + i*step] instead of being incremented *)
Definition loadInfoBlock (data : bytes) (off : Z) (expected : option Z) : res (list infoEntry) :=
  _ <- rd data off 1 ;;
  count <- unpack_u 1 data (off + 1) ;;
  _ <- unpack_u 2 data (off + 2) ;;
  let off := off + 4 in
  unkHeaderLen <- unpack_u 2 data off ;;
  unkLen <- unpack_u 2 data (off + 2) ;;
  unkUnk04 <- unpack_u 4 data (off + 4) ;;
  let off := off + 8 in
  _ <- guard (unkHeaderLen =? 8) AssertionError ;;
  _ <- guard (unkLen =? 12 + 4 * count) AssertionError ;;
  _ <- guard (unkUnk04 =? 0x17F) AssertionError ;;
  let unkBlockOff := off in
  let off := off + 4 * count in
  each <- unpack_u 2 data off ;;
  entriesLen <- unpack_u 2 data (off + 2) ;;
  _ <- guard (match expected with None => true | Some x => each =? x end) AssertionError ;;
  _ <- guard (entriesLen =? 4 + count * each) AssertionError ;;
  let entryOff := off + 4 in
  let nameOff := entryOff + each * count in
  mapM (loadInfoEntry data unkBlockOff entryOff nameOff each) (range_z 0 (Z.to_nat count)).

(** the three writing loops (_common.py:203-204, 208-213, 216-220) *)
Definition saveInfoUnk (e : infoEntry) : res bytes := pack_us [(2%nat, ieUnk00 e); (2%nat, ieUnk02 e)].
Definition saveInfoData (each : Z) (e : infoEntry) : res bytes :=
  if zlen (ieData e) =? each then Ok (ieData e) else Err ValueError.
(** [str.encode('latin-1')] *)
Definition encode_latin1 (s : list Z) : res bytes :=
  if forallb byteb s then Ok s else Err UnicodeError.
Definition saveInfoName (e : infoEntry) : res bytes :=
  match ieName e with
  | None => Ok (zeros 16)
  | Some n => b <- encode_latin1 n ;; Ok (ljust b 16 0)
  end.

(** saveInfoBlock (_common.py:189-225) *)
Definition saveInfoBlock (entries : list infoEntry) (each : Z) : res bytes :=
  h <- pack_us [(1%nat, zlen entries); (2%nat, 0)] ;;
  u <- pack_us [(2%nat, 8); (2%nat, 12 + 4 * zlen entries); (4%nat, 0x17F)] ;;
  us <- mapM saveInfoUnk entries ;;
  eh <- pack_us [(2%nat, each); (2%nat, 4 + zlen entries * each)] ;;
  es <- mapM (saveInfoData each) entries ;;
  ns <- mapM saveInfoName entries ;;
  let data := (0 :: h) ++ u ++ concat us ++ eh ++ concat es ++ concat ns in
  sz <- pack_u 2 (zlen data) ;;
  put data 2 sz.

(** ** alignments (Alignment, __init__.py:60-68) *)
Definition A_LEFT := 0x01.
Definition A_RIGHT := 0x02.
Definition A_HCENTER := 0x04.
Definition A_TOP := 0x10.
Definition A_BOTTOM := 0x20.
Definition A_VCENTER := 0x40.

(** unpackAlignmentFromPos (_common.py:228-251); the list index is in 0..3 *)
Definition unpackAlignmentFromPos (xPack yPack : Z) : Z * Z * Z :=
  let x := Z.land xPack 0xFFF in
  let ha := nth (Z.to_nat (Z.land (Z.shiftr xPack 12) 3)) [A_LEFT; A_HCENTER; A_RIGHT; A_LEFT] 0 in
  let y := Z.land yPack 0xFFF in
  let va := nth (Z.to_nat (Z.land (Z.shiftr yPack 12) 3)) [A_TOP; A_VCENTER; A_BOTTOM; A_TOP] 0 in
  (x, y, Z.lor (Z.lor 0 ha) va).

(** packAlignmentIntoPos (_common.py:254-272) *)
Definition packAlignmentIntoPos (x y alignment : Z) : Z * Z :=
  let xPack := Z.land x 0xFFF in
  let yPack := Z.land y 0xFFF in
  let xPack := if negb (Z.land alignment A_HCENTER =? 0) then Z.lor xPack 0x1000
               else if negb (Z.land alignment A_RIGHT =? 0) then Z.lor xPack 0x2000 else xPack in
  let yPack := if negb (Z.land alignment A_VCENTER =? 0) then Z.lor yPack 0x1000
               else if negb (Z.land alignment A_BOTTOM =? 0) then Z.lor yPack 0x2000 else yPack in
  (xPack, yPack).

(** getTopLeftOfAlignedRect (_common.py:275-293) *)
Definition getTopLeftOfAlignedRect (x y width height alignment : Z) : Z * Z :=
  let x := if negb (Z.land alignment A_HCENTER =? 0) then x - (width + 1) / 2
           else if negb (Z.land alignment A_RIGHT =? 0) then x - width else x in
  let y := if negb (Z.land alignment A_VCENTER =? 0) then y - (height + 1) / 2
           else if negb (Z.land alignment A_BOTTOM =? 0) then y - height else y in
  (x, y).

(** ** named lists (__init__.py:71-97), over any name type with equality [eqb] *)
Fixpoint index_loop {K V} (eqb : K -> K -> bool) (L : list (K * V)) (name : K) (i : Z) : res Z :=
  match L with
  | [] => Err KeyError
  | (n, _) :: r => if eqb n name then Ok i else index_loop eqb r name (i + 1)
  end.
Definition indexInNamedList {K V} (eqb : K -> K -> bool) (L : list (K * V)) (name : K) : res Z :=
  index_loop eqb L name 0.
Definition findInNamedList {K V} (eqb : K -> K -> bool) (L : list (K * V)) (name : K) : res V :=
  i <- indexInNamedList eqb L name ;; e <- get L i ;; Ok (snd e).
Definition setInNamedList {K V} (eqb : K -> K -> bool) (L : list (K * V)) (name : K) (v : V)
  : res (list (K * V)) :=
  i <- indexInNamedList eqb L name ;; setl L i (name, v).

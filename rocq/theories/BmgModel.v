(** * Model of /repo/ndspy/bmg.py: BMG message files.

    Definitions only.  A Python [str] is the list of its code points.  The text
    codecs used through [str.encode] / [bytes.decode] are CPython's, not the
    repo's; cp1252, utf-16-le/be and utf-8 are modelled in full below, shift-jis
    is a parameter [sj] of the model (a per-character encoder and a decoder).
    Simplifications: [endianness] is '<' or '>' and [encoding] is one of the four
    supported names in any letter case (the two ValueErrors for other values,
    bmg.py 245-250, are not modelled); instructions are [bytes] objects (the
    [hasattr(inst, 'save')] hook of line 287 is not modelled).  __str__ and __repr__
    are in ReprModel, fromFile and saveToFile in FilesModel. *)
From Coq Require Import String.
From Verif Require Import PyBase.

(** ** Text codecs (CPython built-ins) *)

Notation text := (list Z).

Definition surrogateb (c : Z) : bool := (0xD800 <=? c) && (c <? 0xE000).

(** one code point, 'utf-16le' / 'utf-16be' *)
Definition utf16_char (e : endian) (c : Z) : res bytes :=
  if surrogateb c then Err UnicodeError
  else if c <? 0x10000 then Ok (enc e 2 c)
  else Ok (enc e 2 (0xD800 + (c - 0x10000) / 1024) ++ enc e 2 (0xDC00 + (c - 0x10000) mod 1024)).

Fixpoint utf16_dec (e : endian) (d : bytes) : res text :=
  match d with
  | [] => Ok []
  | [_] => Err UnicodeError
  | a :: b :: r =>
      let u := dec e [a; b] in
      if surrogateb u then
        if u <? 0xDC00 then
          match r with
          | a2 :: b2 :: r2 =>
              let v := dec e [a2; b2] in
              if (0xDC00 <=? v) && (v <? 0xE000) then
                s <- utf16_dec e r2 ;;
                Ok (0x10000 + (u - 0xD800) * 1024 + (v - 0xDC00) :: s)
              else Err UnicodeError
          | _ => Err UnicodeError
          end
        else Err UnicodeError
      else s <- utf16_dec e r ;; Ok (u :: s)
  end.

(** one code point, 'utf-8' *)
Definition utf8_char (c : Z) : res bytes :=
  if surrogateb c then Err UnicodeError
  else if c <? 0x80 then Ok [c]
  else if c <? 0x800 then Ok [0xC0 + c / 64; 0x80 + c mod 64]
  else if c <? 0x10000 then Ok [0xE0 + c / 4096; 0x80 + c / 64 mod 64; 0x80 + c mod 64]
  else Ok [0xF0 + c / 262144; 0x80 + c / 4096 mod 64; 0x80 + c / 64 mod 64; 0x80 + c mod 64].

(** a continuation byte *)
Definition contb (b : Z) : bool := (0x80 <=? b) && (b <? 0xC0).

Fixpoint utf8_dec (d : bytes) : res text :=
  match d with
  | [] => Ok []
  | a :: r =>
      if a <? 0x80 then s <- utf8_dec r ;; Ok (a :: s)
      else if a <? 0xC2 then Err UnicodeError
      else if a <? 0xE0 then
        match r with
        | b :: r1 =>
            if contb b then
              s <- utf8_dec r1 ;; Ok ((a - 0xC0) * 64 + (b - 0x80) :: s)
            else Err UnicodeError
        | _ => Err UnicodeError
        end
      else if a <? 0xF0 then
        match r with
        | b :: c :: r2 =>
            let v := (a - 0xE0) * 4096 + (b - 0x80) * 64 + (c - 0x80) in
            if contb b && contb c && (0x800 <=? v) && negb (surrogateb v) then
              s <- utf8_dec r2 ;; Ok (v :: s)
            else Err UnicodeError
        | _ => Err UnicodeError
        end
      else if a <? 0xF5 then
        match r with
        | b :: c :: e :: r3 =>
            let v := (a - 0xF0) * 262144 + (b - 0x80) * 4096 + (c - 0x80) * 64 + (e - 0x80) in
            if contb b && contb c && contb e && (0x10000 <=? v) && (v <? 0x110000) then
              s <- utf8_dec r3 ;; Ok (v :: s)
            else Err UnicodeError
        | _ => Err UnicodeError
        end
      else Err UnicodeError
  end.

(** cp1252: bytes 0x80..0x9F in order, 0 = undefined *)
Definition cp1252_high : list Z :=
  [0x20AC; 0; 0x201A; 0x0192; 0x201E; 0x2026; 0x2020; 0x2021;
   0x02C6; 0x2030; 0x0160; 0x2039; 0x0152; 0; 0x017D; 0;
   0; 0x2018; 0x2019; 0x201C; 0x201D; 0x2022; 0x2013; 0x2014;
   0x02DC; 0x2122; 0x0161; 0x203A; 0x0153; 0; 0x017E; 0x0178].

Fixpoint index_of (c : Z) (l : list Z) (pos : Z) : option Z :=
  match l with
  | [] => None
  | x :: r => if x =? c then Some pos else index_of c r (pos + 1)
  end.

Definition cp1252_char (c : Z) : res bytes :=
  if (c <? 0x80) || ((0xA0 <=? c) && (c <? 0x100)) then Ok [c]
  else match index_of c cp1252_high 0x80 with
       | Some b => Ok [b]
       | None => Err UnicodeError
       end.

Definition cp1252_byte (b : Z) : res Z :=
  if (0x80 <=? b) && (b <? 0xA0) then
    let c := nth (Z.to_nat (b - 0x80)) cp1252_high 0 in
    if c =? 0 then Err UnicodeError else Ok c
  else Ok b.

(** a stateless codec: [str.encode] works character by character *)
Record codec : Type := mkCodec {
  c_char : Z -> res bytes;
  c_dec : bytes -> res text
}.

(** bmg.py 35: _ENCODINGS = [None, 'cp1252', 'utf-16', 'shift-jis', 'utf-8'] *)
Inductive encoding : Set := Cp1252 | Utf16 | ShiftJis | Utf8.
Definition enc_index (x : encoding) : Z :=
  match x with Cp1252 => 1 | Utf16 => 2 | ShiftJis => 3 | Utf8 => 4 end.

(** [_ENCODINGS[enc]] with the check of bmg.py 101-104 *)
Definition enc_of (v : Z) : res encoding :=
  if v =? 1 then Ok Cp1252 else if v =? 2 then Ok Utf16
  else if v =? 3 then Ok ShiftJis else if v =? 4 then Ok Utf8
  else Err ValueError.

(** bmg.py 78-82: fullEncoding, resolved to the codec it names *)
Definition full_codec (sj : codec) (x : encoding) (e : endian) : codec :=
  match x with
  | Cp1252 => mkCodec cp1252_char (mapM cp1252_byte)
  | Utf16 => mkCodec (utf16_char e) (utf16_dec e)
  | ShiftJis => sj
  | Utf8 => mkCodec utf8_char utf8_dec
  end.

(** [s.encode(...)] *)
Definition encode (c : codec) (s : text) : res bytes :=
  l <- mapM (c_char c) s ;; Ok (concat l).

(** ** Data (bmg.py 40-75, 384-439) *)

(** an element of [stringParts]: a string or a [Message.Escape] *)
Inductive part : Type :=
| Txt (s : text)
| Esc (type : Z) (data : bytes).

Record message : Type := mkMessage {
  mInfo : bytes;
  mParts : list part;
  mNull : bool
}.

Record bmg : Type := mkBmg {
  bMessages : list message;
  bInstructions : list bytes;
  bLabels : list (Z * Z);      (* (bmgID, index) *)
  bScripts : list (Z * Z);     (* (id, index) *)
  bId : Z;
  bEncoding : encoding;
  bEndian : endian;
  bUnk14 : Z;
  bUnk18 : Z;
  bUnk1C : Z
}.

(** ** struct with either endianness, signed fields ('h', 'b') *)

Definition pack_es (e : endian) (n : nat) (v : Z) : res bytes :=
  if (- (256 ^ Z.of_nat n / 2) <=? v) && (v <? 256 ^ Z.of_nat n / 2)
  then Ok (enc e n (v mod 256 ^ Z.of_nat n)) else Err StructError.

Definition unpack_es (e : endian) (n : nat) (data : bytes) (off : Z) : res Z :=
  v <- unpack_e e n data off ;; Ok (sign_of n v).

(** several unsigned fields at once *)
Fixpoint pack_fields (e : endian) (fs : list (nat * Z)) : res bytes :=
  match fs with
  | [] => Ok []
  | (n, v) :: r => b <- pack_e e n v ;; bs <- pack_fields e r ;; Ok (b ++ bs)
  end.

(** ** Loading (bmg.py 85-202) *)

(** the variables the nested parse functions assign to *)
Record sections : Type := mkSections {
  sInf : list (Z * bytes);
  sDat : bytes;
  sInst : list bytes;
  sLab : list (Z * Z);
  sScr : list (Z * Z);
  sId : Z
}.

(** bmg.py 107-114: parseINF1 *)
Definition parse_inf1 (e : endian) (data : bytes) (off : Z) (st : sections) : res sections :=
  count <- unpack_e e 2 data (off + 8) ;;
  el <- unpack_e e 2 data (off + 10) ;;
  i <- unpack_e e 4 data (off + 12) ;;
  new <- mapM (fun k =>
           let t := off + 16 + k * el in
           o <- unpack_e e 4 data t ;;
           Ok (o, slice data (t + 4) (t + el)))
         (range_z 0 (Z.to_nat count)) ;;
  Ok (mkSections (sInf st ++ new) (sDat st) (sInst st) (sLab st) (sScr st) i).

(** bmg.py 117-119: parseDAT1 *)
Definition parse_dat1 (data : bytes) (off len : Z) (st : sections) : sections :=
  mkSections (sInf st) (slice data (off + 8) (off + len)) (sInst st) (sLab st) (sScr st) (sId st).

(** bmg.py 123-141: parseFLW1; the 'HHI' at +8 reads up to +16 *)
Definition parse_flw1 (e : endian) (data : bytes) (off : Z) (st : sections) : res sections :=
  ic <- unpack_e e 2 data (off + 8) ;;
  lc <- unpack_e e 2 data (off + 10) ;;
  _ <- unpack_e e 4 data (off + 12) ;;
  let insts := map (fun i => slice data (off + 16 + i * 8) (off + 16 + i * 8 + 8))
                   (range_z 0 (Z.to_nat ic)) in
  let io := off + 16 + ic * 8 in
  let bo := io + lc * 2 in
  labs <- mapM (fun i =>
            ix <- unpack_es e 2 data (io + i * 2) ;;
            b <- unpack_es e 1 data (bo + i) ;;
            Ok (b, ix))
          (range_z 0 (Z.to_nat lc)) ;;
  Ok (mkSections (sInf st) (sDat st)
        (sInst st ++ filter (fun c => negb (beq c (zeros 8))) insts)
        (sLab st ++ filter (fun p => negb (fst p =? 0) || negb (snd p =? 0)) labs)
        (sScr st) (sId st)).

(** bmg.py 144-151: parseFLI1; 'IHxx' needs all 8 bytes of the entry *)
Definition parse_fli1 (e : endian) (data : bytes) (off : Z) (st : sections) : res sections :=
  count <- unpack_e e 2 data (off + 8) ;;
  el <- unpack_e e 2 data (off + 10) ;;
  _ <- unpack_e e 4 data (off + 12) ;;
  _ <- guard (el =? 8) AssertionError ;;
  new <- mapM (fun k =>
           let t := off + 16 + k * 8 in
           i <- unpack_e e 4 data t ;;
           x <- unpack_e e 2 data (t + 4) ;;
           _ <- rd data (t + 6) 2 ;;
           Ok (i, x))
         (range_z 0 (Z.to_nat count)) ;;
  Ok (mkSections (sInf st) (sDat st) (sInst st) (sLab st) (sScr st ++ new) (sId st)).

(** bmg.py 153-166: the section loop *)
Fixpoint parse_sections (n : nat) (e : endian) (data : bytes) (off : Z) (st : sections)
  : res sections :=
  match n with
  | O => Ok st
  | S k =>
      m <- rd data off 4 ;;
      len <- unpack_e e 4 data (off + 4) ;;
      st' <- (if beq m (asc "INF1") then parse_inf1 e data off st
              else if beq m (asc "DAT1") then Ok (parse_dat1 data off len st)
              else if beq m (asc "FLW1") then parse_flw1 e data off st
              else if beq m (asc "FLI1") then parse_fli1 e data off st
              else Err ValueError) ;;
      parse_sections k e data (off + len) st'
  end.

(** bmg.py 187-188, 199-200: append the pending text, if any *)
Definition flush (c : codec) (dat : bytes) (start off : Z) (parts : list part)
  : res (list part) :=
  if negb (start =? 0) && negb (start =? off) then
    s <- c_dec c (slice dat start off) ;; Ok (parts ++ [Txt s])
  else Ok parts.

(** bmg.py 184-200: the scanning loop of one message.  In Python the loop can
    run forever (text without a terminator, or an escape of length 0); [fuel]
    bounds the number of iterations. *)
Fixpoint scan (fuel : nat) (c : codec) (nul esc dat : bytes) (off start : Z)
  (parts : list part) : res (list part * Z) :=
  match fuel with
  | O => Err OutOfFuel
  | S k =>
      let nb := slice dat off (off + zlen nul) in
      if beq nb nul then
        ps <- flush c dat start off parts ;; Ok (ps, off)
      else if beq nb esc then
        ps <- flush c dat start off parts ;;
        match slice dat (off + zlen esc) (off + zlen esc + 2) with
        | [l; t] =>
            scan k c nul esc dat (off + l) (off + l)
              (ps ++ [Esc t (slice dat (off + zlen esc + 2) (off + l))])
        | _ => Err ValueError
        end
      else scan k c nul esc dat (off + zlen nul) start parts
  end.

(** bmg.py 174-202: one message *)
Definition load_message (c : codec) (nul esc dat : bytes) (ent : Z * bytes) : res message :=
  '(parts, off) <- scan (S (length dat)) c nul esc dat (fst ent) (fst ent) [] ;;
  Ok (mkMessage (snd ent) parts (off =? 0)).

(** bmg.py 94-96: the endianness guess *)
Definition guess_endian (data : bytes) : res endian :=
  l <- unpack_e LE 4 data 8 ;;
  b <- unpack_e BE 4 data 8 ;;
  Ok (if l <? b then LE else BE).

(** bmg.py 85-202: BMG(data, id=id0); the header is '8sIIB3I' without padding *)
Definition bmg_load (sj : codec) (id0 : Z) (data : bytes) : res bmg :=
  _ <- guard (beq (slice_to data 8) (asc "MESGbmg1")) ValueError ;;
  e <- guess_endian data ;;
  n <- unpack_e e 4 data 12 ;;
  x <- unpack_e e 1 data 16 ;;
  u14 <- unpack_e e 4 data 17 ;;
  u18 <- unpack_e e 4 data 21 ;;
  u1C <- unpack_e e 4 data 25 ;;
  enc <- enc_of x ;;
  st <- parse_sections (Z.to_nat n) e data 0x20 (mkSections [] [] [] [] [] id0) ;;
  let c := full_codec sj enc e in
  nul <- encode c [0] ;;
  esc <- encode c [0x1A] ;;
  ms <- mapM (load_message c nul esc (sDat st)) (sInf st) ;;
  Ok (mkBmg ms (sInst st) (sLab st) (sScr st) (sId st) enc e u14 u18 u1C).

(** ** Saving (bmg.py 240-341, 406-415, 441-458) *)

(** bmg.py 406-415: Escape.save *)
Definition esc_save (c : codec) (type : Z) (d : bytes) : res bytes :=
  start <- encode c [0x1A] ;;
  _ <- guard (byteb (zlen d + 2 + zlen start)) ValueError ;;
  _ <- guard (byteb type) ValueError ;;
  Ok (start ++ [zlen d + 2 + zlen start] ++ [type] ++ d).

Definition contains (v : Z) (s : text) : bool := existsb (Z.eqb v) s.

(** bmg.py 448-456: one iteration of the loop of Message.save *)
Definition part_save (c : codec) (p : part) : res bytes :=
  match p with
  | Txt s =>
      _ <- guard (negb (contains 0 s)) ValueError ;;
      _ <- guard (negb (contains 0x1A s)) ValueError ;;
      encode c s
  | Esc t d => esc_save c t d
  end.

(** bmg.py 441-458: Message.save *)
Definition message_save (c : codec) (m : message) : res bytes :=
  if mNull m then Ok []
  else
    ps <- mapM (part_save c) (mParts m) ;;
    nul <- encode c [0] ;;
    Ok (concat ps ++ nul).

(** bmg.py 272-284: the message loop; the state is the contents of INF1 after its
    header and of DAT1 after its header *)
Definition add_message (c : codec) (e : endian) (il : Z) (st : bytes * bytes) (m : message)
  : res (bytes * bytes) :=
  let '(inf, dat) := st in
  _ <- guard (zlen (mInfo m) =? il) ValueError ;;
  o <- pack_e e 4 (if mNull m then 0 else zlen dat) ;;
  b <- (if mNull m then Ok [] else message_save c m) ;;
  Ok (inf ++ o ++ mInfo m, dat ++ b).

(** bmg.py 240-341: BMG.save.  Sections are built after their headers; the
    [bytearray(16)] headers are filled in at the end as in the code.  FLW1 and
    FLI1 leave their last four header bytes zero. *)
Definition bmg_save (sj : codec) (b : bmg) : res bytes :=
  let e := bEndian b in
  let c := full_codec sj (bEncoding b) e in
  let ic := zlen (bInstructions b) + zlen (bInstructions b) mod 2 in
  let lc := zlen (bLabels b) + (- zlen (bLabels b)) mod 8 in
  nul <- encode c [0] ;;
  let il := match bMessages b with m :: _ => zlen (mInfo m) | [] => 0 end in
  '(inf, dat) <- foldM (add_message c e il) ([], nul) (bMessages b) ;;
  insts <- mapM (fun i => _ <- guard (zlen i =? 8) ValueError ;; Ok i) (bInstructions b) ;;
  let flw := concat insts ++ zeros (8 * (zlen (bInstructions b) mod 2)) in
  ixs <- mapM (fun p : Z * Z => pack_es e 2 (snd p)) (bLabels b) ;;
  ids <- mapM (fun p : Z * Z => pack_es e 1 (fst p)) (bLabels b) ;;
  let flw := flw ++ concat ixs ++ zeros (2 * (lc - zlen (bLabels b))) ++ concat ids in
  scr <- mapM (fun p : Z * Z => pack_fields e [(4%nat, fst p); (4%nat, snd p)]) (bScripts b) ;;
  let inf := inf ++ zeros ((- (16 + zlen inf)) mod 32) in
  let dat := dat ++ zeros ((- (8 + zlen dat)) mod 32) in
  let flw := flw ++ zeros ((- (16 + zlen flw)) mod 32) in
  let fli := concat scr in
  let fliLen := 16 + zlen fli + (- (16 + zlen fli)) mod 32 in
  h1 <- pack_fields e [(4%nat, 16 + zlen inf); (2%nat, zlen (bMessages b)); (2%nat, 4 + il);
                       (4%nat, bId b)] ;;
  h2 <- pack_fields e [(4%nat, 8 + zlen dat)] ;;
  h3 <- pack_fields e [(4%nat, 16 + zlen flw); (2%nat, ic); (2%nat, lc)] ;;
  h4 <- pack_fields e [(4%nat, fliLen); (2%nat, zlen (bScripts b)); (2%nat, 8)] ;;
  let hasflw := negb (zlen (bInstructions b) =? 0) || negb (zlen (bLabels b) =? 0) in
  let hasfli := negb (zlen (bScripts b) =? 0) in
  let n := 2 + (if hasflw then 1 else 0) + (if hasfli then 1 else 0) in
  let body := (asc "INF1" ++ h1 ++ inf) ++ (asc "DAT1" ++ h2 ++ dat) ++
              (if hasflw then asc "FLW1" ++ h3 ++ zeros 4 ++ flw else []) ++
              (if hasfli then asc "FLI1" ++ h4 ++ zeros 4 ++ fli else []) in
  let total := 32 + zlen body in
  h <- pack_fields e [(4%nat, total + (- total) mod 32); (4%nat, n);
                      (1%nat, enc_index (bEncoding b));
                      (4%nat, bUnk14 b); (4%nat, bUnk18 b); (4%nat, bUnk1C b)] ;;
  Ok (asc "MESGbmg1" ++ h ++ zeros 3 ++ body).

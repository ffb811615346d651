(** * What a BMG file is expected to give back: specification vocabulary *)
From Coq Require Import String.
From Verif Require Import PyBase BmgModel.

(** a Python string: every element is a Unicode code point *)
Definition is_text (s : text) : Prop := Forall (fun c => 0 <= c < 0x110000) s.

(** one code unit that is neither the terminator nor the start of an escape *)
Definition unit_ok (nul esc u : bytes) : Prop := zlen u = zlen nul /\ u <> nul /\ u <> esc.

(** The encoder and the decoder agree on [s], and the encoded text contains
    neither the terminator nor an escape at a unit boundary.  Proved for cp1252,
    utf-16 and utf-8 (all strings without U+0000 and U+001A); for shift-jis, which
    is a parameter of the model, it is assumed of the strings being saved. *)
Definition framed (c : codec) (nul esc : bytes) (s : text) : Prop :=
  forall b, encode c s = Ok b ->
    c_dec c b = Ok s /\ (s <> [] -> b <> []) /\
    exists us, b = concat us /\ Forall (unit_ok nul esc) us.

(** Adjacent strings of a message are indistinguishable from their
    concatenation, and empty strings disappear. *)
Fixpoint join (ps : list part) : list part :=
  match ps with
  | [] => []
  | Esc t d :: r => Esc t d :: join r
  | Txt [] :: r => join r
  | Txt s :: r =>
      match join r with
      | Txt t :: r' => Txt (s ++ t) :: r'
      | r' => Txt s :: r'
      end
  end.

(** a null message keeps nothing but its info *)
Definition loaded_message (m : message) : message :=
  if mNull m then mkMessage (mInfo m) [] true
  else mkMessage (mInfo m) (join (mParts m)) false.

(** script indices are written as 32-bit numbers but read back as the first two
    of those four bytes *)
Definition loaded_script (e : endian) (p : Z * Z) : Z * Z :=
  (fst p, match e with LE => snd p mod 65536 | BE => snd p / 65536 end).

Definition nonzero_inst (i : bytes) : bool := negb (forallb (Z.eqb 0) i).
Definition nonzero_label (p : Z * Z) : bool := negb ((fst p =? 0) && (snd p =? 0)).

(** what loading a saved BMG gives *)
Definition loaded (b : bmg) : bmg :=
  mkBmg (map loaded_message (bMessages b))
        (filter nonzero_inst (bInstructions b))
        (filter nonzero_label (bLabels b))
        (map (loaded_script (bEndian b)) (bScripts b))
        (bId b) (bEncoding b) (bEndian b) (bUnk14 b) (bUnk18 b) (bUnk1C b).

(** all text is made of code points *)
Definition texts_ok (b : bmg) : Prop :=
  forall m s, In m (bMessages b) -> In (Txt s) (mParts m) -> is_text s.

(** the assumption on shift-jis for the texts of this BMG *)
Definition sjis_fits (sj : codec) (b : bmg) : Prop :=
  c_char sj 0 = Ok [0] /\ c_char sj 26 = Ok [26] /\
  forall m s, In m (bMessages b) -> In (Txt s) (join (mParts m)) -> framed sj [0] [26] s.

(** nothing in [b] is lost by saving *)
Definition canonical (b : bmg) : Prop :=
  (forall m, In m (bMessages b) -> if mNull m then mParts m = [] else join (mParts m) = mParts m) /\
  (forall i, In i (bInstructions b) -> nonzero_inst i = true) /\
  (forall l, In l (bLabels b) -> l <> (0, 0)) /\
  (forall s, In s (bScripts b) -> bEndian b = LE /\ snd s < 65536 \/ snd s = 0).

(** the four bytes of a 32-bit number in the opposite order *)
Definition swap32 (v : Z) : Z :=
  v mod 256 * 16777216 + v / 256 mod 256 * 65536 + v / 65536 mod 256 * 256 + v / 16777216.

(** the length a BMG file claims: its own length rounded up to 32 *)
Definition claimed_len (data : bytes) : Z := (zlen data + 31) / 32 * 32.

(** the file length tells the endianness *)
Definition length_tells (e : endian) (n : Z) : Prop :=
  match e with LE => n < swap32 n | BE => n <= swap32 n end.

(** ** When a BMG can be saved, and how long the file is *)

(** bytes per code unit of the terminator and of the escape marker *)
Definition unit_len (x : encoding) : Z := match x with Utf16 => 2 | _ => 1 end.

Definition sum (l : list Z) : Z := fold_right Z.add 0 l.
Definition char_len (c : codec) (ch : Z) : Z := match c_char c ch with Ok u => zlen u | Err _ => 0 end.
Definition part_len (c : codec) (k : Z) (p : part) : Z :=
  match p with
  | Txt s => sum (map (char_len c) s)
  | Esc _ d => k + 2 + zlen d
  end.
Definition msg_len (c : codec) (k : Z) (m : message) : Z :=
  if mNull m then 0 else sum (map (part_len c k) (mParts m)) + k.

(** a string may not contain the two reserved characters and must be encodable;
    an escape must have a one-byte type and a one-byte total length *)
Definition part_fits (c : codec) (k : Z) (p : part) : Prop :=
  match p with
  | Txt s => ~ In 0 s /\ ~ In 26 s /\ forall ch, In ch s -> exists u, c_char c ch = Ok u
  | Esc t d => 0 <= t < 256 /\ zlen d + 2 + k < 256
  end.

Definition up (a n : Z) : Z := (n + a - 1) / a * a.
Definition info_len (b : bmg) : Z := match bMessages b with m :: _ => zlen (mInfo m) | [] => 0 end.

Definition file_size (sj : codec) (b : bmg) : Z :=
  let k := unit_len (bEncoding b) in
  let c := full_codec sj (bEncoding b) (bEndian b) in
  32 + up 32 (16 + zlen (bMessages b) * (4 + info_len b))
     + up 32 (8 + k + sum (map (msg_len c k) (bMessages b)))
     + (match bInstructions b, bLabels b with
        | [], [] => 0
        | _, _ => up 32 (16 + 8 * up 2 (zlen (bInstructions b)) + 2 * up 8 (zlen (bLabels b)) + zlen (bLabels b))
        end)
     + (match bScripts b with [] => 0 | _ => 16 + 8 * zlen (bScripts b) end).

Definition is_u (bits v : Z) : Prop := 0 <= v < 2 ^ bits.
Definition is_s (bits v : Z) : Prop := - 2 ^ (bits - 1) <= v < 2 ^ (bits - 1).

Definition fits (sj : codec) (b : bmg) : Prop :=
  let c := full_codec sj (bEncoding b) (bEndian b) in
  (forall m, In m (bMessages b) -> zlen (mInfo m) = info_len b) /\
  (forall m p, In m (bMessages b) -> mNull m = false -> In p (mParts m) ->
     part_fits c (unit_len (bEncoding b)) p) /\
  (forall i, In i (bInstructions b) -> zlen i = 8) /\
  (forall l, In l (bLabels b) -> is_s 8 (fst l) /\ is_s 16 (snd l)) /\
  (forall s, In s (bScripts b) -> is_u 32 (fst s) /\ is_u 32 (snd s)) /\
  is_u 16 (zlen (bMessages b)) /\ is_u 16 (4 + info_len b) /\
  is_u 16 (up 2 (zlen (bInstructions b))) /\ is_u 16 (up 8 (zlen (bLabels b))) /\
  is_u 16 (zlen (bScripts b)) /\
  is_u 32 (bId b) /\ is_u 32 (bUnk14 b) /\ is_u 32 (bUnk18 b) /\ is_u 32 (bUnk1C b) /\
  is_u 32 (up 32 (file_size sj b)).

(** ** A message as it lies in the text section of a file *)

(** From [off] on there are code units up to a terminator, and escapes whose
    stated length covers at least their own marker, length and type. *)
Inductive stored (nul esc dat : bytes) : Z -> Prop :=
| stored_end off : slice dat off (off + zlen nul) = nul -> stored nul esc dat off
| stored_unit off : unit_ok nul esc (slice dat off (off + zlen nul)) ->
    stored nul esc dat (off + zlen nul) -> stored nul esc dat off
| stored_escape off l t : slice dat off (off + zlen esc) = esc ->
    slice dat (off + zlen esc) (off + zlen esc + 2) = [l; t] -> zlen esc + 2 <= l ->
    stored nul esc dat (off + l) -> stored nul esc dat off.

(** * Python run-time vocabulary used by every model file.

    Definitions only.  Python [int] is [Z], [bytes]/[bytearray] is [list Z]
    (elements 0..255, see [is_bytes]); [str] restricted to latin-1 is the list
    of its code points.  Python exceptions are values of [exc].
    This file models the CPython built-ins that /repo/ndspy relies on (indexing,
    slicing, [struct], [find]/[rfind], [rstrip], ...), not a file of the repo. *)
From Coq Require Export List ZArith Lia Bool.
Export ListNotations.
Global Open Scope Z_scope.

(** Python exception classes raised by the modelled code.  [OutOfFuel] is not a
    Python exception: it marks a fuelled loop whose fuel ran out. *)
Inductive exc : Set :=
| IndexError | ValueError | StructError | TypeError | KeyError | AssertionError
| StopIteration | RuntimeError | AttributeError | OverflowError
| UnicodeError | RecursionError | ZeroDivisionError | EOFError | OutOfFuel.

Inductive res (A : Type) : Type :=
| Ok (a : A)
| Err (e : exc).
Arguments Ok {A} a.
Arguments Err {A} e.

Definition bind {A B} (x : res A) (k : A -> res B) : res B :=
  match x with Ok a => k a | Err e => Err e end.

Notation "x <- e1 ;; e2" := (bind e1 (fun x => e2))
  (at level 61, e1 at next level, right associativity).
Notation "' p <- e1 ;; e2" := (bind e1 (fun p => e2))
  (at level 61, p pattern, e1 at next level, right associativity).

(** [if not c: raise e] *)
Definition guard (c : bool) (e : exc) : res unit := if c then Ok tt else Err e.

Fixpoint mapM {A B} (f : A -> res B) (l : list A) : res (list B) :=
  match l with
  | [] => Ok []
  | x :: r => y <- f x ;; ys <- mapM f r ;; Ok (y :: ys)
  end.

Fixpoint foldM {S A} (f : S -> A -> res S) (s : S) (l : list A) : res S :=
  match l with
  | [] => Ok s
  | x :: r => s' <- f s x ;; foldM f s' r
  end.

Notation bytes := (list Z).
Definition is_byte (b : Z) : Prop := 0 <= b < 256.
Definition is_bytes (l : bytes) : Prop := Forall is_byte l.
Definition byteb (b : Z) : bool := (0 <=? b) && (b <? 256).

(** [len(l)] *)
Definition zlen {A} (l : list A) : Z := Z.of_nat (length l).

(** [range(start, start+count)] *)
Fixpoint range_z (start : Z) (count : nat) : list Z :=
  match count with O => [] | S k => start :: range_z (start + 1) k end.

(** [b'\0' * n] / [bytearray(n)]; a negative count gives the empty string *)
Definition rep {A} (x : A) (n : Z) : list A := repeat x (Z.to_nat n).
Definition zeros (n : Z) : bytes := rep 0 n.

(** ** Indexing and slicing *)

(** [l[i]] with Python's negative-index rule *)
Definition get {A} (l : list A) (i : Z) : res A :=
  let j := if i <? 0 then i + zlen l else i in
  if j <? 0 then Err IndexError
  else match nth_error l (Z.to_nat j) with
       | Some x => Ok x
       | None => Err IndexError
       end.

Fixpoint upd {A} (l : list A) (n : nat) (x : A) : list A :=
  match l, n with
  | [], _ => []
  | _ :: r, O => x :: r
  | y :: r, S k => y :: upd r k x
  end.

(** [l[i] = x] on a list *)
Definition setl {A} (l : list A) (i : Z) (x : A) : res (list A) :=
  let j := if i <? 0 then i + zlen l else i in
  if (j <? 0) || (zlen l <=? j) then Err IndexError
  else Ok (upd l (Z.to_nat j) x).

(** slice bound clamping: [slice(i, ...).indices(len)] with step 1 *)
Definition clamp (n i : Z) : Z :=
  if i <? 0 then Z.max 0 (i + n) else Z.min i n.

(** [l[i:j]] *)
Definition slice {A} (l : list A) (i j : Z) : list A :=
  let a := clamp (zlen l) i in
  let b := clamp (zlen l) j in
  firstn (Z.to_nat (b - a)) (skipn (Z.to_nat a) l).
(** [l[i:]] and [l[:j]] *)
Definition slice_from {A} (l : list A) (i : Z) : list A := slice l i (zlen l).
Definition slice_to {A} (l : list A) (j : Z) : list A := slice l 0 j.

(** [l[i:j] = v] on a bytearray *)
Definition slice_set {A} (l : list A) (i j : Z) (v : list A) : list A :=
  let a := clamp (zlen l) i in
  let b := Z.max a (clamp (zlen l) j) in
  firstn (Z.to_nat a) l ++ v ++ skipn (Z.to_nat b) l.

(** ** Byte-string comparison and search *)

Fixpoint list_eqb {A} (eqb : A -> A -> bool) (a b : list A) : bool :=
  match a, b with
  | [], [] => true
  | x :: a', y :: b' => eqb x y && list_eqb eqb a' b'
  | _, _ => false
  end.
Definition beq : bytes -> bytes -> bool := list_eqb Z.eqb.

Fixpoint prefixb (p l : bytes) : bool :=
  match p, l with
  | [], _ => true
  | x :: p', y :: l' => (x =? y) && prefixb p' l'
  | _ :: _, [] => false
  end.

(** first / last position [k] in [pos, pos+count) at which [pat] occurs in
    [pos]-suffix [l] (so [l] is the data from [pos] on) *)
Fixpoint find_from (pat l : bytes) (pos : Z) (count : nat) : Z :=
  match count with
  | O => -1
  | S k => if prefixb pat l then pos else find_from pat (tl l) (pos + 1) k
  end.
Fixpoint rfind_from (pat l : bytes) (pos : Z) (count : nat) : Z :=
  match count with
  | O => -1
  | S k => let r := rfind_from pat (tl l) (pos + 1) k in
           if r =? -1 then (if prefixb pat l then pos else -1) else r
  end.

(** [data.find(pat, i, j)] / [data.rfind(pat, i, j)]: the occurrence has to lie
    inside [data[i:j]] *)
Definition find_in (data pat : bytes) (i j : Z) : Z :=
  let a := clamp (zlen data) i in
  let b := clamp (zlen data) j in
  find_from pat (skipn (Z.to_nat a) data) a (Z.to_nat (b - zlen pat - a + 1)).
Definition rfind_in (data pat : bytes) (i j : Z) : Z :=
  let a := clamp (zlen data) i in
  let b := clamp (zlen data) j in
  rfind_from pat (skipn (Z.to_nat a) data) a (Z.to_nat (b - zlen pat - a + 1)).

(** [b.rstrip(c)] for a single byte [c] *)
Fixpoint rstrip (c : Z) (l : bytes) : bytes :=
  match l with
  | [] => []
  | x :: r => match rstrip c r with
              | [] => if x =? c then [] else [x]
              | r' => x :: r'
              end
  end.

(** [b.ljust(n, c)] for a single byte [c] *)
Definition ljust (l : bytes) (n c : Z) : bytes := l ++ rep c (n - zlen l).

(** ** struct *)

Fixpoint le (n : nat) (v : Z) : bytes :=
  match n with O => [] | S k => (v mod 256) :: le k (v / 256) end.
Fixpoint unle (l : bytes) : Z :=
  match l with [] => 0 | b :: r => b + 256 * unle r end.
Definition be (n : nat) (v : Z) : bytes := rev (le n v).
Definition unbe (l : bytes) : Z := unle (rev l).

(** '<' / '>' *)
Inductive endian : Set := LE | BE.
Definition enc (e : endian) (n : nat) (v : Z) : bytes :=
  match e with LE => le n v | BE => be n v end.
Definition dec (e : endian) (l : bytes) : Z :=
  match e with LE => unle l | BE => unbe l end.

(** [struct.pack] of one unsigned / signed [n]-byte field: out of range values
    raise struct.error.  A multi-field pack is the concatenation of the fields'
    packs (all failures are struct.error and there is no partial effect). *)
Definition pack_e (e : endian) (n : nat) (v : Z) : res bytes :=
  if (0 <=? v) && (v <? 256 ^ Z.of_nat n) then Ok (enc e n v) else Err StructError.
Definition pack_u : nat -> Z -> res bytes := pack_e LE.
Definition pack_s (n : nat) (v : Z) : res bytes :=
  if (- (256 ^ Z.of_nat n / 2) <=? v) && (v <? 256 ^ Z.of_nat n / 2)
  then Ok (le n (v mod 256 ^ Z.of_nat n)) else Err StructError.

(** offset rule of [struct.unpack_from] / [pack_into]: a negative offset counts
    from the end and must leave room for the item *)
Definition struct_off (n len off : Z) : res Z :=
  if off <? 0 then
    (if (0 <? off + n) || (off + len <? 0) then Err StructError else Ok (off + len))
  else if len <? off + n then Err StructError else Ok off.

(** the [n] raw bytes at [off] ([struct.unpack_from('{n}s', data, off)]) *)
Definition rd (data : bytes) (off n : Z) : res bytes :=
  o <- struct_off n (zlen data) off ;;
  Ok (firstn (Z.to_nat n) (skipn (Z.to_nat o) data)).

(** one unsigned / signed field at [off].  A multi-field [unpack_from] is a
    sequence of these at increasing non-negative offsets: it fails (with
    struct.error) exactly when the last field does not fit. *)
Definition unpack_e (e : endian) (n : nat) (data : bytes) (off : Z) : res Z :=
  b <- rd data off (Z.of_nat n) ;; Ok (dec e b).
Definition unpack_u : nat -> bytes -> Z -> res Z := unpack_e LE.
Definition sign_of (n : nat) (v : Z) : Z :=
  if v <? 256 ^ Z.of_nat n / 2 then v else v - 256 ^ Z.of_nat n.
Definition unpack_s (n : nat) (data : bytes) (off : Z) : res Z :=
  v <- unpack_u n data off ;; Ok (sign_of n v).

(** [struct.pack_into] of already packed bytes [b] at [off] *)
Definition put (data : bytes) (off : Z) (b : bytes) : res bytes :=
  o <- struct_off (zlen b) (zlen data) off ;;
  Ok (firstn (Z.to_nat o) data ++ b ++ skipn (Z.to_nat (o + zlen b)) data).

(** several unsigned little-endian fields at once: [struct.pack('<...', ...)] *)
Fixpoint pack_us (fs : list (nat * Z)) : res bytes :=
  match fs with
  | [] => Ok []
  | (n, v) :: r => b <- pack_u n v ;; bs <- pack_us r ;; Ok (b ++ bs)
  end.

(** [bytes(l)] / [bytearray.append]: every element must be in range(256) *)
Definition to_bytes (l : list Z) : res bytes :=
  if forallb byteb l then Ok l else Err ValueError.

(** [while len(data) % a: data.append(fill)] in closed form, also the helper
    [align]: the loop itself is [pad_loop] below and is proved equal in PyLemmas. *)
Definition pad_to (a fill : Z) (data : bytes) : bytes :=
  data ++ rep fill ((- zlen data) mod a).
Fixpoint pad_loop (fuel : nat) (a fill : Z) (data : bytes) : bytes :=
  match fuel with
  | O => data
  | S k => if zlen data mod a =? 0 then data else pad_loop k a fill (data ++ [fill])
  end.

(** ASCII literals such as b'NARC' *)
From Coq Require Import Ascii String.
Fixpoint asc (s : string) : bytes :=
  match s with
  | EmptyString => []
  | String c r => Z.of_nat (nat_of_ascii c) :: asc r
  end.
Arguments asc s%string.

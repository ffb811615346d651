(** * Specification vocabulary for LZ streams (independent of the compressor).

    A stream is a list of blocks; a block is a flag byte followed by at most
    eight tokens.  A token is a literal byte or a back reference. *)
From Verif Require Import PyBase LzModel.

Inductive token : Set :=
| Lit (b : Z)
| Ref (len dist : Z).   (* copy [len] bytes from [dist] bytes back *)

Definition is_ref (t : token) : bool := match t with Lit _ => false | Ref _ _ => true end.

(** the bytes a token denotes when [out] has been produced so far *)
Definition expand_token (out : bytes) (t : token) : bytes :=
  match t with
  | Lit b => [b]
  | Ref l d => slice out (zlen out - d) (zlen out - d + l)
  end.
Fixpoint expand (out : bytes) (ts : list token) : bytes :=
  match ts with
  | [] => out
  | t :: r => expand (out ++ expand_token out t) r
  end.

(** wire format of a token: 4 bits of length, 12 bits of displacement, big endian *)
Definition tok_bytes (posSub : Z) (t : token) : bytes :=
  match t with
  | Lit b => [b]
  | Ref l d => [ (l - 3) * 16 + (d - posSub) / 256; (d - posSub) mod 256 ]
  end.
Definition toks_bytes (posSub : Z) (ts : list token) : bytes :=
  concat (map (tok_bytes posSub) ts).

(** bit 7 of the flag byte describes the first token, and so on *)
Fixpoint flag_byte (weight : Z) (ts : list token) : Z :=
  match ts with
  | [] => 0
  | t :: r => (if is_ref t then weight else 0) + flag_byte (weight / 2) r
  end.
Definition block_bytes (p : lzparams) (ts : list token) : bytes :=
  flag_byte 128 ts :: toks_bytes (posSubtract p) ts
    ++ (if zerosAtEnd p then zeros (8 - zlen ts) else []).
Definition stream_bytes (p : lzparams) (bs : list (list token)) : bytes :=
  concat (map (block_bytes p) bs).

(** there is no copy of the [m] bytes at [c] inside the search window *)
Definition no_match (p : lzparams) (data : bytes) (c m : Z) : Prop :=
  forall k, Z.max 0 (c - maxMatchDiff p) <= k -> k + m <= c ->
            slice data k (k + m) <> slice data c (c + m).

(** [t] is a correct and greedy token for position [c] of [data]: references are
    fully available earlier copies inside the window, and no longer match exists *)
Definition tok_ok (p : lzparams) (data : bytes) (c : Z) (t : token) : Prop :=
  match t with
  | Lit b => get data c = Ok b /\
             (forall m, 3 <= m <= maxMatchLen p -> c + m <= zlen data -> no_match p data c m)
  | Ref l d => 3 <= l <= maxMatchLen p /\ l <= d <= maxMatchDiff p /\ d <= c /\
               c + l <= zlen data /\
               slice data (c - d) (c - d + l) = slice data c (c + l) /\
               (forall m, l < m <= maxMatchLen p -> c + m <= zlen data -> no_match p data c m)
  end.
Definition tok_len (t : token) : Z := match t with Lit _ => 1 | Ref l _ => l end.

(** [ts] encodes [data] from position [c] to position [c'] *)
Inductive toks_ok (p : lzparams) (data : bytes) : Z -> list token -> Z -> Prop :=
| toks_nil c : toks_ok p data c [] c
| toks_cons c t ts c' : tok_ok p data c t -> toks_ok p data (c + tok_len t) ts c' ->
                        toks_ok p data c (t :: ts) c'.

(** all blocks hold eight tokens, except that the last one may hold fewer *)
Fixpoint blocks_shape (bs : list (list token)) : Prop :=
  match bs with
  | [] => True
  | [b] => 1 <= zlen b <= 8
  | b :: r => zlen b = 8 /\ blocks_shape r
  end.

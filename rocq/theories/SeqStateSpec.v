(** C98: what an SSEQ object looks like from outside — either some data or some
    events, never both — and when two SSAR objects cannot be told apart *)
From Verif Require Import PyBase SeqModel SsarModel SsarLemmas SeqStateModel.

(** ** SSEQ: an object is in one of two states *)
Inductive content := Unread (d : bytes) | Read (l : list (Z * ev)).
Definition file_of (d : bytes) (i : seqInfo) : res seen :=
  if 0x1C + zlen d <? 2 ^ 32 then Ok (SFile (sseq_bytes d) i) else Err StructError.
(** what an access shows in each of them, and the state afterwards *)
Definition expected (depth : nat) (i : seqInfo) (c : content) (o : qop) : content * res seen :=
  match c, o with
  | Unread d, QData => (c, Ok (SData d))
  | Unread d, QEvents => (c, Err ValueError)
  | Unread _, QSetData d => (Unread d, Ok SDone)
  | Unread d, QSetEvents _ => (c, Ok SDone)
  | Unread d, QParsed => (c, Ok (SBool false))
  | Unread d, QParse =>
      match readSequenceEvents depth d [] with Ok (l, _) => (Read l, Ok SDone) | Err k => (c, Err k) end
  | Unread d, QSave => (c, file_of d i)
  | Read l, QData => (c, Err ValueError)
  | Read l, QEvents => (c, Ok (SEvents l))
  | Read l, QSetData _ => (c, Ok SDone)
  | Read _, QSetEvents l => (Read l, Ok SDone)
  | Read l, QParsed => (c, Ok (SBool true))
  | Read l, QParse => (c, Ok SDone)
  | Read l, QSave =>
      (c, match saveSequenceEvents l [] with Ok (d, _) => file_of d i | Err k => Err k end)
  | _, QSetParsed _ => (c, Err RuntimeError)
  end.
Fixpoint expecteds (depth : nat) (i : seqInfo) (c : content) (l : list qop) : list (res seen) :=
  match l with
  | [] => []
  | o :: r => snd (expected depth i c o) :: expecteds depth i (fst (expected depth i c o)) r
  end.

(** ** SSAR *)
(** two sequences that look the same: same parameters and state, and the same in the
    property that can be read in that state *)
Definition alike_seq (p q : option (list Z) * aseq) : Prop :=
  fst p = fst q /\ aParams (snd p) = aParams (snd q) /\ aParsed (snd p) = aParsed (snd q) /\
  (aParsed (snd p) = true -> aFirst (snd p) = aFirst (snd q)) /\ (aParsed (snd p) = false -> aOffset (snd p) = aOffset (snd q)).
Definition alike (r s : ssar) : Prop :=
  rParsed r = rParsed s /\ rUnk r = rUnk s /\ Forall2 alike_seq (rSeqs r) (rSeqs s) /\
  (rParsed r = true -> rEvents r = rEvents s) /\ (rParsed r = false -> rData r = rData s).

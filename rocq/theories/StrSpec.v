(** * What the short texts of objects say, independently of how they are produced *)
From Coq Require Import String.
From Verif Require Import PyBase TextSpec SeqTextSpec.
From Verif Require BmgModel.

(** the decimal numbers in a text, in order: the maximal runs of digits *)
Fixpoint numbers_from (current : option Z) (s : list Z) : list Z :=
  match s with
  | [] => match current with Some n => [n] | None => [] end
  | c :: r =>
    if digit c then numbers_from (Some (10 * match current with Some n => n | None => 0 end + (c - 48))) r
    else match current with Some n => n :: numbers_from None r | None => numbers_from None r end
  end.
Definition numbers (s : list Z) : list Z := numbers_from None s.

(** a percentage with at most one decimal place, in tenths of a percent *)
Definition tenths (s : list Z) : option Z :=
  obind (before_last 37 s) (fun p =>
  match split 46 p with
  | [a] => option_map (Z.mul 10) (numeral a)
  | [a; [d]] => if digit d then option_map (fun n => 10 * n + (d - 48)) (numeral a) else None
  | _ => None
  end).

(** the key a name in a list of regions stands for *)
Definition key_name (s : list Z) : option Z := if beq s (asc "min") then Some 0 else if beq s (asc "max") then Some 127 else helmholtz s.

(** parts of a message that its text tells apart: text that is not empty and has an opening bracket,
    with escapes between texts *)
Fixpoint tellable (l : list BmgModel.part) : Prop :=
  match l with
  | [] => True
  | BmgModel.Txt s :: r => s <> [] /\ ~ In 91 s /\ match r with BmgModel.Txt _ :: _ => False | _ => True end /\ tellable r
  | BmgModel.Esc _ d :: r => is_bytes d /\ tellable r
  end.

(** a text has another one within it *)
Definition mentions (t s : list Z) : Prop := exists a b, s = a ++ t ++ b.

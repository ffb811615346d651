(** * Unpacking compressed code in the memory it lies in (for C125)

    The console loads a compressed code file to the place where the code is to be, and
    unpacks it there: it reads downwards from the end of the compressed part, and
    writes downwards from the end of the place, both in the same memory.  Whatever it
    writes over is gone. *)
From Verif Require Import PyBase RomSpec ViewSpec ViewLzSpec.

Definition memory := Z -> Z.
Definition store (m : memory) (a v : Z) : memory := fun x => if x =? a then v else m x.

(** the memory, the address above the next byte to read and above the next to write *)
Record machine := { ram : memory; src : Z; dst : Z }.

(** [n] bytes are copied one by one from [dist] addresses above *)
Fixpoint copy_down (n : nat) (dist : Z) (s : machine) : machine :=
  match n with
  | O => s
  | S k => copy_down k dist {| ram := store (ram s) (dst s - 1) (ram s (dst s - 1 + dist)); src := src s; dst := dst s - 1 |}
  end.

(** a 0 bit: a byte; a 1 bit: two bytes that tell length and distance *)
Definition item (ref : bool) (s : machine) : machine :=
  let b1 := ram s (src s - 1) in
  let b2 := ram s (src s - 2) in
  if ref then copy_down (Z.to_nat (b1 / 16 + 3)) (b1 mod 16 * 256 + b2 + 3) {| ram := ram s; src := src s - 2; dst := dst s |}
  else {| ram := store (ram s) (dst s - 1) b1; src := src s - 1; dst := dst s - 1 |}.

(** all stops when the last byte above [stop] has been read *)
Fixpoint items (stop : Z) (fs : list bool) (s : machine) : machine :=
  match fs with
  | [] => s
  | f :: r => if src s <=? stop then s else items stop r (item f s)
  end.
Fixpoint unpack_down (rounds : nat) (stop : Z) (s : machine) : machine :=
  match rounds with
  | O => s
  | S k => if src s <=? stop then s
           else unpack_down k stop (items stop (bits (ram s (src s - 1))) {| ram := ram s; src := src s - 1; dst := dst s |})
  end.

(** the file [c] lies at address 0; anything may lie around it *)
Definition loaded (c : bytes) (around : memory) : memory :=
  fun a => if (0 <=? a) && (a <? zlen c) then byte c a else around a.
(** the last eight bytes tell where to read, to stop and to write; the number of
    rounds is no limit, as each reads a byte *)
Definition unpack_in_place (c : bytes) (around : memory) : machine :=
  unpack_down (length c) (zlen c - comp_len c 0)
    {| ram := loaded c around; src := zlen c - end_len c 0; dst := zlen c + extra_len c 0 |}.

(** the data end up where the file began *)
Definition unpacked (data : bytes) (around : memory) (s : machine) : Prop :=
  (forall a, 0 <= a < zlen data -> ram s a = byte data a) /\ (forall a, a < 0 \/ zlen data <= a -> ram s a = around a).

(** * What arbitrary compressed data mean (for C114)

    Compressed data are flag bytes, each followed by eight items: for a 0 bit, the
    highest first, a byte; for a 1 bit a reference to what was put out before, of two
    bytes: 4 bits of length and 12 bits of distance. *)
From Verif Require Import PyBase RomSpec ViewSpec LzSpec.

Definition bits (b : Z) : list bool := map (fun i => Z.testbit b (7 - Z.of_nat i)) (seq 0 8).

Section Unpacks.
  (** [d]: the compressed data, [total]: how many bytes to put out,
      [copy len disp o o']: a reference with these numbers after [o] gives [o'] *)
  Variables (d : bytes) (total : Z) (copy : Z -> Z -> bytes -> bytes -> Prop).
  (** [unpacks p bs o r]: from place [p], with the flags [bs] not yet used and [o] put
      out so far, the result is [r] *)
  Inductive unpacks : Z -> list bool -> bytes -> bytes -> Prop :=
  | Full : forall p bs o, zlen o = total -> unpacks p bs o o
  | Flags : forall p o r, zlen o < total -> p < zlen d -> unpacks (p + 1) (bits (byte d p)) o r -> unpacks p [] o r
  | Literal : forall p bs o r, zlen o < total -> p < zlen d -> unpacks (p + 1) bs (o ++ [byte d p]) r -> unpacks p (false :: bs) o r
  | Reference : forall p bs o o' r, zlen o < total -> p + 2 <= zlen d ->
      copy (byte d p / 16 + 3) (byte d p mod 16 * 256 + byte d (p + 1)) o o' -> unpacks (p + 2) bs o' r -> unpacks p (true :: bs) o r.
  (** one by one [k] bytes are put out again that were put out [dist] bytes before, but no
      more than [total] in all; places before the start count from the end of the
      output, where there may be nothing but zeros yet *)
  Fixpoint again (k : nat) (dist : Z) (o : bytes) : bytes :=
    match k with
    | O => o
    | S k => if zlen o <? total then again k dist (o ++ [let i := zlen o - dist in byte o (if i <? 0 then total + i else i)]) else o
    end.
End Unpacks.

(** ** lz10: byte 0x10, 24 bits of length, data *)
Definition copy10 (total len disp : Z) (o o' : bytes) : Prop := disp + 1 <= total + zlen o /\ o' = again total (Z.to_nat len) (disp + 1) o.
Definition lz10_means (d r : bytes) : Prop :=
  4 <= zlen d /\ byte d 0 = 0x10 /\ unpacks d (unle (part d 1 3)) (copy10 (unle (part d 1 3))) 4 [] [] r.

(** ** compressed code: all is reversed; at the end eight bytes tell the length of the
    compressed part with its end, the length of this end and how many bytes more are put out *)
Section Code.
  Variable d : bytes.
  Definition end_len (a : Z) : Z := byte d (zlen d - a - 5).
  Definition comp_len (a : Z) : Z := unle (part d (zlen d - a - 8) 3).
  Definition extra_len (a : Z) : Z := unle (part d (zlen d - a - 4) 4).
  (** the last [a] bytes are taken for appended data: the eight bytes before them make
      sense, and this is the smallest such multiple of 4 below 32 *)
  Definition sensible (a : Z) : Prop := 8 <= end_len a /\ comp_len a <= zlen d.
  Definition appended (a : Z) : Prop :=
    a mod 4 = 0 /\ 0 <= a < 32 /\ a + 8 <= zlen d /\ sensible a /\ forall a', a' mod 4 = 0 -> 0 <= a' < a -> ~ sensible a'.
  (** no appended data and no compressed data: for want of bytes or of sense *)
  Definition plain : Prop :=
    exists a, a mod 4 = 0 /\ 0 <= a <= 32 /\ (zlen d < a + 5 \/ a = 32) /\ (forall a', a' mod 4 = 0 -> 0 <= a' < a -> a' + 8 <= zlen d /\ ~ sensible a').
End Code.
Definition copy_code (total len disp : Z) (o o' : bytes) : Prop :=
  zlen o + len <= total /\ (zlen o < disp + 3 -> 2 <= zlen o) /\ o' = again total (Z.to_nat len) (if zlen o <? disp + 3 then 2 else disp + 3) o.
(** what a file with these eight bytes at its very end means *)
Definition code_means (d r : bytes) : Prop :=
  end_len d 0 <= zlen d /\ comp_len d 0 <= zlen d /\ (forall i, zlen d - end_len d 0 <= i < zlen d - 8 -> byte d i = 0xFF) /\
  exists out, unpacks (rev (part d (zlen d - comp_len d 0) (comp_len d 0 - end_len d 0))) (comp_len d 0 + extra_len d 0) (copy_code (comp_len d 0 + extra_len d 0)) 0 [] [] out /\
    r = part d 0 (zlen d - comp_len d 0) ++ rev out.

(** ** What any encoder may write: literals and references as in LzSpec, in blocks *)
(** what a list of tokens tells, after [o] has been put out; a reference may reach into
    what it puts out itself *)
Inductive tells : bytes -> list token -> bytes -> Prop :=
| tells_end o : tells o [] o
| tells_lit o b ts r : tells (o ++ [b]) ts r -> tells o (Lit b :: ts) r
| tells_ref o l dist x ts r : zlen x = l -> (forall i, 0 <= i < l -> byte (o ++ x) (zlen o + i) = byte (o ++ x) (zlen o + i - dist)) -> dist <= zlen o -> tells (o ++ x) ts r -> tells o (Ref l dist :: ts) r.
(** tokens that can be written: [sub] is the smallest distance *)
Definition writable (sub : Z) (t : token) : Prop := match t with Lit b => is_byte b | Ref l dist => 3 <= l <= 18 /\ sub <= dist < sub + 4096 end.
(** flag bytes before every eight tokens *)
Definition written (sub : Z) (bs : list (list token)) : bytes := concat (map (fun b => flag_byte 128 b :: toks_bytes sub b) bs).

(** * What arbitrary sequence data mean (for C115) *)
From Verif Require Import PyBase SeqModel SeqSpec RomSpec ViewSpec ViewSdatSpec.

(** variable-length numbers: up to five bytes of 7 bits, the highest first; all but
    the last have bit 7 *)
Definition septets (l : bytes) : Z := fold_left (fun v b => v * 128 + b mod 128) l 0.
Definition number (d : bytes) (p v : Z) : Prop :=
  exists n, 1 <= n <= 5 /\ p + n <= zlen d /\ (forall i, 0 <= i < n - 1 -> 128 <= byte d (p + i)) /\ byte d (p + n - 1) < 128 /\ v = septets (part d p n).

(** the event at place [p] *)
Definition says (d : bytes) (p : Z) (e : ev) : Prop :=
  0 <= p < zlen d /\
  match e with
  | Note t v f l => byte d p = t /\ t < 128 /\ p + 1 < zlen d /\ byte d (p + 1) = v + (if f then 128 else 0) /\ 0 <= v < 128 /\ number d (p + 2) l
  | Rest l => byte d p = 0x80 /\ number d (p + 1) l
  | Instr b i => byte d p = 0x81 /\ 0 <= i < 128 /\ number d (p + 1) (128 * b + i)
  | BeginTrack n r => byte d p = 0x93 /\ p + 1 < zlen d /\ n = byte d (p + 1) /\ r = Some (unle (part d (p + 2) 3))
  | Jump r => byte d p = 0x94 /\ r = Some (unle (part d (p + 1) 3))
  | Call r => byte d p = 0x95 /\ r = Some (unle (part d (p + 1) 3))
  | Random s args lo hi =>
    byte d p = 0xA0 /\ s = byte d (p + 1) /\ sub_args s = Some (zlen args) /\ args = part d (p + 2) (zlen args) /\
    p + 2 + zlen args + 4 <= zlen d /\ lo = signed 16 (half d (p + 2 + zlen args)) /\ hi = signed 16 (half d (p + 4 + zlen args))
  | FromVar s v (Some u) => byte d p = 0xA1 /\ s = byte d (p + 1) /\ 0xB0 <= s <= 0xBD /\ p + 4 <= zlen d /\ u = signed 8 (byte d (p + 2)) /\ v = signed 8 (byte d (p + 3))
  | FromVar s v None => byte d p = 0xA1 /\ s = byte d (p + 1) /\ ~ (0xB0 <= s <= 0xBD) /\ p + 4 <= zlen d /\ v = signed 16 (half d (p + 2))
  | Arith t v w => byte d p = t /\ 0xB0 <= t <= 0xBD /\ p + 4 <= zlen d /\ v = byte d (p + 1) /\ w = signed 16 (half d (p + 2))
  | Byte1 t v => byte d p = t /\ (0xC0 <= t <= 0xD6 \/ t = 0xE0) /\ p + 2 <= zlen d /\ v = byte d (p + 1) /\ (t = 0xC7 -> v <= 1) /\ (t = 0xCC -> v <= 2)
  | Word1 t v => byte d p = t /\ (t = 0xE1 \/ t = 0xE3) /\ p + 3 <= zlen d /\ v = half d (p + 1)
  | Bare t => byte d p = t /\ In t [0xA2; 0xFC; 0xFD; 0xFF]
  | DefTracks ts => byte d p = 0xFE /\ p + 3 <= zlen d /\ ts = filter (fun i => Z.testbit (half d (p + 1)) i) (map Z.of_nat (seq 0 16))
  | Raw _ => False
  end.

(** how many bytes an event is taken to have: numbers count as short as can be, whatever
    they were written with *)
Definition digits (v : Z) : Z := if v <? 128 then 1 else if v <? 128 ^ 2 then 2 else if v <? 128 ^ 3 then 3 else if v <? 128 ^ 4 then 4 else 5.
Definition takes (e : ev) : Z :=
  match e with
  | Note _ _ _ l => 2 + digits l
  | Rest l => 1 + digits l
  | Instr b i => 1 + digits (128 * b + i)
  | BeginTrack _ _ => 5
  | Jump _ | Call _ | Arith _ _ _ => 4
  | Random _ args _ _ => 6 + zlen args
  | FromVar _ _ u => match u with Some _ => 4 | None => 3 end
  | Byte1 _ _ => 2
  | Word1 _ _ | DefTracks _ => 3
  | Bare _ => 1
  | Raw b => zlen b
  end.

Section Reaches.
  Variable d : bytes.
  (** what may be played from place [a] on *)
  Inductive reaches : Z -> Z -> Prop :=
  | here a : reaches a a
  | next a p e : reaches a p -> says d p e -> (is_control e = false \/ exists n r, e = BeginTrack n r) -> reaches a (p + takes e)
  | there a p e q : reaches a p -> says d p e -> ev_ref e = Some q -> reaches a q
  | skipped a p r x : reaches a p -> says d p (Jump r) -> x < p -> says d x (Bare 0xA2) -> reaches a (p + 4)
  | returned a p q x : reaches a p -> says d p (Call (Some q)) -> reaches q x -> says d x (Bare 0xFD) -> reaches a (p + 4).
  (** [found]: which events were found.  The list from place [i] on: the events
      one after the other, each after the bytes the one before takes, and raw data in
      between up to the next place where one was found *)
  Variable found : Z -> ev -> Prop.
  Inductive listed : Z -> list (Z * ev) -> Prop :=
  | l_end i : zlen d <= i -> listed i []
  | l_event i e l : i < zlen d -> found i e -> listed (i + takes e) l -> listed i ((i, e) :: l)
  | l_raw i j l : i < j <= zlen d -> (forall k e, i <= k < j -> ~ found k e) -> (j < zlen d -> exists e, found j e) -> listed j l ->
      listed i ((i, Raw (part d i (j - i))) :: l).
End Reaches.

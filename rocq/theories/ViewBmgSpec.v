(** * What arbitrary message files mean (for C113)

    [num e n d o] is the number of [n] bytes at place [o] of [d]; how bytes are decoded
    to text is the codec's business (see C95). *)
From Coq Require Import String.
From Verif Require Import PyBase BmgModel RomSpec ViewSpec ViewSdatSpec.

Definition num (e : endian) (n : Z) (d : bytes) (o : Z) : Z := dec e (part d o n).

(** ** sections: each starts where the one before says it ends *)
Fixpoint place (e : endian) (d : bytes) (j : nat) : Z :=
  match j with O => 0x20 | Datatypes.S k => place e d k + num e 4 d (place e d k + 4) end.
Definition sec_kind (e : endian) (d : bytes) (j : nat) : bytes := part d (place e d j) 4.

Definition inf_shape (e : endian) (d : bytes) (p : Z) : Prop :=
  p + 16 <= zlen d /\ forall i, (i < Z.to_nat (num e 2 d (p + 8)))%nat -> p + 16 + Z.of_nat i * num e 2 d (p + 10) + 4 <= zlen d.
(** offsets of messages and what is known about them *)
Definition inf_entries (e : endian) (d : bytes) (p : Z) : list (Z * bytes) :=
  map (fun i => let q := p + 16 + Z.of_nat i * num e 2 d (p + 10) in (num e 4 d q, part d (q + 4) (num e 2 d (p + 10) - 4))) (seq 0 (Z.to_nat (num e 2 d (p + 8)))).
(** the instructions need not be there, the labels must *)
Definition flw_shape (e : endian) (d : bytes) (p : Z) : Prop :=
  p + 16 <= zlen d /\ (num e 2 d (p + 10) = 0 \/ p + 16 + 8 * num e 2 d (p + 8) + 3 * num e 2 d (p + 10) <= zlen d).
Definition flw_insts (e : endian) (d : bytes) (p : Z) : list bytes :=
  filter (fun c => negb (beq c [0; 0; 0; 0; 0; 0; 0; 0])) (map (fun i => part d (p + 16 + 8 * Z.of_nat i) 8) (seq 0 (Z.to_nat (num e 2 d (p + 8))))).
Definition flw_labels (e : endian) (d : bytes) (p : Z) : list (Z * Z) :=
  let indices := p + 16 + 8 * num e 2 d (p + 8) in
  let ids := indices + 2 * num e 2 d (p + 10) in
  filter (fun l => negb ((fst l =? 0) && (snd l =? 0)))
    (map (fun i => (signed 8 (byte d (ids + Z.of_nat i)), signed 16 (num e 2 d (indices + 2 * Z.of_nat i)))) (seq 0 (Z.to_nat (num e 2 d (p + 10))))).
Definition fli_shape (e : endian) (d : bytes) (p : Z) : Prop :=
  p + 16 <= zlen d /\ num e 2 d (p + 10) = 8 /\ p + 16 + 8 * num e 2 d (p + 8) <= zlen d.
Definition fli_scripts (e : endian) (d : bytes) (p : Z) : list (Z * Z) :=
  map (fun i => (num e 4 d (p + 16 + 8 * Z.of_nat i), num e 2 d (p + 20 + 8 * Z.of_nat i))) (seq 0 (Z.to_nat (num e 2 d (p + 8)))).

Definition sec_ok (e : endian) (d : bytes) (j : nat) : Prop :=
  let p := place e d j in
  p + 8 <= zlen d /\
  ((sec_kind e d j = asc "INF1" /\ inf_shape e d p) \/ sec_kind e d j = asc "DAT1" \/
   (sec_kind e d j = asc "FLW1" /\ flw_shape e d p) \/ (sec_kind e d j = asc "FLI1" /\ fli_shape e d p)).

(** of all [n] sections those of one kind *)
Definition of_kind {A} (e : endian) (d : bytes) (kind : bytes) (f : Z -> list A) (n : nat) : list A :=
  flat_map (fun j => if beq (sec_kind e d j) kind then f (place e d j) else []) (seq 0 n).
(** of several DAT1 sections the last one counts *)
Definition text_data (e : endian) (d : bytes) (n : nat) : bytes :=
  last (of_kind e d (asc "DAT1") (fun p => [part d (p + 8) (num e 4 d (p + 4) - 8)]) n) [].

(** ** messages: [spelled w e decode dat o parts stop] says that the parts stand at place
    [o] of [dat] and the terminator at [stop] *)
Section Spelled.
  Variables (w : Z) (e : endian) (decode : bytes -> res text) (dat : bytes).
  (** the [k] characters at [o] end no text *)
  Definition stretch (o : Z) (k : nat) : Prop := forall i, (i < k)%nat -> num e w dat (o + w * Z.of_nat i) <> 0 /\ num e w dat (o + w * Z.of_nat i) <> 26.
  (** text at place 0 is dropped *)
  Definition text_part (o p : Z) (ps : list BmgModel.part) : Prop :=
    if (o =? 0) || (p =? o) then ps = [] else exists s, decode (part dat o (p - o)) = Ok s /\ ps = [Txt s].
  Inductive spelled : Z -> list BmgModel.part -> Z -> Prop :=
  | Ends : forall o k p ps, p = o + w * Z.of_nat k -> p + w <= zlen dat -> stretch o k -> num e w dat p = 0 -> text_part o p ps -> spelled o ps p
  | Escape : forall o k p ps l rest stop, p = o + w * Z.of_nat k -> p + w + 2 <= zlen dat -> stretch o k -> num e w dat p = 26 -> text_part o p ps ->
      l = byte dat (p + w) -> spelled (p + l) rest stop ->
      spelled o (ps ++ Esc (byte dat (p + w + 1)) (part dat (p + w + 2) (l - w - 2)) :: rest) stop.
End Spelled.

Definition width (x : encoding) : Z := match x with Utf16 => 2 | _ => 1 end.
Definition message_at (sj : codec) (x : encoding) (e : endian) (dat : bytes) (entry : Z * bytes) (m : message) : Prop :=
  exists stop, mInfo m = snd entry /\ spelled (width x) e (c_dec (full_codec sj x e)) dat (fst entry) (mParts m) stop /\ mNull m = (stop =? 0).

(** ** files *)
Definition bmg_endian (d : bytes) : endian := if num LE 4 d 8 <? num BE 4 d 8 then LE else BE.
Definition bmg_sections (d : bytes) : nat := Z.to_nat (num (bmg_endian d) 4 d 12).
Definition bmg_shape (d : bytes) : Prop :=
  part d 0 8 = asc "MESGbmg1" /\ 29 <= zlen d /\ 1 <= byte d 16 <= 4 /\ forall j, (j < bmg_sections d)%nat -> sec_ok (bmg_endian d) d j.
Record bmg_view (sj : codec) (id0 : Z) (d : bytes) (b : bmg) : Prop := {
  vb_endian : bEndian b = bmg_endian d;
  vb_encoding : match bEncoding b with Cp1252 => 1 | Utf16 => 2 | ShiftJis => 3 | Utf8 => 4 end = byte d 16;
  vb_unks : [bUnk14 b; bUnk18 b; bUnk1C b] = [num (bEndian b) 4 d 17; num (bEndian b) 4 d 21; num (bEndian b) 4 d 25];
  vb_id : bId b = last (of_kind (bEndian b) d (asc "INF1") (fun p => [num (bEndian b) 4 d (p + 12)]) (bmg_sections d)) id0;
  vb_insts : bInstructions b = of_kind (bEndian b) d (asc "FLW1") (flw_insts (bEndian b) d) (bmg_sections d);
  vb_labels : bLabels b = of_kind (bEndian b) d (asc "FLW1") (flw_labels (bEndian b) d) (bmg_sections d);
  vb_scripts : bScripts b = of_kind (bEndian b) d (asc "FLI1") (fli_scripts (bEndian b) d) (bmg_sections d);
  vb_messages : Forall2 (message_at sj (bEncoding b) (bEndian b) (text_data (bEndian b) d (bmg_sections d)))
    (of_kind (bEndian b) d (asc "INF1") (inf_entries (bEndian b) d) (bmg_sections d)) (bMessages b)
}.

(** * Changing messages of arbitrary files (for C121) *)
From Verif Require Import PyBase BmgModel BmgSpec RomSpec ViewSpec ViewProps RomViewSpec EditSpec.

(** a message that means what it says: one without text has no parts, and otherwise no
    two strings follow each other and none is empty *)
Definition plain_message (m : message) : Prop :=
  (forall s, In (Txt s) (mParts m) -> is_text s) /\ if mNull m then mParts m = [] else join (mParts m) = mParts m.
(** [b1] is made of the messages, instructions, labels and scripts of [b] and of new ones *)
Record rewritten (b b1 : bmg) : Prop := {
  rw_encoding : bEncoding b1 = bEncoding b;
  rw_messages : forall m, In m (bMessages b1) -> In m (bMessages b) \/ plain_message m;
  rw_insts : forall i, In i (bInstructions b1) -> In i (bInstructions b) \/ i <> zeros 8;
  rw_labels : forall l, In l (bLabels b1) -> In l (bLabels b) \/ l <> (0, 0);
  rw_scripts : forall s, In s (bScripts b1) -> In s (bScripts b) \/ 0 <= snd s < 65536
}.
(** only the indices of scripts are lost, and only in big-endian files (see
    C21_scripts_roundtrip_refuted) *)
Definition reads_as (b b' : bmg) : Prop :=
  bMessages b' = bMessages b /\ bInstructions b' = bInstructions b /\ bLabels b' = bLabels b /\
  bScripts b' = match bEndian b with LE => bScripts b | BE => map (fun s => (fst s, 0)) (bScripts b) end /\
  bId b' = bId b /\ bEncoding b' = bEncoding b /\ bEndian b' = bEndian b /\ bUnk14 b' = bUnk14 b /\ bUnk18 b' = bUnk18 b /\ bUnk1C b' = bUnk1C b.

(** ** One file of a ROM is exchanged *)
(** the file [p] has number [id] and the bytes [c] in the ROM [d], [c'] in [data]; all
    other files are the same *)
Definition exchanged (d data : bytes) (p : list (list Z)) (id : Z) (c c' : bytes) : Prop :=
  found (fnt_part d) 0 p id /\ found (fnt_part data) 0 p id /\ has_file d id /\ has_file data id /\ rom_file d id = c /\ rom_file data id = c' /\
  forall i, 0 <= i -> i <> id -> has_file d i -> has_file data i /\ rom_file data i = rom_file d i.
(** the same of an archive *)
Definition exchanged_in (a a' : bytes) (q : list (list Z)) (k : Z) (f f' : bytes) : Prop :=
  found (narc_names a) 0 q k /\ found (narc_names a') 0 q k /\ 0 <= k < word a 0x18 /\ word a' 0x18 = word a 0x18 /\
  ViewSpec.narc_file a (Z.to_nat k) = f /\ ViewSpec.narc_file a' (Z.to_nat k) = f' /\
  forall i, 0 <= i < word a 0x18 -> i <> k -> ViewSpec.narc_file a' (Z.to_nat i) = ViewSpec.narc_file a (Z.to_nat i).

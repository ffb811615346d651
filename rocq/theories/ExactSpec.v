(** * Vocabulary of the statements about files that are reproduced byte for byte *)
From Coq Require Import String.
From Verif Require Import PyBase ViewSpec RomSpec.

(** the first sixteen bytes of the file: byte order mark, sizes, number of blocks *)
Definition exact_head (d : bytes) (blocks : Z) : Prop :=
  half d 4 = 0xFEFF /\ word d 8 = zlen d /\ half d 12 = 0x10 /\ half d 14 = blocks.
(** one block up to the end of the file, a flag that is 0 or 1 *)
Definition exact_swav (d : bytes) : Prop := exact_head d 1 /\ word d 0x14 = zlen d - 0x10 /\ byte d 0x19 <= 1.
(** the same; the 32 bytes before the number of waves are 0, and the first wave follows
    the list of the positions *)
Definition exact_swar (d : bytes) : Prop :=
  exact_head d 1 /\ word d 0x14 = zlen d - 0x10 /\ (forall i, 0x18 <= i < 0x38 -> byte d i = 0) /\
  (if word d 0x38 =? 0 then zlen d = 0x3C else word d 0x3C = 0x3C + 4 * word d 0x38) /\
  forall i, 0 <= i < word d 0x38 -> byte d (word d (0x3C + 4 * i) + 1) <= 1.
(** the size of row [b] of the blocks of a stream, without and with the bytes that fill
    it up *)
Definition strm_row (d : bytes) (b : Z) : Z := byte d 0x1A * (if b =? word d 0x2C - 1 then strm_last d else word d 0x30).
Definition strm_full (d : bytes) (b : Z) : Z := 4 * ((strm_row d b + 3) / 4).
(** two blocks; the sample count is that of the blocks; there are blocks exactly if there
    are samples, the rows of blocks take all of the data and are filled with 0 *)
Definition exact_strm (d : bytes) : Prop :=
  let blocks := word d 0x2C in
  exact_head d 2 /\ word d 0x14 = 0x50 /\ word d 0x64 = zlen d - 0x60 /\ byte d 0x19 <= 1 /\
  word d 0x24 = (blocks - 1) * word d 0x34 + word d 0x3C /\
  (byte d 0x1A = 0 -> blocks = 0) /\
  (blocks = 0 -> word d 0x30 = 0 /\ word d 0x38 = 0 /\ zlen d = 0x68) /\
  (blocks = 1 -> word d 0x30 = word d 0x38) /\
  (0 < blocks -> zlen d = 0x68 + (blocks - 1) * strm_full d 0 + strm_full d (blocks - 1)) /\
  forall b i, 0 <= b < blocks -> strm_row d b <= i < strm_full d b -> byte d (0x68 + b * strm_full d 0 + i) = 0.

(** touch areas and image positions: nothing after the last one, and only the bits of the
    coordinates are set that mean something *)
Definition exact_places (d : bytes) (m : Z) : Prop :=
  zlen d = 8 + m * half d 6 /\ forall i, 0 <= i < half d 6 -> half d (8 + m * i) < 0x3000 /\ half d (8 + m * i + 2) < 0x3000.
(** a NARC archive: sizes, the file table, the filename table, and the files one after
    another, filled up with 0 to multiples of four bytes *)
Definition narc_next (d : bytes) (i : Z) : Z := if i =? 0 then 0 else 4 * ((word d (0x18 + 8 * i) + 3) / 4).
Definition exact_narc (d names : bytes) : Prop :=
  let count := word d 0x18 in
  (half d 4 = 0xFFFE \/ half d 4 = 0xFEFF) /\ word d 8 = zlen d /\ half d 12 = 0x10 /\ half d 14 = 3 /\
  word d 0x14 = 0x0C + 8 * count /\
  (forall i, 0 <= i < count -> word d (0x1C + 8 * i) = narc_next d i /\ word d (0x1C + 8 * i) <= word d (0x20 + 8 * i)) /\
  (exists fill, part d (narc_fntb d + 8) (word d (narc_fntb d + 4) - 8) = names ++ fill /\ zlen fill = (- zlen names) mod 4 /\ Forall (eq 0xFF) fill) /\
  word d (narc_fimg d + 4) = zlen d - narc_fimg d /\ zlen d = narc_fimg d + 8 + narc_next d count /\
  forall i o, 0 <= i < count -> word d (0x20 + 8 * i) <= o < narc_next d (i + 1) -> byte d (narc_fimg d + 8 + o) = 0.

(** ** sequences *)
(** the block has its magic, which is not looked at when the file is read, and the events
    follow its twelve bytes *)
Definition exact_sseq (d : bytes) : Prop :=
  exact_head d 1 /\ part d 0x10 4 = asc "DATA" /\ word d 0x14 = zlen d - 0x10 /\ word d 0x18 = 0x1C.
(** the events follow the table, whose rows end in two bytes 0 *)
Definition exact_ssar (d : bytes) : Prop :=
  exact_head d 1 /\ word d 0x14 = zlen d - 0x10 /\ word d 0x18 = 0x20 + 12 * word d 0x1C /\ word d 0x18 <= zlen d /\
  forall i, 0 <= i < word d 0x1C -> byte d (0x20 + 12 * i + 10) = 0 /\ byte d (0x20 + 12 * i + 11) = 0.

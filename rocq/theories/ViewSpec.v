(** * Vocabulary of the statements about reading arbitrary files

    What the formats say: integers are little-endian, a part of a file is given
    by its position and its length, and a part that reaches beyond the end of
    the file is cut off there. *)
From Coq Require Import Sorting.Sorted.
From Coq Require Import String.
From Verif Require Import PyBase FntModel LzModel CodeModel BnModel WaveModel RomSpec.

Definition byte (d : bytes) (o : Z) : Z := nth (Z.to_nat o) d 0.
(** the [n] bytes at [o], as far as they exist *)
Definition part (d : bytes) (o n : Z) : bytes := firstn (Z.to_nat n) (skipn (Z.to_nat o) d).

(** the filename table [d] describes: the folder number [n] of the table is the
    folder given, and the entry list at [o] has the subfolders and files given *)
Inductive denotes (d : bytes) : Z -> folder -> Prop :=
| dn_folder n fo fi : 0 <= n < 4096 -> 8 * n + 6 <= zlen d -> entries d (word d (8 * n)) fo fi ->
    denotes d n (Folder fo fi (half d (8 * n + 4)))
with entries (d : bytes) : Z -> list (list Z * folder) -> list (list Z) -> Prop :=
| en_end o : 0 <= o < zlen d -> byte d o = 0 -> entries d o [] []
| en_file o fo fi : 0 <= o < zlen d -> 0 < byte d o < 128 -> entries d (o + 1 + byte d o) fo fi ->
    entries d o fo (part d (o + 1) (byte d o) :: fi)
| en_dir o len g fo fi : 0 <= o < zlen d -> byte d o = 128 + len -> 0 <= len < 128 -> o + 1 + len + 2 <= zlen d ->
    denotes d (half d (o + 1 + len) mod 4096) g -> entries d (o + 1 + len + 2) fo fi ->
    entries d o ((part d (o + 1) len, g) :: fo) fi.
Scheme denotes_ind2 := Induction for denotes Sort Prop with entries_ind2 := Induction for entries Sort Prop.
Combined Scheme denotes_mutind from denotes_ind2, entries_ind2.

(** folder [m] of the table is listed in folder [n]: its entry list, read up to
    there, has an entry for it *)
Inductive lists_from (d : bytes) (m : Z) : Z -> Prop :=
| lf_file o : 0 <= o < zlen d -> 0 < byte d o < 128 -> lists_from d m (o + 1 + byte d o) -> lists_from d m o
| lf_here o len : 0 <= o < zlen d -> byte d o = 128 + len -> 0 <= len < 128 -> o + 1 + len + 2 <= zlen d ->
    m = half d (o + 1 + len) mod 4096 -> lists_from d m o
| lf_dir o len : 0 <= o < zlen d -> byte d o = 128 + len -> 0 <= len < 128 -> o + 1 + len + 2 <= zlen d ->
    lists_from d m (o + 1 + len + 2) -> lists_from d m o.
Definition lists (d : bytes) (n m : Z) : Prop := 8 * n + 6 <= zlen d /\ lists_from d m (word d (8 * n)).

(** the blocks after the ARM9 code: as many as follow each other *)
Definition trailer (d : bytes) (o : Z) (b : bytes) : Prop :=
  exists k : nat, b = part d o (12 * Z.of_nat k) /\
  (forall i, (i < k)%nat -> part d (o + 12 * Z.of_nat i) 4 = magic) /\ part d (o + 12 * Z.of_nat k) 4 <> magic.

(** a NARC archive *)
Definition narc_fntb (d : bytes) : Z := 0x10 + word d 0x14.
Definition narc_fimg (d : bytes) : Z := narc_fntb d + word d (narc_fntb d + 4).
Definition narc_shape (d : bytes) : Prop :=
  28 <= zlen d /\ part d 0 4 = [78; 65; 82; 67] /\
  ((half d 4 = 0xFFFE /\ half d 6 = 0x100) \/ (half d 4 <> 0xFFFE /\ half d 6 = 1)) /\
  part d 0x10 4 = [66; 84; 65; 70] /\ 0x1C + 8 * word d 0x18 <= zlen d /\
  part d (narc_fntb d) 4 = [66; 84; 78; 70] /\ narc_fntb d + 8 <= zlen d /\
  part d (narc_fimg d) 4 = [71; 77; 73; 70] /\ narc_fimg d + 8 <= zlen d.
Definition narc_file (d : bytes) (i : nat) : bytes :=
  let start := word d (0x1C + 8 * Z.of_nat i) in
  part d (narc_fimg d + 8 + start) (word d (0x20 + 8 * Z.of_nat i) - start).

(** overlay tables: rows of eight words *)
Definition row (d : bytes) (i : nat) (k : Z) : Z := word d (32 * Z.of_nat i + 4 * k).
Definition wanted (ids : option (Z -> bool)) (id : Z) : Prop := match ids with None => True | Some f => f id = true end.
(** the overlay of row [i]: the file the callback gives for the overlay's number and
    file number, decompressed if the flags say so *)
Definition overlay_at (d : bytes) (cb : Z -> Z -> res bytes) (i : nat) (ov : overlay) : Prop :=
  (exists f, cb (row d i 0) (row d i 6) = Ok f /\ (if Z.odd (oFlags ov) then code_decompress f = Ok (oData ov) else oData ov = f)) /\
  [oRamAddress ov; oRamSize ov; oBssSize ov; oSiStart ov; oSiEnd ov; oFileID ov] = map (row d i) [1; 2; 3; 4; 5; 6] /\
  oCompressedSize ov = row d i 7 mod 2 ^ 24 /\ oFlags ov = row d i 7 / 2 ^ 24.
(** the different elements of a list, by their first appearance *)
Fixpoint firsts (l : list Z) : list Z :=
  match l with [] => [] | x :: r => x :: filter (fun y => negb (y =? x)) (firsts r) end.

(** touch areas and image positions: the upper bits of a coordinate tell which side
    or middle it is measured from *)
Definition h_align (v : Z) : Z := match v / 4096 mod 4 with 1 => 4 | 2 => 2 | _ => 1 end.
Definition v_align (v : Z) : Z := match v / 4096 mod 4 with 1 => 0x40 | 2 => 0x20 | _ => 0x10 end.
Definition area_at (d : bytes) (o : Z) : touchArea :=
  {| taX := half d o mod 4096; taY := half d (o + 2) mod 4096; taW := byte d (o + 4); taH := byte d (o + 5);
     taAlign := h_align (half d o) + v_align (half d (o + 2)) |}.
Definition position_at (d : bytes) (o : Z) : imagePosition :=
  {| ipX := half d o mod 4096; ipY := half d (o + 2) mod 4096; ipImageID := word d (o + 4);
     ipAlign := h_align (half d o) + v_align (half d (o + 2)) |}.

(** waves: twelve bytes of information, then the samples, [n] bytes in all *)
Definition wave_at (d : bytes) (o n : Z) (w : swav) : Prop :=
  wt_val (wType w) = byte d o /\ wLooped w = negb (byte d (o + 1) =? 0) /\ wRate w = half d (o + 2) /\ wTime w = half d (o + 4) /\
  wLoop w = half d (o + 6) /\ wTotal w = half d (o + 6) + word d (o + 8) /\ wData w = part d (o + 12) (n - 12).
Definition sound_head (d : bytes) (magic block : string) : Prop :=
  0x18 <= zlen d /\ part d 0 4 = asc magic /\ half d 6 = 0x100 /\ part d 0x10 4 = asc block.
(** start and end of wave [i] of an archive *)
Definition swar_start (d : bytes) (i : nat) : Z := word d (0x3C + 4 * Z.of_nat i).
Definition swar_stop (d : bytes) (i : nat) : Z :=
  if Z.of_nat i =? word d 0x38 - 1 then word d 8 else word d (0x40 + 4 * Z.of_nat i).
(** block [b] of channel [c] of a stream with the samples [d]: the blocks of the
    channels follow each other, each row of blocks is filled up to a multiple of
    four bytes, and the last row has blocks of another size *)
Definition strm_block (d : bytes) (channels blocks size last_size : Z) (c b : nat) : bytes :=
  let n := if Z.of_nat b =? blocks - 1 then last_size else size in
  part d (Z.of_nat b * (4 * ((channels * size + 3) / 4)) + Z.of_nat c * n) n.
Definition swav_shape (d : bytes) : Prop := sound_head d "SWAV" "DATA" /\ 0x24 <= zlen d.
Definition swar_shape (d : bytes) : Prop := sound_head d "SWAR" "DATA" /\ 0x3C <= zlen d.
(** the sample block of a stream *)
Definition strm_data (d : bytes) : Z := 0x10 + word d 0x14.
Definition strm_shape (d : bytes) : Prop :=
  sound_head d "STRM" "HEAD" /\ 0x60 <= zlen d /\ word d 0x28 = 0x68 /\ strm_data d + 8 <= zlen d /\ part d (strm_data d) 4 = asc "DATA".
(** the size of the blocks of the last row; the only block of an ADPCM stream has
    four bytes more than the file tells *)
Definition strm_last (d : bytes) : Z := if (word d 0x2C =? 1) && (byte d 0x18 =? 2) then word d 0x38 + 4 else word d 0x38.
Definition strm_channel (d : bytes) (c : nat) : list bytes :=
  map (strm_block (part d (strm_data d + 8) (word d (strm_data d + 4) - 8)) (byte d 0x1A) (word d 0x2C) (word d 0x30) (strm_last d) c)
      (seq 0 (Z.to_nat (word d 0x2C))).

(** * Changing named files of a ROM or an archive (for C119) *)
From Verif Require Import PyBase RomSpec ViewSpec RomViewSpec.

(** the files [f], numbered, of which those are there that [has] tells, after the
    assignments [ops] one after the other: the names lead, through the filename table
    [t], to the number of the file that is replaced *)
Inductive edits (t : bytes) (has : Z -> Prop) : (Z -> bytes) -> list (list (list Z) * bytes) -> (Z -> bytes) -> Prop :=
| ed_none f : edits t has f [] f
| ed_file f p v ops id g : found t 0 p id -> has id -> edits t has (fun i => if i =? id then v else f i) ops g -> edits t has f ((p, v) :: ops) g.

(** what of a ROM no change of its files concerns: the header but for the places and
    sizes of the parts and the capacity (0x14), the code and the overlay tables *)
Definition kept_header (d data : bytes) : Prop :=
  map (fun x => part data (fst x) (snd x)) [(0, 12); (0xC, 4); (0x10, 2); (0x78, 8); (0x88, 0x38); (0xC0, 0x9C); (0x16C, 0x94)] =
  map (fun x => part d (fst x) (snd x)) [(0, 12); (0xC, 4); (0x10, 2); (0x78, 8); (0x88, 0x38); (0xC0, 0x9C); (0x16C, 0x94)] /\
  map (byte data) [0x12; 0x13; 0x15; 0x16; 0x17; 0x18; 0x19; 0x1A; 0x1B; 0x1C; 0x1D; 0x1E; 0x1F] = map (byte d) [0x12; 0x13; 0x15; 0x16; 0x17; 0x18; 0x19; 0x1A; 0x1B; 0x1C; 0x1D; 0x1E; 0x1F] /\
  map (word data) [0x24; 0x28; 0x34; 0x38; 0x60; 0x64; 0x70; 0x74; 0x168] = map (word d) [0x24; 0x28; 0x34; 0x38; 0x60; 0x64; 0x70; 0x74; 0x168] /\
  map (half data) [0x6C; 0x6E] = map (half d) [0x6C; 0x6E].
Definition kept_code (d data : bytes) : Prop :=
  map (fun o => part data (word data o) (word data (o + 12))) [0x20; 0x30] = map (fun o => part d (word d o) (word d (o + 12))) [0x20; 0x30] /\
  map (fun o => part data (word data o) (word data (o + 4))) [0x50; 0x58] = map (fun o => part d (word d o) (word d (o + 4))) [0x50; 0x58].

(** the filename table and the files of an archive *)
Definition narc_names (d : bytes) : bytes := part d (narc_fntb d + 8) (word d (narc_fntb d + 4) - 8).

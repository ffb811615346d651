(** * Vocabulary of the statements about ROM files *)
From Coq Require Import Sorting.Sorted.
From Verif Require Import PyBase RomModel.

(** little-endian words at a fixed position of a file *)
Definition word (d : bytes) (o : Z) : Z := unle (slice d o (o + 4)).
Definition half (d : bytes) (o : Z) : Z := unle (slice d o (o + 2)).

(** the bytes [b] are found at offset [o] of [d] *)
Definition stored (d : bytes) (o : Z) (b : bytes) : Prop := exists u v, d = u ++ b ++ v /\ zlen u = o.

(** an optional part announced by an offset and a length word *)
Definition announced (d : bytes) (at_offset : Z) (b : bytes) : Prop :=
  match b with [] => word d at_offset = 0 | _ => stored d (word d at_offset) b /\ 0x4000 <= word d at_offset end.

(** start and size of every range of the file that carries data: header, the
    word at 0x1000, ARM9 code with its trailer, ARM9 overlay table, ARM7 code,
    ARM7 overlay table, filename table, file allocation table, banner, debug
    ROM, signature, files *)
Definition fat_start (d : bytes) (i : nat) : Z := word d (word d 0x48 + 8 * Z.of_nat i).
Definition regions (r : rom) (d : bytes) : list (Z * Z) :=
  [ (0, 0x200); (0x1000, 4);
    (word d 0x20, zlen (arm9 r) + zlen (arm9PostData r)); (word d 0x50, zlen (arm9OverlayTable r));
    (word d 0x30, zlen (arm7 r)); (word d 0x58, zlen (arm7OverlayTable r));
    (word d 0x40, word d 0x44); (word d 0x48, 8 * zlen (files r));
    (word d 0x68, zlen (iconBanner r)); (word d 0x160, zlen (debugRom r));
    (word d 0x80, zlen (rsaSignature r)) ] ++
  map (fun p => (fat_start d (fst p), zlen (snd p))) (combine (seq 0 (length (files r))) (files r)).
Definition disjoint (a b : Z * Z) : Prop := fst a + snd a <= fst b \/ fst b + snd b <= fst a.

(** [order] lists the file numbers by increasing start offset, the last number
    only where several files start at the same offset *)
Definition by_offset (start : nat -> Z) (n : nat) (order : list Z) : Prop :=
  StronglySorted (fun i j => start (Z.to_nat i) < start (Z.to_nat j)) order /\
  forall i, In i order <-> 0 <= i < Z.of_nat n /\ forall j, i < j < Z.of_nat n -> start (Z.to_nat j) <> start (Z.to_nat i).

(** the data after the ARM9 code consists of 12-byte blocks starting with
    21 06 C0 DE *)
Definition magic : bytes := [0x21; 0x06; 0xC0; 0xDE].
Inductive post_blocks : bytes -> Prop :=
| pb_nil : post_blocks []
| pb_cons b r : zlen b = 8 -> post_blocks r -> post_blocks (magic ++ b ++ r).

(** the padding between header and ARM9 code as saved: filled up with zeros to
    the next multiple of 0x4000, with the signature's offset written at 0x1000 *)
Definition saved_pad (p : bytes) (sig : Z) : bytes :=
  let q := p ++ zeros ((- (0x200 + zlen p)) mod 0x4000) in
  firstn 0xE00 q ++ le 4 sig ++ skipn 0xE04 q.

(** what loading the saved file [d] gives: [order] is the new [sortedFileIds] *)
Definition reloaded (r : rom) (d : bytes) (order : list Z) : rom :=
  {| name := rstrip 0 (firstn 12 (name r)); idCode := idCode r; developerCode := developerCode r;
     unitCode := unitCode r; encryptionSeedSelect := encryptionSeedSelect r; deviceCapacity := deviceCapacity r;
     pad015 := pad015 r; pad016 := pad016 r; pad017 := pad017 r; pad018 := pad018 r;
     pad019 := pad019 r; pad01A := pad01A r; pad01B := pad01B r; pad01C := pad01C r;
     region := region r; version := version r; autostart := autostart r;
     arm9EntryAddress := arm9EntryAddress r; arm9RamAddress := arm9RamAddress r;
     arm7EntryAddress := arm7EntryAddress r; arm7RamAddress := arm7RamAddress r;
     normalCardControl := normalCardControl r; secureCardControl := secureCardControl r;
     secureAreaChecksum := secureAreaChecksum r; secureTransferDelay := secureTransferDelay r;
     arm9CodeSettings := arm9CodeSettings r; arm7CodeSettings := arm7CodeSettings r;
     secureAreaDisable := firstn 8 (secureAreaDisable r ++ zeros 8);
     pad088 := pad088 r; nintendoLogo := nintendoLogo r;
     debugRomAddress := debugRomAddress r; pad16C := pad16C r;
     pad200 := saved_pad (pad200 r) (word d 0x80);
     rsaSignature := firstn 0x88 (rsaSignature r ++ zeros (zlen d - word d 0x80 - zlen (rsaSignature r)));
     arm9 := arm9 r; arm9PostData := arm9PostData r; arm7 := arm7 r;
     arm9OverlayTable := arm9OverlayTable r; arm7OverlayTable := arm7OverlayTable r;
     iconBanner := iconBanner r; debugRom := debugRom r;
     filenames := filenames r; files := files r; sortedFileIds := order |}.

(** * C131: layouts, palettes, tiles and tile maps that are packed

    The file that is changed lies, compressed or not, in an archive, which lies, compressed
    or not, in a ROM. *)
From Coq Require Import String.
From Verif Require RomViewProps RomProps NarcProps.
From Verif Require Import PyBase PyLemmas PyTac LzModel LzProps ColorModel Gfx2DModel FntModel NarcModel RomModel RomSpec ViewSpec ViewLemmas
  RomViewSpec EditBytes EditSpec EditView EditBmgSpec EditFile EditBmgProps EditArtProps EditViewProps.

Lemma packable z u : is_bytes u -> zlen u < 2 ^ 24 -> exists c, pack z u = Ok c.
Proof. intros B L. destruct z; cbn [pack]; [destruct (C01_lz10_lossless u [] L) as (c & E & _); exists c; exact E|exists u; reflexivity]. Qed.

(** the file [p] of the ROM is an archive (compressed if [z]), its file [q] is what is changed
    (compressed if [y]). The new file can always be made; and when the ROM is written, in it
    the same path leads through both to what was asked for, and nothing else is changed *)
Theorem C131_packed : forall depth upd d r p z c a n q y f u x x1, is_bytes d -> 0x200 <= zlen d -> (1 <= depth)%nat -> rom_load depth d = Ok r -> writable_path p ->
  rom_getFileByName r (join_slash p) = Ok c -> unpack z c = Ok a -> narc_load depth a = Ok n -> writable_path q -> getFileByName n (join_slash q) = Ok f ->
  unpack y f = Ok u -> reads u x -> redrawn x x1 -> art_size x1 < 2 ^ 24 ->
  exists u1 f1, writes x1 u1 /\ pack y u1 = Ok f1 /\
    forall n' a1 c1 r' data r1, setFileByName n (join_slash q) f1 = Ok n' -> narc_save n' = Ok a1 -> pack z a1 = Ok c1 -> rom_setFileByName r (join_slash p) c1 = Ok r' -> rom_save upd r' = Ok (data, r1) ->
      zlen (arm9PostData r) mod 12 = 0 -> ~ stored data (word data 0x20 + zlen (arm9 r) + zlen (arm9PostData r)) magic ->
      exists id k, exchanged d data p id c c1 /\ holds z c a /\ holds z (rom_file data id) a1 /\
        exchanged_in a a1 q k f f1 /\ holds y f u /\ holds y (ViewSpec.narc_file a1 (Z.to_nat k)) u1 /\ reads u1 x1.
Proof.
  intros depth upd d r p z c a n q y f u x x1 B L D H W GF U NL WQ GQ UY RD E SZ.
  assert (BC : is_bytes c). { destruct (RomViewProps.C118_by_name depth d r p B L H W) as (GN & _). apply GN in GF as (id & _ & _ & ->). apply is_bytes_part; exact B. }
  apply unpack_holds in U as (BA & HO); [|exact BC].
  assert (BF : is_bytes f). { destruct (RomViewProps.C118_narc_by_name depth a n q BA NL WQ) as (GN & _). apply GN in GQ as (id & _ & _ & ->). apply is_bytes_part; exact BA. }
  apply unpack_holds in UY as (BU & HU); [|exact BF]. destruct (C131_edited u x x1 BU RD E) as (u1 & W1 & B1 & S1 & R1). destruct (packable y u1 B1 ltac:(lia)) as (f1 & PY).
  exists u1, f1. split; [exact W1|]. split; [exact PY|]. intros n' a1 c1 r' data r1 SQ NSV PK SF SV PM NM. apply pack_holds in PY as (BF1 & HF1); [|exact B1].
  destruct (narc_exchange depth a n q f f1 n' a1 BA NL WQ GQ BF1 SQ NSV) as (_ & BA1 & k & X). apply pack_holds in PK as (BC1 & HO1); [|exact BA1].
  destruct (rom_exchange depth upd d r p c c1 r' data r1 B L D H W GF BC1 SF SV PM NM) as (_ & id & Y). exists id, k. split; [exact Y|]. split; [exact HO|].
  split; [destruct Y as (_ & _ & _ & _ & _ & -> & _); exact HO1|]. split; [exact X|]. split; [exact HU|]. split; [destruct X as (_ & _ & _ & _ & _ & -> & _); exact HF1|exact R1].
Qed.
Print Assumptions C131_packed.

(** a compressed palette in a compressed archive in the ROM of C15: its colours change places *)
Definition ex_museum : bytes :=
  data_of (f <- lz10_compress [0x1F; 0x00; 0x41; 0x8C] ;; n <- setFileByName (NarcProps.ex_narc LE) (asc "d/y") f ;; a <- narc_save n ;; c <- lz10_compress a ;; r <- rom_setFileByName RomProps.ex_rom (asc "b") c ;; rom_save false r).
Definition ex_rehung : res (rom * bytes) :=
  r <- rom_load 5 ex_museum ;; c <- rom_getFileByName r (asc "b") ;; a <- unpack true c ;; n <- narc_load 5 a ;; f <- getFileByName n (asc "d/y") ;; u <- unpack true f ;; p <- loadPalette u ;;
  u1 <- savePalette (rev p) ;; f1 <- pack true u1 ;; n' <- setFileByName n (asc "d/y") f1 ;; a1 <- narc_save n' ;; c1 <- pack true a1 ;; r' <- rom_setFileByName r (asc "b") c1 ;;
  '(data, _) <- rom_save false r' ;; Ok (r, data).
Example C131_packed_ex : match ex_rehung with Err _ => False | Ok (r, data) =>
    zlen (arm9PostData r) mod 12 = 0 /\ (zlen (arm9 r) + zlen (arm9PostData r)) mod 0x200 <> 0 /\ rom_file data 0 = [100] /\ rom_file data 2 = [102; 102; 102] /\
    match (a <- lz10_decompress (rom_file data 1) ;; u <- lz10_decompress (ViewSpec.narc_file a 1) ;; p <- loadPalette u ;; Ok (ViewSpec.narc_file a 0, p)) with
    | Ok (f0, p) => f0 = [1; 2; 3; 4; 5] /\ p = [C4 1 2 3 1; C4 31 0 0 0] | Err _ => False end end.
Proof. vm_compute. repeat split. discriminate. Qed.

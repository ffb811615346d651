(** * C131: layouts, palettes, tiles and tile maps are changed

    An arbitrary file is read, its entries are removed, reordered, doubled and changed, and
    new ones are added; it is saved, by itself or as a file of a ROM, and read again. *)
From Coq Require Import String.
From Verif Require RomViewProps RomProps.
From Verif Require Import PyBase PyLemmas PyTac CommonModel CommonLemmas BnModel BnLemmas BnProps ColorModel ColorLemmas ColorProps Gfx2DModel Gfx2DLemmas Gfx2DProps FntModel RomModel RomSpec ViewSpec ViewLemmas ViewFilesProps ViewGfxSpec ViewGfx ViewGfxProps SeqRead
  RomViewSpec EditBytes EditSpec EditBmgSpec EditBmgProps.

(** what a file can hold: touch areas, image positions, colours, image tiles, tile maps *)
Inductive art := Areas (b : bnbl) | Positions (b : bncl) | Colours (p : list ColorModel.color) | Tiles (f : imgfmt) (l : list itile) | Map (f : mapfmt) (l : list mtile).
Definition reads (c : bytes) (x : art) : Prop :=
  match x with
  | Areas b => bnbl_load c = Ok b | Positions b => bncl_load c = Ok b | Colours p => loadPalette c = Ok p
  | Tiles f l => loadImageTiles c f = Ok l | Map f l => loadTilemapTiles c f = Ok l
  end.
Definition writes (x : art) (c : bytes) : Prop :=
  match x with
  | Areas b => bnbl_save b = Ok c | Positions b => bncl_save b = Ok c | Colours p => savePalette p = Ok c
  | Tiles f l => saveImageTiles l = Ok c | Map f l => saveTilemapTiles l = Ok c
  end.
(** how long the file is *)
Definition art_size (x : art) : Z :=
  match x with
  | Areas b => 8 + 6 * zlen (blAreas b) | Positions b => 8 + 8 * zlen (clPositions b) | Colours p => 2 * zlen p
  | Tiles f l => match f with FI4 => 32 | FI8 => 64 end * zlen l | Map f l => match f with M16 => 2 | M8 => 1 end * zlen l
  end.
(** every entry was there, or is in the range of the format *)
Definition redrawn (x x1 : art) : Prop :=
  match x, x1 with
  | Areas b, Areas b1 => (blUnk04 b1 = blUnk04 b \/ 0 <= blUnk04 b1 < 65536) /\ zlen (blAreas b1) < 65536 /\ forall a, In a (blAreas b1) -> In a (blAreas b) \/ area_ok a
  | Positions b, Positions b1 => (clUnk04 b1 = clUnk04 b \/ 0 <= clUnk04 b1 < 65536) /\ zlen (clPositions b1) < 65536 /\ forall a, In a (clPositions b1) -> In a (clPositions b) \/ pos_ok a
  | Colours p, Colours p1 => forall c, In c p1 -> In c p \/ (0 <= cr c < 32 /\ 0 <= cg c < 32 /\ 0 <= cb c < 32 /\ 0 <= ca c < 2)
  | Tiles f l, Tiles f1 l1 => f1 = f /\ forall t, In t l1 -> In t l \/ itile_ok f t
  | Map f l, Map f1 l1 => f1 = f /\ forall t, In t l1 -> In t l \/ mtile_ok f t
  | _, _ => False
  end.

Lemma aligns v w : In (h_align v + v_align w) valid_alignments.
Proof.
  unfold h_align, v_align, valid_alignments. pose proof (Z.mod_pos_bound (v / 4096) 4 ltac:(lia)). pose proof (Z.mod_pos_bound (w / 4096) 4 ltac:(lia)).
  assert (A : v / 4096 mod 4 = 0 \/ v / 4096 mod 4 = 1 \/ v / 4096 mod 4 = 2 \/ v / 4096 mod 4 = 3) by lia. assert (B : w / 4096 mod 4 = 0 \/ w / 4096 mod 4 = 1 \/ w / 4096 mod 4 = 2 \/ w / 4096 mod 4 = 3) by lia.
  destruct A as [-> | [-> | [-> | ->]]], B as [-> | [-> | [-> | ->]]]; cbn; tauto.
Qed.
Lemma concat_bytes (l : list bytes) : Forall is_bytes l -> is_bytes (concat l).
Proof. induction 1; cbn [concat]; [constructor|apply app_bytes; assumption]. Qed.
Lemma each_bytes {A} (f : A -> res bytes) l bs : (forall x b, In x l -> f x = Ok b -> is_bytes b) -> mapM f l = Ok bs -> is_bytes (concat bs).
Proof.
  intros F H. apply mapM_Forall2 in H. apply concat_bytes. induction H as [|x b l bs E _ IH]; constructor; [exact (F x b (or_introl eq_refl) E)|]. apply IH. intros y c Y. apply F. right. exact Y.
Qed.
Lemma asc_bytes4 : is_bytes (asc "JNBL") /\ is_bytes (asc "JNCL").
Proof. split; repeat constructor; cbn; lia. Qed.
Lemma area_bytes t b : touchArea_save t = Ok b -> is_bytes b.
Proof. unfold touchArea_save. destruct (packAlignmentIntoPos _ _ _). apply pack_us_bytes. Qed.
Lemma position_bytes t b : imagePosition_save t = Ok b -> is_bytes b.
Proof. unfold imagePosition_save. destruct (packAlignmentIntoPos _ _ _). apply pack_us_bytes. Qed.

(** the change can be saved, whatever it is; the file has the size the entries ask for, and
    gives the same entries *)
Theorem C131_edited : forall c x x1, is_bytes c -> reads c x -> redrawn x x1 -> exists c1, writes x1 c1 /\ is_bytes c1 /\ zlen c1 = art_size x1 /\ reads c1 x1.
Proof.
  intros c [b|b|p|f l|f l] [b1|b1|p1|f1 l1|f1 l1] B RD E; cbn [reads redrawn writes art_size] in *; try contradiction.
  - destruct E as (H & L & A). apply C106_bnbl in RD as (_ & L8 & LC & ->); [|exact B]. cbn [blUnk04 blAreas] in *.
    assert (F : Forall area_ok (blAreas b1)).
    { apply Forall_forall. intros a I. destruct (A a I) as [I'|K]; [|exact K]. apply in_map_iff in I' as (k & <- & KR). apply in_seq in KR. unfold area_at, area_ok, coord. cbn [taX taY taW taH taAlign].
      split; [apply Z.mod_pos_bound; lia|]. split; [apply Z.mod_pos_bound; lia|]. split; [apply aligns|]. split; apply byte_range; [exact B|lia|exact B|lia]. }
    destruct (C25_bnbl_roundtrip b1) as (d1 & S & Z1 & LD); [destruct H as [->|H]; [apply half_range; [exact B|lia|lia]|exact H]|exact L|exact F|]. exists d1. split; [exact S|]. specialize (LD []). rewrite app_nil_r in LD.
    split; [|split; assumption]. unfold bnbl_save in S. apply bind_ok in S as (h & HH & S). apply bind_ok in S as (bs & BS & S). apply SeqRead.ok_inj in S. subst d1. apply app_bytes; [apply asc_bytes4|]. apply app_bytes; [exact (pack_us_bytes _ _ HH)|]. apply (each_bytes _ _ _ (fun t b _ => area_bytes t b) BS).
  - destruct E as (H & L & A). apply C106_bncl in RD as (_ & L8 & LC & ->); [|exact B]. cbn [clUnk04 clPositions] in *.
    assert (F : Forall pos_ok (clPositions b1)).
    { apply Forall_forall. intros a I. destruct (A a I) as [I'|K]; [|exact K]. apply in_map_iff in I' as (k & <- & KR). apply in_seq in KR. unfold position_at, pos_ok, coord. cbn [ipX ipY ipImageID ipAlign].
      split; [apply Z.mod_pos_bound; lia|]. split; [apply Z.mod_pos_bound; lia|]. split; [apply aligns|]. apply word_range; [exact B|lia|lia]. }
    destruct (C26_bncl_roundtrip b1) as (d1 & S & Z1 & LD); [destruct H as [->|H]; [apply half_range; [exact B|lia|lia]|exact H]|exact L|exact F|]. exists d1. split; [exact S|]. specialize (LD []). rewrite app_nil_r in LD.
    split; [|split; assumption]. unfold bncl_save in S. apply bind_ok in S as (h & HH & S). apply bind_ok in S as (bs & BS & S). apply SeqRead.ok_inj in S. subst d1. apply app_bytes; [apply asc_bytes4|]. apply app_bytes; [exact (pack_us_bytes _ _ HH)|]. apply (each_bytes _ _ _ (fun t b _ => position_bytes t b) BS).
  - assert (F : Forall valid51 p1).
    { apply Forall_forall. intros k I. destruct (E k I) as [I'|(K1 & K2 & K3 & K4)]; [|split; [repeat split; lia|lia]].
      unfold loadPalette in RD. apply bind_ok in RD as (vs & V & RD). injection RD as <-. apply in_map_iff in I' as (v & <- & IV). apply mapM_Forall2 in V. destruct (In_nth_error _ _ IV) as (n & N).
      assert (X : exists o, unpack_u 2 c o = Ok v) by (clear - V N; revert n N; induction V as [|q w l vs Q _ IH]; intros [|n] N; try discriminate N; [injection N as <-; exists (2 * q); exact Q|exact (IH n N)]).
      destruct X as (o & X). apply unpack_u_range in X; [|exact B]. exact (proj2 (pack_unpack v X)). }
    destruct (C27_palette_load_save p1 F) as (d1 & S & LD & Z1). exists d1. split; [exact S|]. split; [|split; assumption]. unfold savePalette in S. apply bind_ok in S as (bs & BS & S). injection S as <-. apply (each_bytes _ _ _ (fun t b _ => pack_u_bytes _ _ b) BS).
  - destruct E as (-> & H0). destruct (C29_image_tiles_resave f c B) as (tiles & LT & _ & FT & _). rewrite RD in LT. injection LT as <-.
    assert (F : Forall (itile_ok f) l1) by (apply Forall_forall; intros t I; destruct (H0 t I) as [I'|K]; [exact (proj1 (Forall_forall _ _) FT t I')|exact K]).
    destruct (C29_image_tiles_roundtrip f l1 F) as (d1 & S & Z1 & LD). exists d1. split; [exact S|]. split; [|split; [exact Z1|exact LD]].
    rewrite (saveImageTiles_ok f) in S by (eapply Forall_impl; [|exact F]; intros t K; apply K). apply bind_ok in S as (bs & BS & S). injection S as <-. apply (each_bytes itile_save l1 bs); [|exact BS].
    intros t b I TS. pose proof (proj1 (Forall_forall _ _) F t I) as (TF & TL & TP). unfold itile_save in TS. rewrite TF in TS. destruct f.
    + unfold to_bytes in TS. destruct (forallb byteb (tPixels t)); [|discriminate]. injection TS as <-. exact TP.
    + injection TS as <-. destruct (bytes_of_nibbles 32 (tPixels t) TL TP) as (I1 & I2 & I3). assumption.
  - destruct E as (-> & H0). destruct (C30_tilemap_resave f c B) as (tiles & LT & FT & _).
    { intros ->. destruct (Z.eq_dec (zlen c mod 2) 1) as [O|O]; [rewrite (C30_tilemap_odd_length c O) in RD; discriminate|pose proof (Z.mod_pos_bound (zlen c) 2 ltac:(lia)); lia]. }
    rewrite RD in LT. injection LT as <-.
    assert (F : Forall (mtile_ok f) l1) by (apply Forall_forall; intros t I; destruct (H0 t I) as [I'|K]; [exact (proj1 (Forall_forall _ _) FT t I')|exact K]).
    destruct (C30_tilemap_roundtrip f l1 F) as (d1 & S & Z1 & BB & LD). exists d1. repeat match goal with |- _ /\ _ => split end; try assumption. rewrite Z1. destruct f; lia.
Qed.
Print Assumptions C131_edited.

(** the same of a file [p] of a ROM *)
Theorem C131_in_rom : forall depth upd d r p c x x1, is_bytes d -> 0x200 <= zlen d -> (1 <= depth)%nat -> rom_load depth d = Ok r -> writable_path p ->
  rom_getFileByName r (join_slash p) = Ok c -> reads c x -> redrawn x x1 ->
  exists c1, writes x1 c1 /\ forall r' data r1, rom_setFileByName r (join_slash p) c1 = Ok r' -> rom_save upd r' = Ok (data, r1) ->
    zlen (arm9PostData r) mod 12 = 0 -> ~ stored data (word data 0x20 + zlen (arm9 r) + zlen (arm9PostData r)) magic ->
    exists id, exchanged d data p id c c1 /\ reads (rom_file data id) x1.
Proof.
  intros depth upd d r p c x x1 B L D H W GF RD E.
  assert (BC : is_bytes c). { destruct (RomViewProps.C118_by_name depth d r p B L H W) as (GN & _). apply GN in GF as (id & _ & _ & ->). apply is_bytes_part; exact B. }
  destruct (C131_edited c x x1 BC RD E) as (c1 & W1 & B1 & _ & R1). exists c1. split; [exact W1|]. intros r' data r1 SF SV PM NM.
  destruct (C121_file_in_rom depth upd d r p c c1 r' data r1 B L D H W GF B1 SF SV PM NM) as (_ & id & X). exists id. split; [exact X|]. destruct X as (_ & _ & _ & _ & _ & -> & _). exact R1.
Qed.
Print Assumptions C131_in_rom.
(** and of a file [q] of an archive *)
Theorem C131_in_archive : forall depth a n q f x x1, is_bytes a -> NarcModel.narc_load depth a = Ok n -> writable_path q -> NarcModel.getFileByName n (join_slash q) = Ok f -> reads f x -> redrawn x x1 ->
  exists f1, writes x1 f1 /\ forall n' a1, NarcModel.setFileByName n (join_slash q) f1 = Ok n' -> NarcModel.narc_save n' = Ok a1 -> is_bytes a1 /\ exists k, exchanged_in a a1 q k f f1 /\ reads (ViewSpec.narc_file a1 (Z.to_nat k)) x1.
Proof.
  intros depth a n q f x x1 B H W GF RD E.
  assert (BF : is_bytes f). { destruct (RomViewProps.C118_narc_by_name depth a n q B H W) as (GN & _). apply GN in GF as (id & _ & _ & ->). apply is_bytes_part; exact B. }
  destruct (C131_edited f x x1 BF RD E) as (f1 & W1 & B1 & _ & R1). exists f1. split; [exact W1|]. intros n' a1 SF SV.
  destruct (C121_file_in_archive depth a n q f f1 n' a1 B H W GF B1 SF SV) as (_ & BA & k & X). split; [exact BA|]. exists k. split; [exact X|]. destruct X as (_ & _ & _ & _ & _ & -> & _). exact R1.
Qed.
Print Assumptions C131_in_archive.

(** an area is moved to the right and one is added; a colour is removed and another one made
    transparent; tiles are exchanged; a part of a map is mirrored *)
Definition ex_area : touchArea := {| taX := 0x123; taY := 0x456; taW := 30; taH := 40; taAlign := 0x42 |}.
Definition ex_areas (a : touchArea) : art := Areas {| blUnk04 := 7; blAreas := [{| taX := taX a + 5; taY := taY a; taW := taW a; taH := taH a; taAlign := taAlign a |}; a] |}.
Example C131_ex : let c := [0x4A; 0x4E; 0x42; 0x4C; 7; 0; 1; 0; 0x23; 0x21; 0x56; 0x14; 30; 40] in
  is_bytes c /\ reads c (Areas {| blUnk04 := 7; blAreas := [ex_area] |}) /\ redrawn (Areas {| blUnk04 := 7; blAreas := [ex_area] |}) (ex_areas ex_area) /\
  writes (ex_areas ex_area) [0x4A; 0x4E; 0x42; 0x4C; 7; 0; 2; 0; 0x28; 0x21; 0x56; 0x14; 30; 40; 0x23; 0x21; 0x56; 0x14; 30; 40] /\
  reads [0x1F; 0x00; 0x41; 0x8C; 0x77] (Colours [C4 31 0 0 0; C4 1 2 3 1]) /\ redrawn (Colours [C4 31 0 0 0; C4 1 2 3 1]) (Colours [C4 1 2 3 1; C4 1 2 3 0]) /\ writes (Colours [C4 1 2 3 1; C4 1 2 3 0]) [0x41; 0x8C; 0x41; 0x0C] /\
  (let t n h := {| mFormat := M16; mTileNum := n; mHFlip := h; mVFlip := false; mPalette := 3 |} in
   reads [5; 0x30; 9; 0x34] (Map M16 [t 5 false; t 9 true]) /\ redrawn (Map M16 [t 5 false; t 9 true]) (Map M16 [t 9 true; t 5 true; t 5 false]) /\ writes (Map M16 [t 9 true; t 5 true; t 5 false]) [9; 0x34; 5; 0x34; 5; 0x30]) /\
  (let t k := {| tPixels := repeat k 64; tFormat := FI4 |} in reads (repeat 0x22 32 ++ repeat 0x33 32) (Tiles FI4 [t 2; t 3]) /\ redrawn (Tiles FI4 [t 2; t 3]) (Tiles FI4 [t 3; t 7]) /\ writes (Tiles FI4 [t 3; t 7]) (repeat 0x33 32 ++ repeat 0x77 32)).
Proof.
  cbv zeta. split; [repeat constructor; cbn; lia|]. split; [vm_compute; reflexivity|]. split.
  { cbn [redrawn ex_areas blUnk04 blAreas]. split; [left; reflexivity|]. split; [vm_compute; reflexivity|]. intros a [<-|[<-|[]]]; [right|left; left; reflexivity]. unfold area_ok, coord, is_byte. cbn. repeat split; try lia; tauto. }
  split; [vm_compute; reflexivity|]. split; [vm_compute; reflexivity|]. split; [intros c [<-|[<-|[]]]; [left; right; left; reflexivity|right; cbn; lia]|]. split; [vm_compute; reflexivity|]. split.
  - split; [vm_compute; reflexivity|]. split; [|vm_compute; reflexivity]. split; [reflexivity|]. intros t [<-|[<-|[<-|[]]]]; [left; right; left; reflexivity|right; split; [reflexivity|cbn [mTileNum mPalette]; lia]|left; left; reflexivity].
  - split; [vm_compute; reflexivity|]. split; [|vm_compute; reflexivity]. split; [reflexivity|]. intros t [<-|[<-|[]]]; [left; right; left; reflexivity|right]. split; [reflexivity|]. split; [reflexivity|]. cbn [tPixels]. apply Forall_forall. intros p P. apply repeat_spec in P. subst p. cbn. lia.
Qed.
(** in the ROM of C15 the file "b" becomes a palette, and one of its colours is changed *)
Definition ex_gallery : bytes := match (r <- rom_setFileByName RomProps.ex_rom (asc "b") [0x1F; 0x00; 0x41; 0x8C] ;; rom_save false r) with Ok (d, _) => d | Err _ => [] end.
Definition ex_recoloured : res (rom * bytes) :=
  r <- rom_load 5 ex_gallery ;; c <- rom_getFileByName r (asc "b") ;; p <- loadPalette c ;;
  match p with [u; v] => c1 <- savePalette [v; C4 1 2 3 0; u] ;; r' <- rom_setFileByName r (asc "b") c1 ;; '(data, _) <- rom_save false r' ;; Ok (r, data) | _ => Err ValueError end.
Example C131_rom_ex : match ex_recoloured with Err _ => False | Ok (r, data) =>
    zlen (arm9PostData r) mod 12 = 0 /\ (zlen (arm9 r) + zlen (arm9PostData r)) mod 0x200 <> 0 /\ rom_file data 0 = [100] /\ rom_file data 1 = [0x41; 0x8C; 0x41; 0x0C; 0x1F; 0x00] /\ rom_file data 2 = [102; 102; 102] /\
    reads (rom_file data 1) (Colours [C4 1 2 3 1; C4 1 2 3 0; C4 31 0 0 0]) end.
Proof. vm_compute. repeat split. discriminate. Qed.

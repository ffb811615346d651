(** * C119: named files of a ROM or of an archive are changed

    From the bytes read to the bytes written: an arbitrary ROM (or archive) is loaded,
    files are assigned by name, and it is saved.  The ROM written has the names, the
    header, the code and the overlay tables of the one read, and its files with the
    assignments made. *)
From Coq Require Import String.
From Verif Require Import PyBase PyLemmas PyTac FntModel LzModel Lz10Lemmas LzProps RomModel NarcModel NarcLemmas RomSpec RomEditSpec RomResave RomEditLemmas ViewSpec ViewLzSpec ViewLemmas ViewLz ViewProps ViewFilesProps RomProps NarcProps RomViewSpec RomView RomViewProps EditSpec EditBytes EditView.

Theorem C119_rom : forall depth upd d r ops r' data r1, is_bytes d -> 0x200 <= zlen d -> (1 <= depth)%nat -> rom_load depth d = Ok r ->
  Forall (fun x => writable_path (fst x) /\ is_bytes (snd x)) ops ->
  rom_set_all r (map (fun x => (join_slash (fst x), snd x)) ops) = Ok r' -> rom_save upd r' = Ok (data, r1) ->
  zlen (arm9PostData r) mod 12 = 0 -> ~ stored data (word data 0x20 + zlen (arm9 r) + zlen (arm9PostData r)) magic ->
  exists g, edits (fnt_part d) (has_file d) (rom_file d) ops g /\ is_bytes data /\
    (forall p id, found (fnt_part data) 0 p id <-> found (fnt_part d) 0 p id) /\
    (forall i, 0 <= i -> (has_file data i <-> has_file d i) /\ (has_file d i -> rom_file data i = g i)) /\ kept_header d data /\ kept_code d data.
Proof. intros depth upd d r ops r' data r1 B L D H G S SV PM NM. exact (rom_edited depth d r B L H upd ops r' data r1 G D S SV PM NM). Qed.
Print Assumptions C119_rom.
(** which assignments are possible *)
Theorem C119_rom_accepted : forall depth d r ops, is_bytes d -> 0x200 <= zlen d -> rom_load depth d = Ok r ->
  Forall (fun x => writable_path (fst x) /\ is_bytes (snd x)) ops ->
  (exists r', rom_set_all r (map (fun x => (join_slash (fst x), snd x)) ops) = Ok r') <-> exists g, edits (fnt_part d) (has_file d) (rom_file d) ops g.
Proof.
  intros depth d r ops B L H G. destruct (rom_edits depth d r B L H ops G) as (A1 & A2). split; [intros (r' & R); destruct (A1 r' R) as (g & E & _); exists g; exact E|]. intros (g & E). exact (A2 g E).
Qed.
Print Assumptions C119_rom_accepted.
(** the same of an archive, where nothing but the files is in the way of saving it *)
Theorem C119_narc : forall depth d n ops n' data, is_bytes d -> narc_load depth d = Ok n ->
  Forall (fun x => writable_path (fst x) /\ is_bytes (snd x)) ops ->
  set_all n (map (fun x => (join_slash (fst x), snd x)) ops) = Ok n' -> narc_save n' = Ok data ->
  exists g, edits (narc_names d) (fun i => i < word d 0x18) (fun i => ViewSpec.narc_file d (Z.to_nat i)) ops g /\ is_bytes data /\ narc_shape data /\
    (forall p id, found (narc_names data) 0 p id <-> found (narc_names d) 0 p id) /\
    word data 0x18 = word d 0x18 /\ (forall i, 0 <= i < word d 0x18 -> ViewSpec.narc_file data (Z.to_nat i) = g i) /\ (half data 4 = 0xFFFE <-> half d 4 = 0xFFFE).
Proof. intros depth d n ops n' data B H G S SV. destruct (narc_edited depth d n B H ops n' G S) as (g & E & F). exists g. split; [exact E|exact (F data SV)]. Qed.
Print Assumptions C119_narc.
Theorem C119_narc_accepted : forall depth d n ops, is_bytes d -> narc_load depth d = Ok n ->
  Forall (fun x => writable_path (fst x) /\ is_bytes (snd x)) ops ->
  (exists n', set_all n (map (fun x => (join_slash (fst x), snd x)) ops) = Ok n') <->
  exists g, edits (narc_names d) (fun i => i < word d 0x18) (fun i => ViewSpec.narc_file d (Z.to_nat i)) ops g.
Proof.
  intros depth d n ops B H G. split; [intros (n' & R); destruct (narc_edited depth d n B H ops n' G R) as (g & E & _); exists g; exact E|]. intros (g & E). exact (narc_edits_ok depth d n B H ops G g E).
Qed.
Print Assumptions C119_narc_accepted.

(** files of an archive that is, compressed ([z]) or not, a file of a ROM: taken out,
    changed, and put back *)
Definition unpack (z : bool) (c : bytes) : res bytes := if z then lz10_decompress c else Ok c.
Definition pack (z : bool) (a : bytes) : res bytes := if z then lz10_compress a else Ok a.
Definition holds (z : bool) (c a : bytes) : Prop := if z then lz10_means c a else c = a.
Lemma unpack_holds z c a : is_bytes c -> unpack z c = Ok a -> is_bytes a /\ holds z c a.
Proof.
  intros B H. destruct z; cbn [unpack holds] in *; [|injection H as <-; split; [exact B|reflexivity]]. split; [|apply lz10_iff; assumption].
  pose proof (lz10_decompress_safe c B) as S. rewrite H in S. destruct S as (_ & _ & _ & _ & _ & S). exact S.
Qed.
Lemma pack_holds z a c : is_bytes a -> pack z a = Ok c -> is_bytes c /\ holds z c a.
Proof.
  intros B H. destruct z; cbn [pack holds] in *; [|injection H as <-; split; [exact B|reflexivity]]. pose proof (lz10_out_bytes a c B H) as BC. split; [exact BC|].
  apply lz10_iff; [exact BC|]. destruct (Z_lt_ge_dec (zlen a) (2 ^ 24)) as [Q|Q]; [|rewrite (C01_lz10_too_long a) in H by lia; discriminate].
  destruct (C01_lz10_lossless a [] Q) as (c' & E & D). rewrite E in H. apply SeqRead.ok_inj in H. rewrite <- H, <- (app_nil_r c'). exact D.
Qed.
Theorem C119_archive_in_rom : forall depth upd d r p z c a n ops n' a' c' r' data r1, is_bytes d -> 0x200 <= zlen d -> (1 <= depth)%nat -> rom_load depth d = Ok r -> writable_path p ->
  rom_getFileByName r (join_slash p) = Ok c -> unpack z c = Ok a -> narc_load depth a = Ok n ->
  Forall (fun x => writable_path (fst x) /\ is_bytes (snd x)) ops -> set_all n (map (fun x => (join_slash (fst x), snd x)) ops) = Ok n' ->
  narc_save n' = Ok a' -> pack z a' = Ok c' -> rom_setFileByName r (join_slash p) c' = Ok r' -> rom_save upd r' = Ok (data, r1) ->
  zlen (arm9PostData r) mod 12 = 0 -> ~ stored data (word data 0x20 + zlen (arm9 r) + zlen (arm9PostData r)) magic ->
  exists id g, found (fnt_part d) 0 p id /\ found (fnt_part data) 0 p id /\ holds z (rom_file d id) a /\ holds z (rom_file data id) a' /\
    edits (narc_names a) (fun i => i < word a 0x18) (fun i => ViewSpec.narc_file a (Z.to_nat i)) ops g /\
    word a' 0x18 = word a 0x18 /\ (forall q i, found (narc_names a') 0 q i <-> found (narc_names a) 0 q i) /\
    (forall i, 0 <= i < word a 0x18 -> ViewSpec.narc_file a' (Z.to_nat i) = g i) /\
    (forall i, 0 <= i -> i <> id -> has_file d i -> has_file data i /\ rom_file data i = rom_file d i).
Proof.
  intros depth upd d r p z c a n ops n' a' c' r' data r1 B L D H W GF U NL G S NS PK SF SV PM NM.
  destruct (C118_by_name depth d r p B L H W) as (GN & _). apply GN in GF as (id & F & HF & EC). assert (BC : is_bytes c) by (rewrite EC; apply is_bytes_part; exact B).
  apply unpack_holds in U as (BA & HO); [|exact BC]. destruct (C119_narc depth a n ops n' a' BA NL G S NS) as (g & E & BA' & _ & N1 & N2 & N3 & _).
  apply pack_holds in PK as (BC' & HO'); [|exact BA'].
  destruct (C119_rom depth upd d r [(p, c')] r' data r1 B L D H) as (h & E' & _ & R1 & R2 & _); [constructor; [split; assumption|constructor]| |exact SV|exact PM|exact NM|].
  { unfold rom_set_all. cbn [map foldM fst snd]. rewrite SF. reflexivity. }
  inversion E' as [|f0 p0 v0 ops0 id' g0 F' HF' E'' X1 X2 X3]; subst. inversion E'' as [f0 Y1 Y2 Y3|]; subst. assert (id' = id) as -> by (exact (found_once depth d r B L H p id' id F' F)).
  pose proof (name_nonneg depth d r B L H p id F) as I0. exists id, g. split; [exact F|]. split; [apply R1; exact F|]. split; [exact HO|]. split.
  { destruct (R2 id I0) as (_ & Q). rewrite (Q HF), Z.eqb_refl. exact HO'. }
  split; [exact E|]. split; [exact N2|]. split; [exact N1|]. split; [exact N3|]. intros i I NI HI. destruct (R2 i I) as (Q1 & Q2). split; [apply Q1; exact HI|]. rewrite (Q2 HI). rewrite (proj2 (Z.eqb_neq i id) NI). reflexivity.
Qed.
Print Assumptions C119_archive_in_rom.

(** a ROM whose file "b" (number 1) is a compressed archive with the files "x" and
    "d/y"; "d/y" is replaced *)
Definition ex_packed : bytes := match (a <- narc_save (ex_narc LE) ;; lz10_compress a) with Ok c => c | Err _ => [] end.
Definition ex_outer : bytes := match (r <- rom_setFileByName ex_rom (asc "b") ex_packed ;; rom_save false r) with Ok (d, _) => d | Err _ => [] end.
Definition ex_edit (v : bytes) : res (rom * bytes) :=
  r <- rom_load 5 ex_outer ;; c <- rom_getFileByName r (asc "b") ;; a <- lz10_decompress c ;; n <- narc_load 5 a ;;
  n' <- setFileByName n (asc "d/y") v ;; a' <- narc_save n' ;; c' <- lz10_compress a' ;; r' <- rom_setFileByName r (asc "b") c' ;;
  '(data, _) <- rom_save false r' ;; Ok (r, data).
Example C119_ex : match ex_edit [8; 9; 10] with Err _ => False | Ok (r, data) =>
    zlen (arm9PostData r) mod 12 = 0 /\ (zlen (arm9 r) + zlen (arm9PostData r)) mod 0x200 <> 0 /\
    rom_file data 0 = [100] /\ rom_file data 2 = [102; 102; 102] /\ kept_header ex_outer data /\ kept_code ex_outer data /\
    match lz10_decompress (rom_file data 1) with Ok a => map (fun i => ViewSpec.narc_file a i) [0; 1; 2]%nat = [[1; 2; 3; 4; 5]; [8; 9; 10]; [7]] | Err _ => False end end.
Proof. vm_compute. repeat split. discriminate. Qed.
(** the assignments, as made on the bytes of the archive in it *)
Example C119_edits_ex : exists a g, narc_save (ex_narc LE) = Ok a /\ edits (narc_names a) (fun i => i < word a 0x18) (fun i => ViewSpec.narc_file a (Z.to_nat i)) [([asc "d"; asc "y"], [8; 9])] g /\ g 1 = [8; 9] /\ g 0 = [1; 2; 3; 4; 5].
Proof.
  eexists. eexists. split; [vm_compute; reflexivity|]. split.
  { apply (ed_file _ _ _ _ _ _ 1); [|vm_compute; reflexivity|apply ed_none].
    apply (found_below _ _ _ 1).
    - apply fd_file; [split; vm_compute; intuition congruence|]. refine (fd_here _ _ _ 1 _ _); [repeat split; vm_compute; intuition congruence|reflexivity].
    - refine (found_file _ 1 _ 0 _). apply ff_here; [split; vm_compute; intuition congruence|reflexivity]. }
  split; vm_compute; reflexivity.
Qed.

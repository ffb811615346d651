(** * C121: messages are changed

    From the bytes read to the bytes written: an arbitrary BMG file - alone, in a ROM, or
    in a possibly compressed archive of a ROM - is loaded, its messages are changed, and
    it is saved.  What is read from the result is what was saved, and nothing else has
    changed. *)
From Coq Require Import String.
From Verif Require Import PyBase PyLemmas PyTac FntModel LzModel RomModel NarcModel BmgModel BmgSpec BmgSave BmgFile BmgResave BmgReload BmgProps BmgTextProps RomSpec RomEditSpec RomResave RomEditLemmas ViewSpec ViewLzSpec ViewLemmas ViewProps ViewFilesProps RomProps NarcProps
  RomViewSpec RomViewProps EditSpec EditView EditViewProps EditBmgSpec EditFile.

Theorem C121_edited : forall sj id0 id1 d b b1 d', is_bytes d -> bmg_load sj id0 d = Ok b -> bEncoding b <> ShiftJis -> rewritten b b1 ->
  bmg_save sj b1 = Ok d' -> length_tells (bEndian b1) (claimed_len d') -> exists b', bmg_load sj id1 d' = Ok b' /\ reads_as b1 b'.
Proof.
  intros sj id0 id1 d b b1 d' B L NS [E M I A S] SV LT. destruct (load_canonical sj id0 d b B NS L) as (T & C1 & C2 & C3 & C4). assert (N1 : bEncoding b1 <> ShiftJis) by congruence.
  exists (loaded b1). split.
  { apply (C21_load_save sj id1 b1 d' SV); [|intros X; contradiction|exact LT]. intros m s Hm Hs. destruct (M m Hm) as [Hb|(P & _)]; [exact (T m s Hb Hs)|exact (P s Hs)]. }
  pose proof (save_fits sj b1 d' ltac:(intros X; contradiction) SV) as (_ & _ & I8 & _).
  unfold loaded, reads_as. cbn [bMessages bInstructions bLabels bScripts bId bEncoding bEndian bUnk14 bUnk18 bUnk1C]. split; [|split; [|split; [|split; [|repeat split]]]].
  - rewrite <- (map_id (bMessages b1)) at 2. apply map_ext_in. intros m Hm. assert (Q : if mNull m then mParts m = [] else join (mParts m) = mParts m) by (destruct (M m Hm) as [Hb|(_ & P)]; [exact (C1 m Hb)|exact P]).
    unfold loaded_message. destruct m as [i p n]. cbn [mNull mParts mInfo] in *. destruct n; rewrite Q; reflexivity.
  - apply filter_all. intros i Hi. assert (Q : i <> zeros 8) by (destruct (I i Hi) as [Hb|P]; [exact (C2 i Hb)|exact P]). rewrite <- forallb_zero_eq by (apply I8; exact Hi). rewrite BmgScan.beq_neq by exact Q. reflexivity.
  - apply filter_all. intros l Hl. assert (Q : l <> (0, 0)) by (destruct (A l Hl) as [Hb|P]; [exact (C3 l Hb)|exact P]). destruct l as [x y]. unfold nonzero_label. cbn [fst snd]. destruct (Z.eqb_spec x 0), (Z.eqb_spec y 0); subst; try reflexivity. congruence.
  - assert (R : forall s, In s (bScripts b1) -> 0 <= snd s < 65536) by (intros s Hs; destruct (S s Hs) as [Hb|P]; [exact (C4 s Hb)|exact P]).
    destruct (bEndian b1).
    + rewrite <- (map_id (bScripts b1)) at 2. apply map_ext_in. intros [x y] Hs. specialize (R _ Hs). cbn [snd] in R. unfold loaded_script. cbn [fst snd]. rewrite Z.mod_small by lia. reflexivity.
    + apply map_ext_in. intros [x y] Hs. specialize (R _ Hs). cbn [snd] in R. unfold loaded_script. cbn [fst snd]. rewrite Z.div_small by lia. reflexivity.
Qed.
Print Assumptions C121_edited.

(** a file of a ROM is exchanged *)
Theorem C121_file_in_rom : forall depth upd d r p c c' r' data r1, is_bytes d -> 0x200 <= zlen d -> (1 <= depth)%nat -> rom_load depth d = Ok r -> writable_path p ->
  rom_getFileByName r (join_slash p) = Ok c -> is_bytes c' -> rom_setFileByName r (join_slash p) c' = Ok r' -> rom_save upd r' = Ok (data, r1) ->
  zlen (arm9PostData r) mod 12 = 0 -> ~ stored data (word data 0x20 + zlen (arm9 r) + zlen (arm9PostData r)) magic ->
  is_bytes c /\ exists id, exchanged d data p id c c'.
Proof. exact rom_exchange. Qed.
Print Assumptions C121_file_in_rom.
Theorem C121_file_in_archive : forall depth a n q f f' n' a', is_bytes a -> narc_load depth a = Ok n -> writable_path q -> getFileByName n (join_slash q) = Ok f -> is_bytes f' ->
  setFileByName n (join_slash q) f' = Ok n' -> narc_save n' = Ok a' -> is_bytes f /\ is_bytes a' /\ exists k, exchanged_in a a' q k f f'.
Proof. exact narc_exchange. Qed.
Print Assumptions C121_file_in_archive.

(** the messages of a file of a ROM *)
Theorem C121_in_rom : forall sj id0 id1 depth upd d r p c b b1 c' r' data r1, is_bytes d -> 0x200 <= zlen d -> (1 <= depth)%nat -> rom_load depth d = Ok r -> writable_path p ->
  rom_getFileByName r (join_slash p) = Ok c -> bmg_load sj id0 c = Ok b -> bEncoding b <> ShiftJis -> rewritten b b1 -> bmg_save sj b1 = Ok c' -> is_bytes c' ->
  length_tells (bEndian b1) (claimed_len c') -> rom_setFileByName r (join_slash p) c' = Ok r' -> rom_save upd r' = Ok (data, r1) ->
  zlen (arm9PostData r) mod 12 = 0 -> ~ stored data (word data 0x20 + zlen (arm9 r) + zlen (arm9PostData r)) magic ->
  exists id b', exchanged d data p id c c' /\ bmg_load sj id1 (rom_file data id) = Ok b' /\ reads_as b1 b'.
Proof.
  intros sj id0 id1 depth upd d r p c b b1 c' r' data r1 B L D H W GF LB NS RW SB BC' LT SF SV PM NM. destruct (rom_exchange depth upd d r p c c' r' data r1 B L D H W GF BC' SF SV PM NM) as (BC & id & X).
  destruct (C121_edited sj id0 id1 c b b1 c' BC LB NS RW SB LT) as (b' & LB' & R). exists id, b'. split; [exact X|]. split; [|exact R]. destruct X as (_ & _ & _ & _ & _ & -> & _). exact LB'.
Qed.
Print Assumptions C121_in_rom.
(** ... and of a file [q] of an archive, compressed ([z]) or not, that is the file [p] *)
Theorem C121_in_archive : forall sj id0 id1 depth upd d r p z c a n q f b b1 f' n' a' c' r' data r1, is_bytes d -> 0x200 <= zlen d -> (1 <= depth)%nat -> rom_load depth d = Ok r -> writable_path p ->
  rom_getFileByName r (join_slash p) = Ok c -> unpack z c = Ok a -> narc_load depth a = Ok n -> writable_path q -> getFileByName n (join_slash q) = Ok f ->
  bmg_load sj id0 f = Ok b -> bEncoding b <> ShiftJis -> rewritten b b1 -> bmg_save sj b1 = Ok f' -> is_bytes f' -> length_tells (bEndian b1) (claimed_len f') ->
  setFileByName n (join_slash q) f' = Ok n' -> narc_save n' = Ok a' -> pack z a' = Ok c' -> rom_setFileByName r (join_slash p) c' = Ok r' -> rom_save upd r' = Ok (data, r1) ->
  zlen (arm9PostData r) mod 12 = 0 -> ~ stored data (word data 0x20 + zlen (arm9 r) + zlen (arm9PostData r)) magic ->
  exists id k b', exchanged d data p id c c' /\ holds z c a /\ holds z c' a' /\ exchanged_in a a' q k f f' /\ bmg_load sj id1 (ViewSpec.narc_file a' (Z.to_nat k)) = Ok b' /\ reads_as b1 b'.
Proof.
  intros sj id0 id1 depth upd d r p z c a n q f b b1 f' n' a' c' r' data r1 B L D H W GF U NL WQ GQ LB NS RW SB BF' LT SQ NSV PK SF SV PM NM.
  assert (BC : is_bytes c). { destruct (C118_by_name depth d r p B L H W) as (GN & _). apply GN in GF as (id & _ & _ & ->). apply ViewLemmas.is_bytes_part; exact B. }
  apply unpack_holds in U as (BA & HO); [|exact BC]. destruct (narc_exchange depth a n q f f' n' a' BA NL WQ GQ BF' SQ NSV) as (BF & BA' & k & X). apply pack_holds in PK as (BC' & HO'); [|exact BA'].
  destruct (rom_exchange depth upd d r p c c' r' data r1 B L D H W GF BC' SF SV PM NM) as (_ & id & Y). destruct (C121_edited sj id0 id1 f b b1 f' BF LB NS RW SB LT) as (b' & LB' & R).
  exists id, k, b'. split; [exact Y|]. split; [exact HO|]. split; [exact HO'|]. split; [exact X|]. split; [|exact R]. destruct X as (_ & _ & _ & _ & _ & -> & _). exact LB'.
Qed.
Print Assumptions C121_in_archive.

(** a file whose sections come in the other order (C96), and a text put in front of the
    escape in its first message *)
Definition ex_text (b : bmg) : bmg :=
  mkBmg (match bMessages b with m :: r => mkMessage (mInfo m) [Txt [0x48; 0x20AC]; Esc 7 [1; 2]; Txt [33]] false :: r | [] => [] end) (bInstructions b) (bLabels b) (bScripts b) (bId b) (bEncoding b) (bEndian b) (bUnk14 b) (bUnk18 b) (bUnk1C b).
Lemma ex_rewritten b : rewritten b (ex_text b).
Proof.
  constructor; cbn [ex_text bEncoding bMessages bInstructions bLabels bScripts]; try (intros; left; assumption); [reflexivity|]. intros m I. destruct (bMessages b) as [|m0 r]; [destruct I|].
  destruct I as [<-|I]; [right|left; right; exact I]. split; [|reflexivity]. cbn [mParts]. intros s Hs.
  destruct Hs as [E|[E|[E|[]]]]; [| discriminate |]; injection E as <-; repeat constructor; lia.
Qed.
Example C121_ex : is_bytes swapped_file /\ (forall b, rewritten b (ex_text b)) /\
  match (b <- bmg_load sj_ascii 0 swapped_file ;; d' <- bmg_save sj_ascii (ex_text b) ;; b' <- bmg_load sj_ascii 0 d' ;; Ok (b, d', b')) with Err _ => False | Ok (b, d', b') =>
    bEncoding b = Utf8 /\ length_tells (bEndian (ex_text b)) (claimed_len d') /\ bMessages b = [mkMessage [] [Txt [72]; Esc 7 [1; 2]; Txt [105]] false; mkMessage [] [] true] /\
    bMessages b' = [mkMessage [] [Txt [0x48; 0x20AC]; Esc 7 [1; 2]; Txt [33]] false; mkMessage [] [] true] end.
Proof. split; [all_bytes|]. split; [exact ex_rewritten|]. vm_compute. repeat split. Qed.
(** the same in the archive of a ROM *)
Definition data_of (x : res (bytes * rom)) : bytes := match x with Ok p => fst p | Err _ => [] end.
Definition ex_story : bytes :=
  data_of (n <- setFileByName (ex_narc LE) (asc "d/y") swapped_file ;; a <- narc_save n ;; c <- lz10_compress a ;; r <- rom_setFileByName ex_rom (asc "b") c ;; rom_save false r).
Definition ex_translated : res (rom * bytes) :=
  r <- rom_load 5 ex_story ;; c <- rom_getFileByName r (asc "b") ;; a <- lz10_decompress c ;; n <- narc_load 5 a ;; f <- getFileByName n (asc "d/y") ;;
  b <- bmg_load sj_ascii 0 f ;; f' <- bmg_save sj_ascii (ex_text b) ;;
  n' <- setFileByName n (asc "d/y") f' ;; a' <- narc_save n' ;; c' <- lz10_compress a' ;; r' <- rom_setFileByName r (asc "b") c' ;; '(data, _) <- rom_save false r' ;; Ok (r, data).
Example C121_rom_ex : match ex_translated with Err _ => False | Ok (r, data) =>
    zlen (arm9PostData r) mod 12 = 0 /\ (zlen (arm9 r) + zlen (arm9PostData r)) mod 0x200 <> 0 /\ rom_file data 0 = [100] /\
    match (a <- lz10_decompress (rom_file data 1) ;; bmg_load sj_ascii 0 (ViewSpec.narc_file a 1)) with
    | Ok b => map mParts (bMessages b) = [[Txt [0x48; 0x20AC]; Esc 7 [1; 2]; Txt [33]]; []] | Err _ => False end end.
Proof. vm_compute. repeat split. discriminate. Qed.

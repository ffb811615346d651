(** * C128, C129: sequence archives and banks of a game are changed

    As C128_in_rom, for the sequence archives and the banks of a sound archive of a ROM. *)
From Coq Require Import String.
From Verif Require Import PyBase PyLemmas PyTac FntModel LzModel SeqModel SeqSpec SeqParse SsarModel SbnkModel SdatModel RomModel RomSpec SdatSpec ViewSpec ViewLzSpec ViewLemmas ViewProps RomViewSpec RomView RomViewProps
  RomProps EditSpec EditView EditViewProps EditSeqProps EditSsarProps EditSdatSpec EditSdatProps EditSoundProps EditBanksProps EditGameProps.

Theorem C128_archive_in_rom : forall depth upd order order' d r p z c a s s1 a' c' r' data r1, is_bytes d -> 0x200 <= zlen d -> (1 <= depth)%nat -> rom_load depth d = Ok r -> writable_path p ->
  rom_getFileByName r (join_slash p) = Ok c -> unpack z c = Ok a -> sdat_load order a = Ok s -> made_from s s1 -> sdat_save s1 = Ok a' -> is_bytes a' ->
  pack z a' = Ok c' -> rom_setFileByName r (join_slash p) c' = Ok r' -> rom_save upd r' = Ok (data, r1) ->
  zlen (arm9PostData r) mod 12 = 0 -> ~ stored data (word data 0x20 + zlen (arm9 r) + zlen (arm9PostData r)) magic ->
  exists id s', found (fnt_part data) 0 p id /\ holds z (rom_file data id) a' /\ (forall i, 0 <= i -> i <> id -> has_file d i -> has_file data i /\ rom_file data i = rom_file d i) /\
  sdat_load order' a' = Ok s' /\ same_entries a' s1 s' /\
  forall depth1 depth2 k n m x x' j n1 m1 evs1 data1 seqs1 u1, nth_error (dArchs s) k = Some (n, Some (m, x)) -> ssar_parse depth1 x = Ok x' -> rearranged (rEvents x') evs1 -> evs1 <> [] ->
    (forall p, In p seqs1 -> aParsed (snd p) = true /\ aFirst (snd p) <> None) ->
    nth_error (dArchs s1) j = Some (n1, Some (m1, {| rParsed := true; rEvents := evs1; rData := data1; rSeqs := seqs1; rUnk := u1 |})) ->
    exists m2 x1 pos P os, nth_error (dArchs s') j = Some (n1, Some (m2, x1)) /\ rUnk x1 = u1 /\ SeqSpec.placed pos 0 evs1 P /\ rData x1 = concat (map snd P) /\
    Forall2 (starts_at pos aOffset) seqs1 (rSeqs x1) /\ Forall2 (fun p o => pos_of pos (aFirst (snd p)) = Some o) seqs1 os /\
    ((forall o, In o (map (fun x => fst (fst x)) P) -> reachable (match os with [] => [0] | _ => os end) P o) -> forall x2, ssar_parse depth2 x1 = Ok x2 ->
       rEvents x2 = map fst P /\ rUnk x2 = u1 /\ Forall2 (starts_at pos aFirst) seqs1 (rSeqs x2)) /\
    ((length evs1 < depth2)%nat -> (exists p, last (map Some evs1) None = Some p /\ is_end (snd p) = true) -> (forall i, ~ In (i, Bare 0xFD) evs1) -> exists x2, ssar_parse depth2 x1 = Ok x2).
Proof.
  intros depth upd order order' d r p z c a s s1 a' c' r' data r1 B L D H W GF U NL M NS BA' PK SF SV PM NM.
  destruct (C120_in_rom depth upd order order' d r p z c a s s1 a' c' r' data r1 B L D H W GF U NL M NS BA' PK SF SV PM NM) as (id & s' & F & F' & HO & HO' & E & C & R).
  exists id, s'. repeat match goal with |- _ /\ _ => split end; try assumption.
  assert (BA : is_bytes a).
  { destruct (C118_by_name depth d r p B L H W) as (GN & _). apply GN in GF as (id' & _ & _ & EC). assert (BC : is_bytes c) by (rewrite EC; apply is_bytes_part; exact B). exact (proj1 (unpack_holds _ _ _ BC U)). }
  destruct (C128_archive_in_sdat order order' a s s1 a' BA NL M NS) as (s2 & E2 & _ & Q). rewrite E in E2. injection E2 as <-. exact Q.
Qed.
Print Assumptions C128_archive_in_rom.

Theorem C129_in_rom : forall depth upd order order' d r p z c a s s1 a' c' r' data r1, is_bytes d -> 0x200 <= zlen d -> (1 <= depth)%nat -> rom_load depth d = Ok r -> writable_path p ->
  rom_getFileByName r (join_slash p) = Ok c -> unpack z c = Ok a -> sdat_load order a = Ok s -> made_from s s1 -> sdat_save s1 = Ok a' -> is_bytes a' ->
  pack z a' = Ok c' -> rom_setFileByName r (join_slash p) c' = Ok r' -> rom_save upd r' = Ok (data, r1) ->
  zlen (arm9PostData r) mod 12 = 0 -> ~ stored data (word data 0x20 + zlen (arm9 r) + zlen (arm9PostData r)) magic ->
  exists id s', found (fnt_part data) 0 p id /\ holds z (rom_file data id) a' /\ (forall i, 0 <= i -> i <> id -> has_file d i -> has_file data i /\ rom_file data i = rom_file d i) /\
  sdat_load order' a' = Ok s' /\ same_entries a' s1 s' /\
  forall j n m b, nth_error (dBanks s1) j = Some (n, Some (m, b)) -> bInacc b = [] ->
    exists m2 b2 f w2, nth_error (dBanks s') j = Some (n, Some (m2, b2)) /\ bInacc b2 = [] /\ map (option_map iBody) (bInsts b2) = map (option_map iBody) (bInsts b) /\
      (forall i k x y x' y', nth_error (bInsts b) i = Some (Some x) -> nth_error (bInsts b) k = Some (Some y) -> nth_error (bInsts b2) i = Some (Some x') -> nth_error (bInsts b2) k = Some (Some y') ->
         (iMerge x' = iMerge y' <-> (exists tx ty z, body_save (iBody x) = Ok (tx, z) /\ body_save (iBody y) = Ok (ty, z)) /\ iMerge x = iMerge y)) /\
      sbnk_save b = Ok (f, bUnk b, bWars b) /\ sbnk_save b2 = Ok (f, bUnk b, w2) /\ exists z, file_view a' m2 = f ++ zeros z.
Proof.
  intros depth upd order order' d r p z c a s s1 a' c' r' data r1 B L D H W GF U NL M NS BA' PK SF SV PM NM.
  destruct (C120_in_rom depth upd order order' d r p z c a s s1 a' c' r' data r1 B L D H W GF U NL M NS BA' PK SF SV PM NM) as (id & s' & F & F' & HO & HO' & E & C & R).
  exists id, s'. repeat match goal with |- _ /\ _ => split end; try assumption.
  assert (BA : is_bytes a).
  { destruct (C118_by_name depth d r p B L H W) as (GN & _). apply GN in GF as (id' & _ & _ & EC). assert (BC : is_bytes c) by (rewrite EC; apply is_bytes_part; exact B). exact (proj1 (unpack_holds _ _ _ BC U)). }
  destruct (C129_in_sdat order order' a s s1 a' BA NL M NS) as (s2 & E2 & _ & Q). rewrite E in E2. injection E2 as <-. exact Q.
Qed.
Print Assumptions C129_in_rom.

(** in the ROM of [C128_rom_ex] the sound archive gets the sequence archive of [C128_sound_ex]
    or the bank of [C129_sound_ex] *)
Definition ex_session (edit : sdat -> sdat) : res (rom * bytes) :=
  r <- rom_load 5 ex_album ;; c <- rom_getFileByName r (asc "b") ;; a <- lz10_decompress c ;; s <- sdat_load [1; 16; 17] a ;;
  a' <- sdat_save (edit s) ;; c' <- lz10_compress a' ;; r' <- rom_setFileByName r (asc "b") c' ;; '(data, _) <- rom_save false r' ;; Ok (r, data).
Definition ex_heard (data : bytes) : res sdat := a <- lz10_decompress (rom_file data 1) ;; sdat_load [] a.
Example C128_archive_rom_ex : match ex_session EditSoundProps.ex_edit with Err _ => False | Ok (r, data) =>
    zlen (arm9PostData r) mod 12 = 0 /\ (zlen (arm9 r) + zlen (arm9PostData r)) mod 0x200 <> 0 /\ rom_file data 0 = [100] /\ rom_file data 2 = [102; 102; 102] /\
    match (s <- ex_heard data ;; match nth_error (dArchs s) 0 with Some (_, Some (_, x)) => ssar_parse 9 x | _ => Err OutOfFuel end) with
    | Ok x => rEvents x = [(0, Note 60 100 false 48); (3, Jump (Some 9)); (7, Byte1 0xC1 70); (9, Rest 5); (11, Bare 0xFF)] /\ map (fun p => aFirst (snd p)) (rSeqs x) = [Some 0; Some 7] | Err _ => False end end.
Proof. vm_compute. repeat split. discriminate. Qed.
Example C129_rom_ex : match ex_session ex_hire with Err _ => False | Ok (r, data) =>
    zlen (arm9PostData r) mod 12 = 0 /\ (zlen (arm9 r) + zlen (arm9PostData r)) mod 0x200 <> 0 /\ rom_file data 0 = [100] /\ rom_file data 2 = [102; 102; 102] /\
    match (s <- ex_heard data ;; Ok (nth_error (dBanks s) 0)) with
    | Ok (Some (Some [90], Some (_, b))) => map (option_map iBody) (bInsts b) = map (option_map iBody) (bInsts ex_band) /\ bWars b = [Some 0] | _ => False end end.
Proof. vm_compute. repeat split. discriminate. Qed.

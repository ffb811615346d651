(** * C128: the music of a game is changed

    The whole way, from the bytes of a ROM to the bytes of a ROM: a sound archive (stored
    as it is or compressed) is taken out by its path, a sequence of it is parsed and
    rearranged, and everything is put back and saved. *)
From Coq Require Import String.
From Verif Require Import PyBase PyLemmas PyTac FntModel LzModel SeqModel SeqSpec SeqParse SsarModel SdatModel RomModel RomSpec SdatSpec ViewSpec ViewLzSpec ViewLemmas ViewProps RomViewSpec RomView RomViewProps
  RomProps EditSpec EditView EditViewProps EditSeqProps EditSdatSpec EditSdatProps EditSoundProps.

Theorem C128_in_rom : forall depth upd order order' d r p z c a s s1 a' c' r' data r1, is_bytes d -> 0x200 <= zlen d -> (1 <= depth)%nat -> rom_load depth d = Ok r -> writable_path p ->
  rom_getFileByName r (join_slash p) = Ok c -> unpack z c = Ok a -> sdat_load order a = Ok s -> made_from s s1 -> sdat_save s1 = Ok a' -> is_bytes a' ->
  pack z a' = Ok c' -> rom_setFileByName r (join_slash p) c' = Ok r' -> rom_save upd r' = Ok (data, r1) ->
  zlen (arm9PostData r) mod 12 = 0 -> ~ stored data (word data 0x20 + zlen (arm9 r) + zlen (arm9PostData r)) magic ->
  exists id s', found (fnt_part data) 0 p id /\ holds z (rom_file data id) a' /\ (forall i, 0 <= i -> i <> id -> has_file d i -> has_file data i /\ rom_file data i = rom_file d i) /\
  sdat_load order' a' = Ok s' /\ same_entries a' s1 s' /\
  forall depth1 depth2 k n m q q' j n1 m1 evs1 data1 info1, nth_error (dSeqs s) k = Some (n, Some (m, q)) -> sseq_parse depth1 q = Ok q' -> rearranged (qEvents q') evs1 -> evs1 <> [] ->
    nth_error (dSeqs s1) j = Some (n1, Some (m1, {| qParsed := true; qEvents := evs1; qData := data1; qInfo := info1 |})) ->
    exists m2 q1 pos P, nth_error (dSeqs s') j = Some (n1, Some (m2, q1)) /\ qInfo q1 = info1 /\ SeqSpec.placed pos 0 evs1 P /\ qData q1 = concat (map snd P) /\
      ((forall o, In o (map (fun x => fst (fst x)) P) -> reachable [0] P o) -> forall q2, sseq_parse depth2 q1 = Ok q2 -> qEvents q2 = map fst P) /\
      ((length evs1 < depth2)%nat -> (exists p, last (map Some evs1) None = Some p /\ is_end (snd p) = true) -> (forall i, ~ In (i, Bare 0xFD) evs1) -> exists q2, sseq_parse depth2 q1 = Ok q2).
Proof.
  intros depth upd order order' d r p z c a s s1 a' c' r' data r1 B L D H W GF U NL M NS BA' PK SF SV PM NM.
  destruct (C120_in_rom depth upd order order' d r p z c a s s1 a' c' r' data r1 B L D H W GF U NL M NS BA' PK SF SV PM NM) as (id & s' & F & F' & HO & HO' & E & C & R).
  exists id, s'. repeat match goal with |- _ /\ _ => split end; try assumption.
  assert (BA : is_bytes a).
  { destruct (C118_by_name depth d r p B L H W) as (GN & _). apply GN in GF as (id' & _ & _ & EC). assert (BC : is_bytes c) by (rewrite EC; apply is_bytes_part; exact B). exact (proj1 (unpack_holds _ _ _ BC U)). }
  destruct (C128_in_sdat order order' a s s1 a' BA NL M NS) as (s2 & E2 & _ & Q). rewrite E in E2. injection E2 as <-. exact Q.
Qed.
Print Assumptions C128_in_rom.

(** a ROM whose file "b" is the archive of C60, compressed; the sequence is changed as in
    [C128_sound_ex] *)
Definition ex_album : bytes := match (c <- lz10_compress SdatProps.ex_file ;; r <- rom_setFileByName ex_rom (asc "b") c ;; rom_save false r) with Ok (d, _) => d | Err _ => [] end.
Definition ex_remix : res (rom * bytes) :=
  r <- rom_load 5 ex_album ;; c <- rom_getFileByName r (asc "b") ;; a <- lz10_decompress c ;; s <- sdat_load [1; 16; 17] a ;;
  a' <- sdat_save (EditSoundProps.ex_edit s) ;; c' <- lz10_compress a' ;; r' <- rom_setFileByName r (asc "b") c' ;; '(data, _) <- rom_save false r' ;; Ok (r, data).
Example C128_rom_ex : match ex_remix with Err _ => False | Ok (r, data) =>
    zlen (arm9PostData r) mod 12 = 0 /\ (zlen (arm9 r) + zlen (arm9PostData r)) mod 0x200 <> 0 /\ rom_file data 0 = [100] /\ rom_file data 2 = [102; 102; 102] /\
    match (a <- lz10_decompress (rom_file data 1) ;; s <- sdat_load [] a ;; match nth_error (dSeqs s) 0 with Some (_, Some (_, q)) => sseq_parse 9 q | _ => Err OutOfFuel end) with
    | Ok q => qEvents q = [(0, Note 60 100 false 48); (3, Rest 5); (5, Bare 0xA2); (6, Jump (Some 0)); (10, Bare 0xFF)] | Err _ => False end end.
Proof. vm_compute. repeat split. discriminate. Qed.

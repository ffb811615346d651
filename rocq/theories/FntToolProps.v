(** * The filename table tool and its JSON form (C88) *)
From Coq Require Import String.
From Verif Require Import PyBase PyLemmas LzModel CodeModel FntModel FntSpec FntSaveLemmas RomModel RomSpec FilesModel FilesSpec FilesLemmas.
From Verif Require FntProps RomProps FilesProps.

(** ** JSON *)
Lemma strs_back l : mapM as_str (map JStr l) = Ok l.
Proof. induction l as [|x l IH]; [reflexivity|]. cbn [map mapM as_str bind]. rewrite IH. reflexivity. Qed.
Lemma json_back : forall depth t, (height t <= depth)%nat ->
  jsonToFnt depth (fntToJson t) = match fFolders t with [] => Ok t | _ => Err TypeError end.
Proof.
  induction depth as [|k IH]; intros [folders files first] H; [cbn [height] in H; lia|].
  destruct folders as [|[n g] r]; cbn [fFolders].
  - destruct files as [|x l]; [reflexivity|].
    transitivity (fs <- mapM as_str (map JStr (x :: l)) ;; Ok (Folder [] fs first)); [reflexivity|]. rewrite strs_back. reflexivity.
  - assert (HG : (height g <= k)%nat) by (cbn [height map fold_right snd] in H; lia). specialize (IH g HG).
    transitivity (fs <- mapM as_str (map JStr files) ;; _ <- jsonToFnt k (fntToJson g) ;; Err (A := folder) TypeError).
    + destruct files; reflexivity.
    + rewrite strs_back. cbn [bind]. rewrite IH. destruct (fFolders g); reflexivity.
Qed.

(** a table converted to JSON and back: the same if it has no subfolders, TypeError
    otherwise ([height] bounds the nesting, [depth] Python's recursion limit) *)
Theorem C88_json_partial : forall depth t, (height t <= depth)%nat ->
  (fFolders t = [] -> jsonToFnt depth (fntToJson t) = Ok t) /\
  (fFolders t <> [] -> jsonToFnt depth (fntToJson t) = Err TypeError).
Proof. intros depth t H. rewrite (json_back depth t H). destruct (fFolders t); split; congruence. Qed.
Print Assumptions C88_json_partial.
Theorem C88_json_refuted : exists t, tree_ok t /\ forall depth, jsonToFnt depth (fntToJson t) <> Ok t.
Proof.
  exists (Folder [(asc "d", Folder [] [asc "f"] 0)] [] 1). split; [apply tree_okb_ok; reflexivity|].
  intros [|[|k]]; discriminate.
Qed.
Print Assumptions C88_json_refuted.
Example C88_ex_json :
  fntToJson (Folder [(asc "d", Folder [] [asc "f"; asc "g"] 5)] [] 7) =
    JDict [(asc "first_id", JInt 7);
           (asc "folders", JList [JList [JStr (asc "d"); JDict [(asc "first_id", JInt 5); (asc "files", JList [JStr (asc "f"); JStr (asc "g")])]]])] /\
  jsonToFnt 9 (fntToJson (Folder [] [asc "f"; asc "g"] 5)) = Ok (Folder [] [asc "f"; asc "g"] 5) /\
  jsonToFnt 9 (JDict []) = Err KeyError.
Proof. vm_compute. repeat split; reflexivity. Qed.

(** ** fnttool *)

(** a run changes at most the output file, and nothing if it fails *)
Theorem C88_tool_changes : forall js depth i o p q d r d', fnttool js depth i o p q d = (r, d') ->
  match r with Failed _ => d' = d | Done _ => exists b, replaced q b d d' end.
Proof.
  intros js depth i o p q d r d'. unfold fnttool, io_bind, pure, read_file.
  destruct (guard _ _); [|intros [= <- <-]; reflexivity]. destruct (contents d p) as [x|]; [|intros [= <- <-]; reflexivity].
  destruct (fnttool_load js depth i x) as [t|e]; [|intros [= <- <-]; reflexivity].
  destruct (fnttool_data js depth o t (contents d q)) as [b|e]; [|intros [= <- <-]; reflexivity].
  pose proof (write_file_writes q b d) as W. cbn beta iota in W. destruct (writable d q).
  - destruct W as (d1 & -> & R). intros [= <- <-]. exists b. exact R.
  - rewrite W. intros [= <- <-]. reflexivity.
Qed.
Print Assumptions C88_tool_changes.

(** it never works on NARC files: with the files in place, reading one raises
    AttributeError *)
Theorem C88_narc : forall js depth i o p q d, i = FNarc \/ o = FNarc ->
  (exists e, fnttool js depth i o p q d = (Failed e, d)) /\
  (i = FNarc -> contents d p <> None -> contents d q <> None -> fnttool js depth i o p q d = (Failed (Raised AttributeError), d)) /\
  (o = FNarc -> forall x t, contents d p = Some x -> fnttool_load js depth i x = Ok t -> contents d q <> None ->
     fnttool js depth i o p q d = (Failed (Raised AttributeError), d)).
Proof.
  intros js depth i o p q d H. unfold fnttool, io_bind, pure, read_file. split; [|split].
  - destruct (guard _ _); [|eauto]. destruct (contents d p) as [x|]; [|eauto]. destruct H as [->| ->]; [cbn [fnttool_load]; eauto|].
    destruct (fnttool_load js depth i x); [|eauto]. cbn [fnttool_data]. eauto.
  - intros -> P Q. destruct (contents d q); [|congruence]. destruct (contents d p); [|congruence]. destruct o; reflexivity.
  - intros -> x t P T Q. destruct (contents d q); [|congruence]. cbn [guard]. rewrite P, T. reflexivity.
Qed.
Print Assumptions C88_narc.

(** a loaded ROM has a well-formed table *)
Lemma rom_names depth data r : is_bytes data -> rom_load depth data = Ok r -> (1 <= depth)%nat ->
  tree_ok (filenames r) /\ files_named (filenames r) /\ (height (filenames r) <= depth)%nat.
Proof.
  intros BO E HD. unfold rom_load in E. cbv zeta in E.
  assert (BD : is_bytes (if zlen data <? 0x200 then data ++ zeros (0x200 - zlen data) else data)).
  { destruct (zlen data <? 0x200); [|exact BO]. apply is_bytes_app. split; [exact BO|apply is_bytes_zeros]. }
  revert E BD. generalize (if zlen data <? 0x200 then data ++ zeros (0x200 - zlen data) else data). intros D E BD.
  repeat match type of E with bind _ _ = Ok _ => let v := fresh "v" in let H := fresh "H" in apply PyLemmas.bind_ok in E as (v & H & E); cbv beta in E end.
  match type of E with (let (_, _) := ?p in _) = _ => destruct p as [fs order] end.
  apply (f_equal (fun z => match z with Ok y => filenames y | Err _ => filenames r end)) in E. cbv beta iota in E. cbn [filenames] in E. rewrite <- E. clear E.
  match goal with H : match ?f with [] => Ok (Folder [] [] 0) | _ => _ end = Ok _ |- _ => revert H; assert (BF : is_bytes f) by (apply is_bytes_slice, BD); revert BF; generalize f end.
  clear - HD. intros f BF H. destruct f as [|x f].
  - injection H as <-. split; [apply tree_okb_ok; reflexivity|]. split; [apply files_namedb_ok; reflexivity|]. cbn. lia.
  - exact (load_ok depth (x :: f) BF 0xF000 _ H).
Qed.

Lemma run_fnttool js depth i o p q d x t b : contents d p = Some x -> (o = FBin \/ o = FJson \/ contents d q <> None) ->
  fnttool_load js depth i x = Ok t -> fnttool_data js depth o t (contents d q) = Ok b -> writable d q = true ->
  exists d', fnttool js depth i o p q d = (Done tt, d') /\ replaced q b d d'.
Proof.
  intros P O T B W. pose proof (write_file_writes q b d) as WR. cbn beta iota in WR. rewrite W in WR.
  unfold fnttool, io_bind, pure, read_file.
  replace (guard _ ValueError) with (Ok tt).
  - rewrite P, T, B. exact WR.
  - destruct o, (contents d q); try reflexivity; destruct O as [O|[O|O]]; congruence.
Qed.

(** extracting the table of a ROM gives a file that loads as the table *)
Theorem C88_extract : forall js depth p q d x r, is_bytes x -> contents d p = Some x -> rom_load depth x = Ok r ->
  (1 <= depth)%nat -> folder_count (filenames r) <= 4096 -> table_size (filenames r) < 2 ^ 32 -> writable d q = true ->
  exists b d', fnttool js depth FRom FBin p q d = (Done tt, d') /\ replaced q b d d' /\
    FntModel.save (filenames r) = Ok b /\ FntModel.load depth b = Ok (filenames r).
Proof.
  intros js depth p q d x r BX P L HD FC TS W. destruct (rom_names depth x r BX L HD) as (T1 & T2 & T3).
  destruct (FntProps.C09_save_succeeds _ T1 FC TS) as (b & S & _).
  pose proof (FntProps.C09_roundtrip _ b [] depth S T2 T3) as R. rewrite app_nil_r in R.
  destruct (run_fnttool js depth FRom FBin p q d x (filenames r) b P (or_introl eq_refl)) as (d' & E & C); try assumption.
  - cbn [fnttool_load]. rewrite L. reflexivity.
  - exists b, d'. repeat (split; [assumption|]). exact R.
Qed.
Print Assumptions C88_extract.

(** inserting a table into a ROM: the ROM then has that table, and its files, code and
    header as before ([post_blocks] and [stored] as in C15) *)
Theorem C88_insert : forall js depth p q d x t y r new r1, is_bytes x -> contents d p = Some x -> FntModel.load depth x = Ok t ->
  contents d q = Some y -> rom_load depth y = Ok r -> rom_save false (set_filenames r t) = Ok (new, r1) ->
  post_blocks (arm9PostData r) -> ~ stored new (word new 0x20 + zlen (arm9 r) + zlen (arm9PostData r)) magic -> writable d q = true ->
  exists d' r', fnttool js depth FBin FRom p q d = (Done tt, d') /\ replaced q new d d' /\ rom_load depth new = Ok r' /\
    filenames r' = t /\ files r' = files r /\ arm9 r' = arm9 r /\ arm9PostData r' = arm9PostData r /\ arm7 r' = arm7 r /\
    arm9OverlayTable r' = arm9OverlayTable r /\ arm7OverlayTable r' = arm7OverlayTable r /\ iconBanner r' = iconBanner r /\ debugRom r' = debugRom r /\
    (idCode r' = idCode r /\ developerCode r' = developerCode r /\ unitCode r' = unitCode r /\ encryptionSeedSelect r' = encryptionSeedSelect r /\
     deviceCapacity r' = deviceCapacity r /\ region r' = region r /\ version r' = version r /\ autostart r' = autostart r) /\
    (arm9EntryAddress r' = arm9EntryAddress r /\ arm9RamAddress r' = arm9RamAddress r /\ arm7EntryAddress r' = arm7EntryAddress r /\ arm7RamAddress r' = arm7RamAddress r /\
     normalCardControl r' = normalCardControl r /\ secureCardControl r' = secureCardControl r /\ secureAreaChecksum r' = secureAreaChecksum r /\
     secureTransferDelay r' = secureTransferDelay r /\ arm9CodeSettings r' = arm9CodeSettings r /\ arm7CodeSettings r' = arm7CodeSettings r /\
     nintendoLogo r' = nintendoLogo r /\ debugRomAddress r' = debugRomAddress r) /\
    (pad015 r' = pad015 r /\ pad016 r' = pad016 r /\ pad017 r' = pad017 r /\ pad018 r' = pad018 r /\ pad019 r' = pad019 r /\ pad01A r' = pad01A r /\
     pad01B r' = pad01B r /\ pad01C r' = pad01C r /\ pad088 r' = pad088 r /\ pad16C r' = pad16C r) /\ name r' = rstrip 0 (firstn 12 (name r)).
Proof.
  intros js depth p q d x t y r new r1 BX P T Q L S PB N W. destruct (load_ok depth x BX _ _ T) as (_ & T2 & T3).
  pose proof (RomProps.C16_unchanged _ _ _ S) as R1. subst r1.
  destruct (RomProps.C15_roundtrip false (set_filenames r t) new _ depth S T2 T3 PB N) as (order & E & _).
  destruct (run_fnttool js depth FBin FRom p q d x t new P) as (d' & E' & C); try assumption.
  - right. right. congruence.
  - cbn [fnttool_data]. rewrite Q, L. cbn [bind]. rewrite S. reflexivity.
  - exists d', (reloaded (set_filenames r t) new order). split; [exact E'|]. split; [exact C|]. split; [exact E|].
    repeat split.
Qed.
Print Assumptions C88_insert.

(** extracting to JSON and inserting it again fails for every ROM whose table has
    folders *)
Theorem C88_json_tool : forall js depth p q p2 d x r, is_bytes x -> contents d p = Some x -> rom_load depth x = Ok r ->
  jLoads js (jDumps js (fntToJson (filenames r))) = Ok (fntToJson (filenames r)) -> (1 <= depth)%nat -> writable d q = true -> contents d p2 <> None -> p2 <> q ->
  exists d', fnttool js depth FRom FJson p q d = (Done tt, d') /\
    (fFolders (filenames r) <> [] -> forall o, o <> FNarc -> fnttool js depth FJson o q p2 d' = (Failed (Raised TypeError), d')).
Proof.
  intros js depth p q p2 d x r BX P L J HD W P2 NE. destruct (rom_names depth x r BX L HD) as (_ & _ & T3).
  destruct (run_fnttool js depth FRom FJson p q d x (filenames r) (jDumps js (fntToJson (filenames r))) P (or_intror (or_introl eq_refl))) as (d' & E & C1 & C2 & C3); try assumption.
  - cbn [fnttool_load]. rewrite L. reflexivity.
  - reflexivity.
  - exists d'. split; [exact E|]. intros F o NO. unfold fnttool, io_bind, pure, read_file.
    rewrite C1, (C2 p2 NE). destruct (contents d p2) as [z|]; [|congruence]. cbn [fnttool_load]. rewrite J. cbn [bind].
    rewrite (json_back depth _ T3). destruct (fFolders (filenames r)); [congruence|]. destruct o; reflexivity.
Qed.
Print Assumptions C88_json_tool.

(** a ROM with a file in a folder and one outside *)
Definition ex_rom : rom := set_filenames RomProps.ex_rom (Folder [(asc "d", Folder [] [asc "a"; asc "b"] 0)] [asc "c"] 2).
Definition ex_data : bytes := match rom_save false ex_rom with Ok (d, _) => d | Err _ => [] end.
Definition ex_js : jcodec := {| jDumps := fun _ => asc "{}"; jLoads := fun _ => Ok (fntToJson (filenames ex_rom)) |}.
Example C88_ex_tool :
  let d := FilesProps.ex_disk [(FilesProps.ex_path "a.nds", ex_data)] in
  let extract := fnttool ex_js 3 FRom FBin (FilesProps.ex_path "a.nds") (FilesProps.ex_path "a.bin") in
  let insert := fnttool ex_js 3 FBin FRom (FilesProps.ex_path "a.bin") (FilesProps.ex_path "a.nds") in
  FilesProps.shows (extract d) [(FilesProps.ex_path "a.nds", Some ex_data);
    (FilesProps.ex_path "a.bin", match FntModel.save (filenames ex_rom) with Ok b => Some b | Err _ => None end)] = Some tt /\
  (match contents (snd (andthen extract insert d)) (FilesProps.ex_path "a.nds") with
   | Some x => match rom_load 3 x with Ok r => Some (filenames r, files r) | Err _ => None end
   | None => None
   end) = Some (filenames ex_rom, files ex_rom) /\
  fFolders (filenames ex_rom) <> [] /\
  fst (andthen (fnttool ex_js 3 FRom FJson (FilesProps.ex_path "a.nds") (FilesProps.ex_path "a.json"))
               (fnttool ex_js 3 FJson FRom (FilesProps.ex_path "a.json") (FilesProps.ex_path "a.nds")) d) = Failed (Raised TypeError) /\
  fst (fnttool ex_js 3 FNarc FBin (FilesProps.ex_path "a.nds") (FilesProps.ex_path "a.bin") d) = Failed (Raised AttributeError) /\
  fst (fnttool ex_js 3 FBin FRom (FilesProps.ex_path "a.bin") (FilesProps.ex_path "b.nds") d) = Failed (Raised ValueError).
Proof. repeat (split; [first [vm_compute; reflexivity|vm_compute; discriminate]|]). vm_compute. reflexivity. Qed.

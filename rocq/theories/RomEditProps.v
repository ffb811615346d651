(** * Editing and re-saving ROMs (C73, C74, C75) *)
From Coq Require Import String Permutation.
From Verif Require Import PyBase PyLemmas LzModel CodeLzLemmas CommonModel FntModel FntSpec FntLemmas FntSaveLemmas NarcLemmas CodeModel CodeLemmas CodeProps
  RomModel RomSpec RomEditSpec RomLoad RomChecks RomResave RomEditLemmas RomProps.

(** ** C73: access by name *)
Theorem C73_set_get : forall r name v r' fid, idOf (filenames r) name = Ok (Some fid) -> 0 <= fid -> rom_setFileByName r name v = Ok r' ->
  r' = set_files r (files r') /\ length (files r') = length (files r) /\ rom_getFileByName r' name = Ok v /\
  (forall m fm, idOf (filenames r) m = Ok (Some fm) -> 0 <= fm -> fm <> fid -> rom_getFileByName r' m = rom_getFileByName r m).
Proof. exact rom_set_get. Qed.
Print Assumptions C73_set_get.
Theorem C73_set_succeeds : forall r name v fid, idOf (filenames r) name = Ok (Some fid) -> 0 <= fid < zlen (files r) ->
  exists r', rom_setFileByName r name v = Ok r'.
Proof. exact rom_set_ok. Qed.
Print Assumptions C73_set_succeeds.
Theorem C73_unknown_name : forall r name v, idOf (filenames r) name = Ok None ->
  rom_getFileByName r name = Err ValueError /\ rom_setFileByName r name v = Err ValueError.
Proof. exact rom_unknown. Qed.
Print Assumptions C73_unknown_name.
(** any sequence of assignments: a name reads back the last value assigned to its
    number, or the original; nothing but the files changes *)
Theorem C73_history : forall ops r r' name fid, tree_ok (filenames r) -> idOf (filenames r) name = Ok (Some fid) -> rom_set_all r ops = Ok r' ->
  r' = set_files r (files r') /\ length (files r') = length (files r) /\
  rom_getFileByName r' name = match last_for (filenames r) fid ops None with Some v => Ok v | None => rom_getFileByName r name end.
Proof. exact rom_history. Qed.
Print Assumptions C73_history.
(** the same after saving and loading the edited ROM *)
Theorem C73_saved : forall ops r r' upd data r1 depth, tree_ok (filenames r) -> rom_set_all r ops = Ok r' -> rom_save upd r' = Ok (data, r1) ->
  files_named (filenames r) -> (height (filenames r) <= depth)%nat -> post_blocks (arm9PostData r) ->
  ~ stored data (word data 0x20 + zlen (arm9 r) + zlen (arm9PostData r)) magic ->
  exists r2, rom_load depth data = Ok r2 /\ filenames r2 = filenames r /\
    forall name fid, idOf (filenames r) name = Ok (Some fid) ->
      rom_getFileByName r2 name = match last_for (filenames r) fid ops None with Some v => Ok v | None => rom_getFileByName r name end.
Proof.
  intros ops r r' upd data r1 depth T H S FN HD PB NM. destruct (rom_set_all_narc _ _ _ H) as (_ & E).
  destruct (C15_roundtrip upd r' data r1 depth S) as (order & L & _); [rewrite E; assumption..|].
  exists (reloaded r1 data order). split; [exact L|].
  destruct (rom_save_frame upd r' data r1 S) as (F1 & F2).
  split; [cbn [reloaded filenames]; rewrite F1, E; reflexivity|]. intros name fid I. destruct (rom_history ops r r' name fid T I H) as (_ & _ & G). rewrite <- G.
  unfold rom_getFileByName. cbn [reloaded filenames files]. rewrite F1, F2. reflexivity.
Qed.
Print Assumptions C73_saved.
Definition ex_ops : list (list Z * bytes) := [(asc "c", [7]); (asc "/a", [1; 2; 3; 4]); (asc "c", [])].
Definition ex_edited : rom := match rom_set_all ex_rom ex_ops with Ok r => r | Err _ => ex_rom end.
Definition ex_edited_data : bytes := match rom_save false ex_edited with Ok (d, _) => d | Err _ => [] end.
Example C73_ex : tree_ok (filenames ex_rom) /\ rom_set_all ex_rom ex_ops = Ok ex_edited /\ rom_save false ex_edited = Ok (ex_edited_data, ex_edited) /\
  (zlen (arm9 ex_rom) + zlen (arm9PostData ex_rom)) mod 0x200 <> 0 /\ idOf (filenames ex_rom) (asc "a") = Ok (Some 0) /\
  rom_getFileByName ex_rom (asc "b") = Ok [101; 101] /\ rom_setFileByName ex_rom (asc "x") [] = Err ValueError /\
  match rom_load 2 ex_edited_data with
  | Ok r2 => map (rom_getFileByName r2) [asc "a"; asc "b"; asc "/c"] = [Ok [1; 2; 3; 4]; Ok [101; 101]; Ok []]
  | Err _ => False
  end.
Proof.
  split; [apply tree_okb_ok; vm_compute; reflexivity|]. split; [vm_compute; reflexivity|]. split; [vm_compute; reflexivity|]. split; [vm_compute; discriminate|].
  split; [vm_compute; reflexivity|]. split; [vm_compute; reflexivity|]. split; [vm_compute; reflexivity|]. vm_compute. reflexivity.
Qed.

(** ** C74: code and overlays *)
(** what a saved and loaded ROM gives *)
Theorem C74_reload : forall upd r data r1 depth, rom_save upd r = Ok (data, r1) ->
  files_named (filenames r) -> (height (filenames r) <= depth)%nat -> post_blocks (arm9PostData r) ->
  ~ stored data (word data 0x20 + zlen (arm9 r) + zlen (arm9PostData r)) magic ->
  exists r2, rom_load depth data = Ok r2 /\ loadArm9 r2 = loadArm9 r /\ loadArm7 r2 = loadArm7 r /\
    forall ids, loadArm9Overlays r2 ids = loadArm9Overlays r ids /\ loadArm7Overlays r2 ids = loadArm7Overlays r ids.
Proof.
  intros upd r data r1 depth S FN HD PB NM. destruct (C15_roundtrip upd r data r1 depth S FN HD PB NM) as (order & L & _).
  destruct (rom_save_cap upd r data r1 S) as (cap & ->). exists (reloaded (set_capacity r cap) data order). split; [exact L|]. repeat split.
Qed.
Print Assumptions C74_reload.
(** putting changed overlays back, compressed or not, then building the table:
    the overlays are loaded as they were stored and no other file changes *)
Theorem C74_store : forall c fs t fs' t', store_overlays c fs t = Ok (fs', t') ->
  NoDup (map fst t) -> NoDup (map (fun x => oFileID (snd x)) t) -> Forall ov_ok t' ->
  (forall x raw, In x t -> c x = true -> get fs' (oFileID (snd x)) = Ok raw -> zlen (oData (snd x)) < 2 ^ 24 /\ slice_from raw (-4) <> [0; 0; 0; 0]) ->
  map fst t' = map fst t /\ map (fun y => oData (snd y)) t' = map (fun x => oData (snd x)) t /\ length fs' = length fs /\
  (forall j, 0 <= j -> ~ In j (map (fun x => oFileID (snd x)) t) -> get fs' j = get fs j) /\
  exists table t'', Permutation t' t'' /\ ascending t'' /\ saveOverlayTable t' = Ok table /\
    forall r, files r = fs' -> (arm9OverlayTable r = table -> loadArm9Overlays r None = Ok t'') /\ (arm7OverlayTable r = table -> loadArm7Overlays r None = Ok t'').
Proof.
  intros c fs t fs' t' H N1 N2 OK HC. destruct (stored_overlays c fs t fs' t' H N1 N2 OK HC) as (A1 & A2 & A3 & A4 & d & t'' & P & A & S & L).
  split; [exact A1|]. split; [exact A2|]. split; [exact A3|]. split; [exact A4|]. exists d, t''. split; [exact P|]. split; [exact A|]. split; [exact S|].
  intros r EF. unfold loadArm9Overlays, loadArm7Overlays. rewrite EF. split; intros ->; exact L.
Qed.
Print Assumptions C74_store.
Definition ex_ovs : list (Z * overlay) := [(1, ex_ov (zeros 64) 2 0); (0, ex_ov [3; 1; 4] 0 1)].
Example C74_ex : exists fs' t', store_overlays (fun x => fst x =? 1) (files ex_rom) ex_ovs = Ok (fs', t') /\
  map (fun f => zlen f) fs' = [3; 2; 28] /\ map (fun x => oFlags (snd x)) t' = [1; 0] /\ map (fun x => oCompressedSize (snd x)) t' = [28; 3] /\
  Forall ov_ok t' /\ NoDup (map fst ex_ovs) /\ NoDup (map (fun x => oFileID (snd x)) ex_ovs) /\
  (forall x raw, In x ex_ovs -> fst x =? 1 = true -> get fs' (oFileID (snd x)) = Ok raw -> zlen (oData (snd x)) < 2 ^ 24 /\ slice_from raw (-4) <> [0; 0; 0; 0]).
Proof.
  eexists _, _. split; [vm_compute; reflexivity|]. split; [vm_compute; reflexivity|]. split; [vm_compute; reflexivity|]. split; [vm_compute; reflexivity|].
  split; [repeat (apply Forall_cons; [vm_compute; repeat split; congruence|]); apply Forall_nil|].
  split; [repeat constructor; cbn; lia|]. split; [repeat constructor; cbn; lia|].
  intros x raw [<-|[<-|[]]] E G; [|discriminate E]. split; [vm_compute; reflexivity|]. cbn [snd ex_ov oFileID] in G.
  match type of G with get ?l ?i = _ => let v := eval vm_compute in (get l i) in change (get l i) with v in G end. injection G as <-. vm_compute. discriminate.
Qed.

(** ** C75: loading a saved ROM and saving it again gives the same file.
    [sortedFileIds] holds no negative numbers, the signature is no longer than
    its 0x88 bytes, and every empty file belongs to an overlay. *)
Theorem C75_resave : forall upd upd' r data r1 depth, rom_save upd r = Ok (data, r1) -> upd' = upd \/ upd' = false ->
  files_named (filenames r) -> (height (filenames r) <= depth)%nat -> post_blocks (arm9PostData r) ->
  ~ stored data (word data 0x20 + zlen (arm9 r) + zlen (arm9PostData r)) magic ->
  Forall (fun n => 0 <= n) (sortedFileIds r) -> zlen (rsaSignature r) <= 0x88 ->
  (forall i, nth_error (files r) i = Some [] -> is_overlay r (Z.of_nat i)) ->
  exists r2, rom_load depth data = Ok r2 /\ rom_save upd' r2 = Ok (data, r2).
Proof.
  intros upd upd' r data r1 depth S U FN HD PB NM SN RL NE. destruct (C15_roundtrip upd r data r1 depth S FN HD PB NM) as (order & L & BO).
  exists (reloaded r1 data order). split; [exact L|]. exact (rom_resave upd upd' r data r1 order S U SN RL NE BO).
Qed.
Print Assumptions C75_resave.
Example C75_ex : (forall i, nth_error (files ex_rom) i = Some [] -> is_overlay ex_rom (Z.of_nat i)) /\ zlen (rsaSignature ex_rom) <= 0x88 /\
  Forall (fun n => 0 <= n) (sortedFileIds ex_rom) /\
  match rom_load 2 ex_data with Ok r2 => beq (match rom_save false r2 with Ok (d, _) => d | Err _ => [] end) ex_data = true | Err _ => False end.
Proof.
  split; [intros [|[|[|i]]]; try discriminate; destruct i; discriminate|]. split; [vm_compute; discriminate|]. split; [repeat constructor; lia|]. vm_compute. reflexivity.
Qed.

(** with an empty file that is no overlay the property fails, and saving again and
    again does not settle: the two files of this ROM change places every time *)
Definition cycle_rom : rom :=
  {| name := name ex_rom; idCode := idCode ex_rom; developerCode := developerCode ex_rom;
     unitCode := 0; encryptionSeedSelect := 0; deviceCapacity := 9;
     pad015 := 0; pad016 := 0; pad017 := 0; pad018 := 0; pad019 := 0; pad01A := 0; pad01B := 0; pad01C := 0;
     region := 1; version := 2; autostart := 0;
     arm9EntryAddress := 0; arm9RamAddress := 0; arm7EntryAddress := 0; arm7RamAddress := 0;
     normalCardControl := 1; secureCardControl := 2; secureAreaChecksum := 3; secureTransferDelay := 4;
     arm9CodeSettings := 5; arm7CodeSettings := 6; secureAreaDisable := zeros 8; pad088 := zeros 0x38; nintendoLogo := default_logo;
     debugRomAddress := 7; pad16C := zeros 0x94; pad200 := zeros 0x3E00; rsaSignature := [];
     arm9 := [1]; arm9PostData := []; arm7 := [2]; arm9OverlayTable := []; arm7OverlayTable := []; iconBanner := []; debugRom := [];
     filenames := Folder [] [asc "a"; asc "b"; asc "c"] 0; files := [[100]; [101]; []]; sortedFileIds := [2; 0; 1] |}.
Definition saved_of (r : rom) : bytes := match rom_save false r with Ok (d, _) => d | Err _ => [] end.
Definition loaded_of (d : bytes) : rom := match rom_load 2 d with Ok r => r | Err _ => cycle_rom end.
Theorem C75_empty_file_refuted : exists r d1 r2 d2 r3, rom_save false r = Ok (d1, r) /\ rom_load 2 d1 = Ok r2 /\ rom_save false r2 = Ok (d2, r2) /\
  rom_load 2 d2 = Ok r3 /\ rom_save false r3 = Ok (d1, r3) /\ d1 <> d2 /\
  Forall (fun n => 0 <= n) (sortedFileIds r) /\ rsaSignature r = [] /\ arm9PostData r = [] /\ (zlen (arm9 r) + zlen (arm9PostData r)) mod 0x200 <> 0.
Proof.
  exists cycle_rom, (saved_of cycle_rom), (loaded_of (saved_of cycle_rom)), (saved_of (loaded_of (saved_of cycle_rom))), (loaded_of (saved_of (loaded_of (saved_of cycle_rom)))).
  split; [vm_compute; reflexivity|]. split; [vm_compute; reflexivity|]. split; [vm_compute; reflexivity|]. split; [vm_compute; reflexivity|]. split; [vm_compute; reflexivity|].
  split; [intros E; assert (B : beq (saved_of cycle_rom) (saved_of (loaded_of (saved_of cycle_rom))) = true) by (rewrite <- E; apply beq_refl); vm_compute in B; discriminate|].
  split; [repeat constructor; vm_compute; discriminate|]. split; [reflexivity|]. split; [reflexivity|]. vm_compute. discriminate.
Qed.
Print Assumptions C75_empty_file_refuted.
(** a signature of more than 0x88 bytes is cut when it is loaded *)
Definition long_sig_rom : rom := 
  {| name := name ex_rom; idCode := idCode ex_rom; developerCode := developerCode ex_rom;
     unitCode := 0; encryptionSeedSelect := 0; deviceCapacity := 9;
     pad015 := 0; pad016 := 0; pad017 := 0; pad018 := 0; pad019 := 0; pad01A := 0; pad01B := 0; pad01C := 0;
     region := 1; version := 2; autostart := 0;
     arm9EntryAddress := 0; arm9RamAddress := 0; arm7EntryAddress := 0; arm7RamAddress := 0;
     normalCardControl := 1; secureCardControl := 2; secureAreaChecksum := 3; secureTransferDelay := 4;
     arm9CodeSettings := 5; arm7CodeSettings := 6; secureAreaDisable := zeros 8; pad088 := zeros 0x38; nintendoLogo := default_logo;
     debugRomAddress := 7; pad16C := zeros 0x94; pad200 := zeros 0x3E00; rsaSignature := repeat 1 0x89;
     arm9 := [1]; arm9PostData := []; arm7 := [2]; arm9OverlayTable := []; arm7OverlayTable := []; iconBanner := []; debugRom := [];
     filenames := Folder [] [] 0; files := []; sortedFileIds := [] |}.
Theorem C75_long_signature_refuted : exists r d1 r2 d2, rom_save false r = Ok (d1, r) /\ rom_load 2 d1 = Ok r2 /\ rom_save false r2 = Ok (d2, r2) /\ d1 <> d2 /\
  rsaSignature r2 = firstn 0x88 (rsaSignature r) /\ files r = [].
Proof.
  exists long_sig_rom, (saved_of long_sig_rom), (loaded_of (saved_of long_sig_rom)), (saved_of (loaded_of (saved_of long_sig_rom))).
  split; [vm_compute; reflexivity|]. split; [vm_compute; reflexivity|]. split; [vm_compute; reflexivity|].
  split; [intros E; assert (B : beq (saved_of long_sig_rom) (saved_of (loaded_of (saved_of long_sig_rom))) = true) by (rewrite <- E; apply beq_refl); vm_compute in B; discriminate|].
  split; [vm_compute; reflexivity|reflexivity].
Qed.
Print Assumptions C75_long_signature_refuted.

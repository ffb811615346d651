(** * C118: files, overlays and code of an arbitrary ROM

    From the bytes of the ROM (or of the archive) to what the methods return. *)
From Coq Require Import String.
From Verif Require Import PyBase PyLemmas PyTac FntModel LzModel CodeModel RomModel NarcModel CsoSpec RomSpec ViewSpec ViewLemmas ViewProps ViewFilesProps RomViewSpec RomView.

(** getFileByName: the file whose place the allocation table tells for the number that
    the names, followed through the filename table, lead to *)
Theorem C118_by_name : forall depth d r p, is_bytes d -> 0x200 <= zlen d -> rom_load depth d = Ok r -> writable_path p ->
  (forall f, rom_getFileByName r (join_slash p) = Ok f <-> exists id, found (fnt_part d) 0 p id /\ has_file d id /\ f = rom_file d id) /\
  (rom_getFileByName r (join_slash p) = Err ValueError <-> forall id, ~ found (fnt_part d) 0 p id) /\
  (rom_getFileByName r (join_slash p) = Err IndexError <-> exists id, found (fnt_part d) 0 p id /\ ~ has_file d id).
Proof.
  intros depth d r p B L H P. destruct (fetch depth d r B L H p P) as (o & E & O). rewrite E. destruct o as [i|].
  - destruct O as (I & O). split; [|split].
    + intros f. rewrite (file_of depth d r B L H i I). split; [intros (Q & ->); exists i; repeat split; assumption|]. intros (j & J & Q & ->). rewrite (found_once depth d r B L H p i j O J). split; [exact Q|reflexivity].
    + split; [|intros N; destruct (N i O)]. intros G. exfalso. destruct (Z_lt_ge_dec i (zlen (files r))) as [Q|Q]; [destruct (get_some (files r) i) as (x & X & _); [lia|congruence]|rewrite get_ge in G by lia; discriminate].
    + rewrite (no_file depth d r B L H i I). split; [intros Q; exists i; split; assumption|]. intros (j & J & Q). rewrite (found_once depth d r B L H p i j O J). exact Q.
  - split; [|split].
    + intros f. split; [discriminate|]. intros (j & J & _). destruct (O j J).
    + split; [intros _; exact O|reflexivity].
    + split; [discriminate|]. intros (j & J & _). destruct (O j J).
Qed.
Print Assumptions C118_by_name.
(** the same of an archive *)
Theorem C118_narc_by_name : forall depth d n p, is_bytes d -> narc_load depth d = Ok n -> writable_path p ->
  let t := part d (narc_fntb d + 8) (word d (narc_fntb d + 4) - 8) in
  (forall f, getFileByName n (join_slash p) = Ok f <-> exists id, found t 0 p id /\ id < word d 0x18 /\ f = narc_file d (Z.to_nat id)) /\
  (getFileByName n (join_slash p) = Err ValueError <-> forall id, ~ found t 0 p id) /\
  (getFileByName n (join_slash p) = Err IndexError <-> exists id, found t 0 p id /\ word d 0x18 <= id).
Proof.
  intros depth d n p B H P t. destruct (narc_fetch depth d n p B H P) as (o & E & O). fold t in O. rewrite E. pose proof H as H'. apply C104_read in H' as (S & _ & F & _); [|exact B].
  pose proof (word_range d 0x18 B ltac:(lia) ltac:(unfold narc_shape in S; lia)) as W. assert (ZF : zlen (nFiles n) = word d 0x18) by (rewrite F; unfold zlen; rewrite map_length, seq_length; lia). destruct o as [i|].
  - destruct O as (I & O & U). assert (G : if i <? word d 0x18 then get (nFiles n) i = Ok (narc_file d (Z.to_nat i)) else get (nFiles n) i = Err IndexError).
    { destruct (Z.ltb_spec i (word d 0x18)) as [Q|Q]; [|apply get_ge; lia]. apply get_nth; [exact I|]. rewrite F, nth_error_map, (nth_error_nth' _ 0%nat), seq_nth by (rewrite ?seq_length; lia). reflexivity. }
    destruct (Z.ltb_spec i (word d 0x18)) as [Q|Q]; rewrite G; (split; [|split]).
    + intros f. split; [intros [= <-]; exists i; repeat split; assumption|]. intros (j & J & _ & ->). rewrite (U j J). reflexivity.
    + split; [discriminate|intros N; destruct (N i O)].
    + split; [discriminate|]. intros (j & J & K). rewrite (U j J) in K. lia.
    + intros f. split; [discriminate|]. intros (j & J & K & _). rewrite (U j J) in K. lia.
    + split; [discriminate|intros N; destruct (N i O)].
    + split; [intros _; exists i; split; assumption|reflexivity].
  - split; [|split].
    + intros f. split; [discriminate|]. intros (j & J & _). destruct (O j J).
    + split; [intros _; exact O|reflexivity].
    + split; [discriminate|]. intros (j & J & _). destruct (O j J).
Qed.
Print Assumptions C118_narc_by_name.

(** the overlays of either processor *)
Definition overlays_of (d : bytes) (r : rom) (arm9 : bool) : (option (Z -> bool) -> res (list (Z * overlay))) * bytes :=
  if arm9 then (loadArm9Overlays r, part d (word d 0x50) (word d 0x54)) else (loadArm7Overlays r, part d (word d 0x58) (word d 0x5C)).
Theorem C118_overlays : forall depth d r arm9 ids t, is_bytes d -> 0x200 <= zlen d -> rom_load depth d = Ok r ->
  let (load, table) := overlays_of d r arm9 in load ids = Ok t -> zlen table mod 32 = 0 /\
  let n := Z.to_nat (zlen table / 32) in
  map fst t = firsts (filter (fun id => match ids with None => true | Some f => f id end) (map (fun i => row table i 0) (seq 0 n))) /\
  forall id ov, In (id, ov) t -> exists i, (i < n)%nat /\ row table i 0 = id /\ wanted ids id /\ rom_overlay d table i ov /\ forall j, (i < j < n)%nat -> row table j 0 <> id.
Proof.
  intros depth d r arm9 ids t B L H. destruct (C102_parts depth d r B L H) as (_ & _ & T9 & T7 & _).
  assert (G : forall table, is_bytes table -> loadOverlayTable table (fun _ fid => get (files r) fid) ids = Ok t -> zlen table mod 32 = 0 /\
    let n := Z.to_nat (zlen table / 32) in
    map fst t = firsts (filter (fun id => match ids with None => true | Some f => f id end) (map (fun i => row table i 0) (seq 0 n))) /\
    forall id ov, In (id, ov) t -> exists i, (i < n)%nat /\ row table i 0 = id /\ wanted ids id /\ rom_overlay d table i ov /\ forall j, (i < j < n)%nat -> row table j 0 <> id).
  { intros table BT E. destruct (C105_read table _ ids t E) as (M & K & R). split; [exact M|]. split; [exact K|]. intros id ov I. destruct (R id ov I) as (i & I1 & I2 & I3 & I4 & I5). exists i. split; [exact I1|]. split; [exact I2|]. split; [exact I3|]. split; [|exact I5].
    apply (overlay_file depth d r B L H table i ov BT); [|exact I4]. pose proof (Z.div_mod (zlen table) 32 ltac:(lia)). lia. }
  unfold overlays_of, loadArm9Overlays, loadArm7Overlays. destruct arm9; [rewrite T9|rewrite T7]; apply G; apply is_bytes_part; exact B.
Qed.
Print Assumptions C118_overlays.
Theorem C118_overlays_accepted : forall depth d r arm9 ids, is_bytes d -> 0x200 <= zlen d -> rom_load depth d = Ok r ->
  let (load, table) := overlays_of d r arm9 in
  (exists t, load ids = Ok t) <-> zlen table mod 32 = 0 /\ forall i, 32 * Z.of_nat i < zlen table -> wanted ids (row table i 0) -> exists ov, rom_overlay d table i ov.
Proof.
  intros depth d r arm9 ids B L H. destruct (C102_parts depth d r B L H) as (_ & _ & T9 & T7 & _).
  assert (G : forall table, is_bytes table -> (exists t, loadOverlayTable table (fun _ fid => get (files r) fid) ids = Ok t) <-> zlen table mod 32 = 0 /\ forall i, 32 * Z.of_nat i < zlen table -> wanted ids (row table i 0) -> exists ov, rom_overlay d table i ov).
  { intros table BT. rewrite C105_accepted. split; intros (M & A); (split; [exact M|]); intros i I W; destruct (A i I W) as (ov & O); exists ov; (apply (overlay_file depth d r B L H table i ov BT); [|exact O]); pose proof (Z.div_mod (zlen table) 32 ltac:(lia)); lia. }
  unfold overlays_of, loadArm9Overlays, loadArm7Overlays. destruct arm9; [rewrite T9|rewrite T7]; apply G; apply is_bytes_part; exact B.
Qed.
Print Assumptions C118_overlays_accepted.

(** the code of either processor *)
Theorem C118_main_code : forall depth d r m, is_bytes d -> 0x200 <= zlen d -> rom_load depth d = Ok r ->
  (loadArm9 r = Ok m -> exists c, unpacked (part d (word d 0x20) (word d 0x2C)) c /\ mRam m = word d 0x28 /\
     settings_found (word d 0x28) c (word d 0x70) (mCso m) /\ sections_of (word d 0x28) c (mCso m) (mSections m)) /\
  (loadArm7 r = Ok m -> exists c, unpacked (part d (word d 0x30) (word d 0x3C)) c /\ mRam m = word d 0x38 /\
     settings_found (word d 0x38) c (word d 0x74) (mCso m) /\ sections_of (word d 0x38) c (mCso m) (mSections m)).
Proof.
  intros depth d r m B L H. destruct (C102_parts depth d r B L H) as (A9 & A7 & _). destruct (C102_header depth d r B L H) as (_ & _ & _ & W & _). cbn [map] in W. injection W as _ R9 _ R7 _ _ S9 S7 _.
  unfold loadArm9, loadArm7. rewrite A9, A7, R9, R7, S9, S7. split; intros M; apply main_code; try exact M; apply is_bytes_part; exact B.
Qed.
Print Assumptions C118_main_code.

(** a ROM with a file table of three entries (one overlay that is compressed, two
    files), filenames "a" and "b/c", two files of the name "a", and an overlay table that lists overlay 7 twice *)
Definition small_rom : bytes :=
  let fnt := le 4 16 ++ le 2 1 ++ le 2 2 ++ le 4 27 ++ le 2 2 ++ le 2 0xF000 ++ [1; 97; 129; 98; 1; 0xF0; 1; 97; 1; 100; 0] ++ [1; 99; 1; 120; 0] in
  let ov := concat (map (le 4) [7; 9; 9; 9; 9; 9; 1; 0;  5; 1; 2; 3; 4; 5; 0; 0x01000020;  7; 11; 12; 13; 14; 15; 2; 0]) in
  let packed := [1; 2; 3; 4] ++ rev [0x18; 9; 8; 7; 0xF0; 0; 0xF0; 0] ++ [16; 0; 0; 8; 23; 0; 0; 0] in
  let files := packed ++ [1; 2; 3] ++ [4; 5] in
  let fat := concat (map (le 4) [0x300; 0x314; 0x314; 0x317; 0x317; 0x319]) in
  set_words [(0x40, 0x200); (0x44, zlen fnt); (0x48, 0x240); (0x4C, 24); (0x50, 0x280); (0x54, 96)]
    (zeros 0x200 ++ fnt ++ zeros (0x40 - zlen fnt) ++ fat ++ zeros 0x28 ++ ov ++ zeros 0x20 ++ files).
Example C118_ex : is_bytes small_rom /\ 0x200 <= zlen small_rom /\ exists r, rom_load 10 small_rom = Ok r /\
  rom_getFileByName r (asc "a") = Ok [1; 2; 3] /\ rom_getFileByName r (asc "b/c") = Ok [4; 5] /\
  rom_getFileByName r (asc "b") = Err ValueError /\ rom_getFileByName r (asc "b/x") = Err IndexError /\
  (exists t, loadArm9Overlays r None = Ok t /\ map fst t = [7; 5] /\
    map (fun x => (oData (snd x), oRamAddress (snd x))) t = [([4; 5], 11); ([1; 2; 3; 4] ++ rev (concat (repeat [9; 8; 7] 13)), 1)]).
Proof.
  split; [apply Forall_forall; intros x I; pose proof (proj1 (forallb_forall byteb small_rom) ltac:(vm_compute; reflexivity) x I) as Q; unfold byteb in Q; unfold is_byte; lia|]. split; [vm_compute; discriminate|].
  eexists. split; [vm_compute; reflexivity|]. do 4 (split; [vm_compute; reflexivity|]). eexists. split; [vm_compute; reflexivity|]. split; vm_compute; reflexivity.
Qed.
(** the way to "b/c" through the bytes of the table *)
Example C118_found_ex : found (fnt_part small_rom) 0 [asc "b"; asc "c"] 2 /\ writable_path [asc "b"; asc "c"] /\ has_file small_rom 2.
Proof.
  split; [|split; [|vm_compute; discriminate]].
  - apply (found_below _ _ _ 1).
    + assert (E : fnt_part small_rom = part small_rom 0x200 32) by reflexivity. apply fd_file; [split; vm_compute; intuition congruence|]. refine (fd_here _ _ _ 1 _ _); [repeat split; vm_compute; intuition congruence|reflexivity].
    + refine (found_file _ 1 _ 0 _). apply ff_here; [split; vm_compute; intuition congruence|reflexivity].
  - split; [discriminate|]. split; [discriminate|]. repeat constructor; vm_compute; intuition congruence.
Qed.

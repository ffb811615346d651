(** * C122: changing the code and the overlays of an arbitrary ROM *)
From Coq Require Import Permutation Sorted.
From Verif Require Import PyBase PyLemmas PyTac FntModel LzModel LzProps CodeModel CodeLemmas CodeProps RomModel RomSpec RomEditSpec ViewSpec ViewLzSpec ViewLz ViewLemmas ViewProps ViewFilesProps RomProps RomEditLemmas RomEditProps RomViewSpec RomView RomViewProps EditSpec EditBytes EditView EditCodeSpec EditCode.

(** any code, overlay tables and files, the ROM saved and read again *)
Theorem C122_parts : forall depth upd d r a9 a7 t9 t7 fs data r1, is_bytes d -> 0x200 <= zlen d -> (1 <= depth)%nat -> rom_load depth d = Ok r ->
  Forall (fun b : bytes => is_bytes b) ([a9; a7; t9; t7] ++ fs) -> rom_save upd (with_code r a9 a7 t9 t7 fs) = Ok (data, r1) ->
  zlen (arm9PostData r) mod 12 = 0 -> ~ stored data (word data 0x20 + zlen a9 + zlen (arm9PostData r)) magic ->
  reworked d data a9 a7 t9 t7 fs /\ exists r2, rom_load depth data = Ok r2 /\ [arm9 r2; arm7 r2; arm9OverlayTable r2; arm7OverlayTable r2] = [a9; a7; t9; t7] /\ files r2 = fs.
Proof.
  intros depth upd d r a9 a7 t9 t7 fs data r1 B L D H F SV PM NM. destruct (rom_reworked depth d r B L H upd a9 a7 t9 t7 fs data r1 D F SV PM NM) as (_ & R & r2 & LD & _ & E1 & E2 & E3 & E4 & E5 & _).
  split; [exact R|]. exists r2. rewrite E1, E2, E3, E4. repeat split; assumption.
Qed.
Print Assumptions C122_parts.

(** overlays: a program has a dictionary of overlays (loaded from the ROM and changed,
    or made by it), puts each into its file, compressed or not, makes the table, and
    saves the ROM *)
Theorem C122_overlays : forall depth upd d r nine c t fs t' table data r1, is_bytes d -> 0x200 <= zlen d -> (1 <= depth)%nat -> rom_load depth d = Ok r ->
  NoDup (map fst t) -> NoDup (map (fun x => oFileID (snd x)) t) -> Forall (fun x => is_bytes (oData (snd x)) /\ zlen (oData (snd x)) < 2 ^ 24) t ->
  store_overlays c (files r) t = Ok (fs, t') -> saveOverlayTable t' = Ok table -> rom_save upd (with_overlays nine r table fs) = Ok (data, r1) ->
  (forall x, In x t -> c x = true -> slice_from (rom_file data (oFileID (snd x))) (-4) <> [0; 0; 0; 0]) ->
  zlen (arm9PostData r) mod 12 = 0 -> ~ stored data (word data 0x20 + zlen (arm9 r) + zlen (arm9PostData r)) magic ->
  exists r2 l, rom_load depth data = Ok r2 /\ load_overlays nine r2 None = Ok l /\
    StronglySorted (fun a b => fst a < fst b) l /\ Permutation (map fst l) (map fst t) /\
    (forall id ov', In (id, ov') l -> exists ov, In (id, ov) t /\ stored_as (c (id, ov)) ov (rom_file data (oFileID ov)) ov') /\
    ((forall x, In x t -> ~ listed (table_of (negb nine) r) (oFileID (snd x))) -> forall ids, load_overlays (negb nine) r2 ids = load_overlays (negb nine) r ids) /\
    (forall p id, found (fnt_part data) 0 p id <-> found (fnt_part d) 0 p id) /\
    (forall i, 0 <= i -> (has_file data i <-> has_file d i) /\ (has_file d i -> ~ In i (map (fun x => oFileID (snd x)) t) -> rom_file data i = rom_file d i)) /\
    kept_header d data /\ arm9 r2 = arm9 r /\ arm7 r2 = arm7 r.
Proof.
  intros depth upd d r nine c t fs t' table data r1 B L D H N1 N2 FT ST TB SV HC PM NM.
  pose proof (loaded_parts depth d r B L H) as BP. unfold byte_parts in BP. apply Forall_app in BP as (BP & BF). repeat match goal with P : Forall _ (_ :: _) |- _ => apply Forall_cons_iff in P as (? & P) end.
  assert (P0 : Forall (fun x => 0 <= oFileID (snd x)) t) by (exact (proj1 (store_ids _ _ _ _ _ _ ST (table_ids _ _ TB)))).
  pose proof (store_spec _ _ _ _ _ _ ST N2 P0) as (t0 & E0 & F2 & KP & LN). cbn [app] in E0. subst t0.
  assert (FB : Forall (fun b : bytes => is_bytes b) fs) by (apply (store_bytes _ _ _ _ _ _ ST); [eapply Forall_impl; [|exact FT]; intros x (X & _); exact X|exact P0|exact BF]).
  pose proof (table_bytes_out _ _ TB) as BT.
  assert (RW : is_bytes data /\ reworked d data (arm9 r) (arm7 r) (if nine then table else arm9OverlayTable r) (if nine then arm7OverlayTable r else table) fs /\
    exists r2, rom_load depth data = Ok r2 /\ 0x200 <= zlen data /\ arm9 r2 = arm9 r /\ arm7 r2 = arm7 r /\ arm9OverlayTable r2 = (if nine then table else arm9OverlayTable r) /\ arm7OverlayTable r2 = (if nine then arm7OverlayTable r else table) /\ files r2 = fs).
  { assert (FF : Forall (fun b : bytes => is_bytes b) ([arm9 r; arm7 r; if nine then table else arm9OverlayTable r; if nine then arm7OverlayTable r else table] ++ fs)) by (cbn [app]; repeat (constructor; [try destruct nine; assumption|]); exact FB).
    unfold with_overlays in SV. destruct nine; destruct (rom_reworked depth d r B L H upd _ _ _ _ _ data r1 D FF SV PM NM) as (Q1 & Q2 & r2 & Q3 & Q4 & Q5 & Q6 & Q7 & Q8 & Q9 & _); (split; [exact Q1|]; split; [exact Q2|]; exists r2; repeat (split; [assumption|]); assumption). }
  destruct RW as (BD & RW & r2 & LD & LL & E9 & E7 & T9 & T7 & EF). destruct RW as [RN RC RF RH _ _].
  (* the file of each overlay *)
  assert (GF : forall x y, In x t -> get fs (oFileID (snd x)) = Ok y -> y = rom_file data (oFileID (snd x))).
  { intros x y I G. pose proof (proj1 (Forall_forall _ _) P0 x I) as P. cbn beta in P. rewrite <- EF in G. apply (file_of depth data r2 BD LL LD) in G as (_ & ->); [reflexivity|exact P]. }
  assert (OK : Forall ov_ok t').
  { apply (table_ok _ _ TB). apply Forall_forall. intros y I. destruct (Forall2_in_r _ _ _ F2 _ I) as (x & X1 & X2 & dd & S & G). destruct (overlay_save_spec _ _ _ _ S) as (_ & CS & _ & DD & _). rewrite CS.
    pose proof (proj1 (Forall_forall _ _) FT x X1) as (_ & ZX). split; [apply zlen_nonneg|]. destruct (c x) eqn:CX; [|rewrite DD; exact ZX]. pose proof (HC x X1 CX) as NZ. rewrite <- (GF x dd X1 G) in NZ.
    destruct (C07_code_outcomes _ _ ZX DD) as [Q|(ex & Q1 & _ & Q2 & _)]; [|lia]. exfalso. apply NZ. rewrite Q, app_assoc. apply slice_from_end; reflexivity. }
  destruct (C74_store c (files r) t fs t' ST N1 N2 OK) as (M1 & M2 & _ & _ & tb & l & PL & AS & TB' & LO).
  { intros x raw I CX G. split; [apply (proj1 (Forall_forall _ _) FT x I)|]. rewrite (GF x raw I G). exact (HC x I CX). }
  rewrite TB in TB'. injection TB' as <-. exists r2, l. split; [exact LD|]. split.
  { destruct (LO r2 EF) as (O9 & O7). unfold load_overlays. destruct nine; [apply O9; exact T9|apply O7; exact T7]. }
  split; [exact AS|]. split; [rewrite <- M1; apply Permutation_map, Permutation_sym; exact PL|]. split.
  { intros id ov' I. apply (Permutation_in _ (Permutation_sym PL)) in I. destruct (Forall2_in_r _ _ _ F2 _ I) as ([id' ov] & X1 & X2 & dd & S & G). cbn [fst snd] in *. subst id'. exists ov. split; [exact X1|].
    pose proof (GF _ _ X1 G) as ED. cbn [snd] in ED. rewrite <- ED. destruct (overlay_save_spec _ _ _ _ S) as (S1 & S2 & S3 & S4 & S5 & S6 & S7 & S8 & S9 & S10). unfold stored_as. repeat (split; [assumption|]).
    destruct (c (id, ov)) eqn:CX; [|exact S4]. pose proof (proj1 (Forall_forall _ _) FT _ X1) as (_ & ZX). cbn [snd] in ZX. apply code_iff; [rewrite ED; apply is_bytes_part; exact BD|]. apply (C05_code_roundtrip _ _ _ ZX S4). rewrite ED. exact (HC _ X1 CX). }
  split.
  { intros NL ids. unfold load_overlays, table_of, loadArm9Overlays, loadArm7Overlays in *. rewrite EF, T9, T7. destruct nine; cbn [negb] in *; (apply load_table_same; [assumption|]; intros _ j J LJ; apply KP; [exact J|]; intros I; apply in_map_iff in I as (x & <- & X); exact (NL x X LJ)). }
  split; [exact RN|]. split.
  { intros i I. pose proof (has_files depth d r B L H i) as HF. assert (ZL : zlen fs = zlen (files r)) by (unfold zlen; rewrite LN; reflexivity). split; [rewrite (RC i I), ZL; exact HF|]. intros HI NI.
    assert (G : get fs i = Ok (rom_file d i)) by (rewrite (KP i I NI); apply (file_of depth d r B L H i I); split; [exact HI|reflexivity]).
    rewrite <- EF in G. apply (file_of depth data r2 BD LL LD i I) in G as (_ & ->). reflexivity. }
  split; [exact RH|]. split; assumption.
Qed.
Print Assumptions C122_overlays.

(** main code: a program changes the sections of a main code file, saves it,
    compressed or not, and puts it into the ROM *)
Definition with_main (nine : bool) (r : rom) (c : bytes) : rom :=
  if nine then with_code r c (arm7 r) (arm9OverlayTable r) (arm7OverlayTable r) (files r)
  else with_code r (arm9 r) c (arm9OverlayTable r) (arm7OverlayTable r) (files r).
Definition load_main (nine : bool) (r : rom) : res mcf := if nine then loadArm9 r else loadArm7 r.
Theorem C122_main_code : forall depth upd d r (nine z : bool) m s0 ne em cso c data r1, is_bytes d -> 0x200 <= zlen d -> (1 <= depth)%nat -> rom_load depth d = Ok r ->
  mcf_ok m s0 ne em cso -> mRam m = word d (if nine then 0x28 else 0x38) -> Forall (fun s => is_bytes (sData s)) (mSections m) -> mcf_save m z = Ok c ->
  (if z then cso + 0x18 <= 0x4000 /\ zlen (sdata (mSections m)) + 12 * zlen (ne ++ em) < 2 ^ 24 /\ slice_from c (-4) <> [0; 0; 0; 0] else unpacked c c) ->
  (forall x, unpacked c x -> locates x (mRam m) cso (Some (word d (if nine then 0x70 else 0x74)))) ->
  rom_save upd (with_main nine r c) = Ok (data, r1) ->
  zlen (arm9PostData r) mod 12 = 0 -> ~ stored data (word data 0x20 + (if nine then zlen c else zlen (arm9 r)) + zlen (arm9PostData r)) magic ->
  exists r2 m', rom_load depth data = Ok r2 /\ load_main nine r2 = Ok m' /\ loaded_like m m' cso /\
    (if nine then arm7 r2 = arm7 r else arm9 r2 = arm9 r) /\ kept_header d data /\
    (forall ids, loadArm9Overlays r2 ids = loadArm9Overlays r ids /\ loadArm7Overlays r2 ids = loadArm7Overlays r ids) /\
    (forall p id, found (fnt_part data) 0 p id <-> found (fnt_part d) 0 p id) /\
    (forall i, 0 <= i -> (has_file data i <-> has_file d i) /\ (has_file d i -> rom_file data i = rom_file d i)).
Proof.
  intros depth upd d r nine z m s0 ne em cso c data r1 B L D H K MR FS MS HZ HL SV PM NM.
  pose proof (loaded_parts depth d r B L H) as BP. unfold byte_parts in BP. apply Forall_app in BP as (BP & BF). repeat match goal with P : Forall _ (_ :: _) |- _ => apply Forall_cons_iff in P as (? & P) end.
  pose proof (mcf_bytes m z c FS MS) as BC. destruct (C102_header depth d r B L H) as (_ & _ & _ & W & _). cbn [map] in W. injection W as _ R9 _ R7 _ _ S9 S7 _.
  assert (RW : is_bytes data /\ exists a9 a7, (if nine then a9 = c /\ a7 = arm7 r else a9 = arm9 r /\ a7 = c) /\ reworked d data a9 a7 (arm9OverlayTable r) (arm7OverlayTable r) (files r) /\
    exists r2, rom_load depth data = Ok r2 /\ 0x200 <= zlen data /\ arm9 r2 = a9 /\ arm7 r2 = a7 /\ arm9OverlayTable r2 = arm9OverlayTable r /\ arm7OverlayTable r2 = arm7OverlayTable r /\ files r2 = files r /\
      arm9RamAddress r2 = arm9RamAddress r /\ arm7RamAddress r2 = arm7RamAddress r /\ arm9CodeSettings r2 = arm9CodeSettings r /\ arm7CodeSettings r2 = arm7CodeSettings r).
  { assert (FF : Forall (fun b : bytes => is_bytes b) ([if nine then c else arm9 r; if nine then arm7 r else c; arm9OverlayTable r; arm7OverlayTable r] ++ files r)) by (cbn [app]; repeat (constructor; [try destruct nine; assumption|]); exact BF).
    unfold with_main in SV. destruct nine; destruct (rom_reworked depth d r B L H upd _ _ _ _ _ data r1 D FF SV PM NM) as (Q1 & Q2 & Q3); (split; [exact Q1|]; do 2 eexists; split; [split; reflexivity|]; split; [exact Q2|exact Q3]). }
  destruct RW as (BD & a9 & a7 & EA & RW & r2 & LD & LL & E9 & E7 & T9 & T7 & EF & X9 & X7 & Y9 & Y7). destruct RW as [RN RC RF RH _ _].
  assert (LM : exists m', mcf_new c (mRam m) (Some (word d (if nine then 0x70 else 0x74))) = Ok m' /\ loaded_like m m' cso).
  { destruct z.
    - destruct HZ as (Z1 & Z2 & Z3). destruct (C19_main_code_roundtrip_compressed m s0 ne em cso c K Z1 Z2 MS Z3) as (x & DX & _ & _ & LX). apply LX, HL. apply code_iff; [exact BC|exact DX].
    - destruct (C19_main_code_roundtrip m s0 ne em cso K) as (c' & MS' & _ & LX). rewrite MS in MS'. apply SeqRead.ok_inj in MS'. subst c'. apply LX; [apply code_iff; [exact BC|exact HZ]|]. apply HL. exact HZ. }
  destruct LM as (m' & LM & LK). exists r2, m'. split; [exact LD|]. split.
  { unfold load_main, loadArm9, loadArm7. rewrite E9, E7, X9, X7, Y9, Y7, R9, R7, S9, S7. destruct nine; destruct EA as (-> & ->); rewrite <- MR; exact LM. }
  split; [exact LK|]. split; [destruct nine; destruct EA as (-> & ->); assumption|]. split; [exact RH|]. split; [intros ids; unfold loadArm9Overlays, loadArm7Overlays; rewrite T9, T7, EF; split; reflexivity|]. split; [exact RN|].
  intros i I. pose proof (has_files depth d r B L H i) as HF. split; [rewrite (RC i I); exact HF|]. intros HI.
  assert (G : get (files r) i = Ok (rom_file d i)) by (apply (file_of depth d r B L H i I); split; [exact HI|reflexivity]).
  rewrite <- EF in G. apply (file_of depth data r2 BD LL LD i I) in G as (_ & ->). reflexivity.
Qed.
Print Assumptions C122_main_code.

(** the overlays of [small_rom] (C118) are loaded, changed and put back: overlay 7 is
    compressed now, overlay 5 is not any more *)
Definition new_code (x : Z * overlay) : Z * overlay := (fst x, with_data (snd x) (if fst x =? 7 then zeros 40 else [1; 2; 3])).
Definition ex_overlays : res (rom * list (Z * overlay) * list bytes * bytes) :=
  r <- rom_load 10 small_rom ;; t <- loadArm9Overlays r None ;; let t := map new_code t in
  '(fs, t') <- store_overlays (fun x => fst x =? 7) (files r) t ;; table <- saveOverlayTable t' ;;
  '(data, _) <- rom_save false (with_overlays true r table fs) ;; Ok (r, t, fs, data).
Example C122_overlays_ex : match ex_overlays with Err _ => False | Ok (r, t, fs, data) =>
    map fst t = [7; 5] /\ map (fun x => oFileID (snd x)) t = [2; 0] /\
    map (fun x => zlen (oData (snd x))) t = [40; 3] /\ slice_from (rom_file data 2) (-4) <> [0; 0; 0; 0] /\ zlen (rom_file data 2) = 20 /\
    zlen (arm9PostData r) mod 12 = 0 /\ part data (word data 0x20 + zlen (arm9 r) + zlen (arm9PostData r)) 4 <> magic /\
    match (r2 <- rom_load 10 data ;; loadArm9Overlays r2 None) with Err _ => False | Ok l =>
      map fst l = [5; 7] /\ map (fun x => oData (snd x)) l = [[1; 2; 3]; zeros 40] /\ map (fun x => oFlags (snd x)) l = [0; 1] /\ map (fun x => oRamAddress (snd x)) l = [1; 11] end /\
    rom_file data 1 = [1; 2; 3] end.
Proof. vm_compute. repeat split; discriminate. Qed.
(** main code with three sections, put into the same ROM *)
Definition ex_main_s0 : section := {| sData := sData ex_s0; sRam := 0; sBss := 0; sImplicit := true |}.
Definition ex_main : mcf := {| mSections := ex_main_s0 :: ex_ne ++ ex_em; mRam := 0; mCso := Some 0 |}.
Example C122_main_ex : mcf_ok ex_main ex_main_s0 ex_ne ex_em 0 /\ word small_rom 0x28 = 0 /\ word small_rom 0x70 = 0 /\
  match (r <- rom_load 10 small_rom ;; c <- mcf_save ex_main false ;; '(data, _) <- rom_save false (with_main true r c) ;; r2 <- rom_load 10 data ;; m <- loadArm9 r2 ;; Ok (r, c, data, r2, m)) with Err _ => False | Ok (r, c, data, r2, m) =>
    code_decompress c = Ok c /\ part data (word data 0x20 + zlen c + zlen (arm9PostData r)) 4 <> magic /\
    tl (mSections m) = ex_ne ++ ex_em /\ mCso m = Some 0 /\ rom_file data 2 = [4; 5] end.
Proof.
  split; [constructor; try reflexivity; unfold u32; try (repeat constructor; vm_compute; congruence)|]. vm_compute. repeat split; discriminate.
Qed.

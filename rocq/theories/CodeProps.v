(** * Overlays and main code files (ndspy/code.py) *)
From Verif Require Import PyBase PyLemmas LzModel CodeModel CodeLemmas.
From Coq Require Import Permutation Sorted.

(** C17: saving an overlay table and loading it back.  [reload] is an overlay with
    the same fields whose data the callback supplies (decompressed when the
    compressed bit is set), [wanted] is the idsToLoad filter. *)
Theorem C17_overlay_table_roundtrip : forall t cb ids, NoDup (map fst t) -> Forall ov_ok t ->
  exists d t', Permutation t t' /\ ascending t' /\ saveOverlayTable t = Ok d /\ zlen d = 32 * zlen t /\
    loadOverlayTable d cb ids = mapM (reload cb) (filter (wanted ids) t').
Proof. exact overlay_table_roundtrip. Qed.
Print Assumptions C17_overlay_table_roundtrip.

Theorem C17_overlay_table_same : forall t cb, NoDup (map fst t) -> Forall ov_ok t ->
  (forall id ov, In (id, ov) t -> exists raw, cb id (oFileID ov) = Ok raw /\
     if Z.odd (oFlags ov) then code_decompress raw = Ok (oData ov) else raw = oData ov) ->
  exists d t', Permutation t t' /\ ascending t' /\ saveOverlayTable t = Ok d /\ loadOverlayTable d cb None = Ok t'.
Proof. exact overlay_table_same. Qed.
Print Assumptions C17_overlay_table_same.

Theorem C17_overlay_table_resave : forall d cb t, is_bytes d -> loadOverlayTable d cb None = Ok t ->
  (forall i j, 0 <= i < j -> 32 * j < zlen d ->
     unle (slice d (32 * i) (32 * i + 4)) < unle (slice d (32 * j) (32 * j + 4))) ->
  saveOverlayTable t = Ok d.
Proof. exact overlay_table_resave. Qed.
Print Assumptions C17_overlay_table_resave.

(** a table whose length is not a multiple of 32 cannot be loaded *)
Theorem C17_overlay_table_length : forall d cb ids t, loadOverlayTable d cb ids = Ok t -> zlen d mod 32 = 0.
Proof. exact load_table_mod32. Qed.
Print Assumptions C17_overlay_table_length.

Definition ex_ov (d : bytes) (fid fl : Z) : overlay :=
  {| oData := d; oRamAddress := 0x2000000; oRamSize := zlen d; oBssSize := 4; oSiStart := 8; oSiEnd := 12;
     oFileID := fid; oCompressedSize := 0xABCDEF; oFlags := fl |}.
Definition ex_table : list (Z * overlay) := [(7, ex_ov [1; 2] 3 2); (5, ex_ov [3] 1 0x80)].
Definition ex_cb (id fid : Z) : res bytes := if id =? 7 then Ok [1; 2] else if id =? 5 then Ok [3] else Err KeyError.
Example C17_ex : NoDup (map fst ex_table) /\ Forall ov_ok ex_table /\
  (forall id ov, In (id, ov) ex_table -> exists raw, ex_cb id (oFileID ov) = Ok raw /\
     if Z.odd (oFlags ov) then code_decompress raw = Ok (oData ov) else raw = oData ov).
Proof.
  split; [repeat constructor; cbn; lia|]. split; [unfold ex_table; repeat (apply Forall_cons; [vm_compute; repeat split; congruence|]); apply Forall_nil|].
  intros id ov [[= <- <-]|[[= <- <-]|[]]]; eexists; split; reflexivity.
Qed.
Example C17_ex_save :
  saveOverlayTable ex_table = Ok (
    le 4 5 ++ le 4 0x2000000 ++ le 4 1 ++ le 4 4 ++ le 4 8 ++ le 4 12 ++ le 4 1 ++ [0xEF; 0xCD; 0xAB; 0x80] ++
    le 4 7 ++ le 4 0x2000000 ++ le 4 2 ++ le 4 4 ++ le 4 8 ++ le 4 12 ++ le 4 3 ++ [0xEF; 0xCD; 0xAB; 0x02]) /\
  (exists d, saveOverlayTable ex_table = Ok d /\ loadOverlayTable d ex_cb (Some (Z.eqb 7)) = Ok [(7, ex_ov [1; 2] 3 2)]).
Proof. split; [vm_compute; reflexivity|]. eexists. split; [vm_compute; reflexivity|vm_compute; reflexivity]. Qed.

(** C18 *)
Theorem C18_flag_accessors : forall v fl,
  flags_compressed (set_compressed v fl) = v /\ flags_verifyHash (set_verifyHash v fl) = v /\
  (forall n, 0 <= n -> n <> 0 -> Z.testbit (set_compressed v fl) n = Z.testbit fl n) /\
  (forall n, 0 <= n -> n <> 1 -> Z.testbit (set_verifyHash v fl) n = Z.testbit fl n) /\
  flags_verifyHash (set_compressed v fl) = flags_verifyHash fl /\
  flags_compressed (set_verifyHash v fl) = flags_compressed fl /\
  (forall k, 1 <= k -> 0 <= fl < 2 ^ k -> 0 <= set_compressed v fl < 2 ^ k).
Proof. exact flags_independent. Qed.
Print Assumptions C18_flag_accessors.
Example C18_flags_ex : set_compressed true 0xF2 = 0xF3 /\ set_compressed false (-1) = -2 /\ set_verifyHash true 1 = 3.
Proof. vm_compute. repeat split; reflexivity. Qed.

Theorem C18_overlay_save : forall ov c d ov', overlay_save ov c = Ok (d, ov') ->
  oRamSize ov' = zlen (oData ov) /\ oCompressedSize ov' = zlen d /\
  (forall n, 0 <= n -> Z.testbit (oFlags ov') n = if n =? 0 then c else Z.testbit (oFlags ov) n) /\
  (if c then code_compress (oData ov) false = Ok d else d = oData ov) /\
  oData ov' = oData ov /\ oRamAddress ov' = oRamAddress ov /\ oBssSize ov' = oBssSize ov /\
  oSiStart ov' = oSiStart ov /\ oSiEnd ov' = oSiEnd ov /\ oFileID ov' = oFileID ov.
Proof. exact overlay_save_spec. Qed.
Print Assumptions C18_overlay_save.

(** constructing an overlay from the saved bytes and the updated fields gives it back *)
Theorem C18_overlay_reopen : forall ov c d ov', overlay_save ov c = Ok (d, ov') ->
  (c = true -> zlen (oData ov) < 2 ^ 24 /\ slice_from d (-4) <> [0; 0; 0; 0]) ->
  overlay_new d (oRamAddress ov') (oRamSize ov') (oBssSize ov') (oSiStart ov') (oSiEnd ov')
    (oFileID ov') (oCompressedSize ov') (oFlags ov') = Ok ov'.
Proof. exact overlay_reopen. Qed.
Print Assumptions C18_overlay_reopen.
Example C18_save_ex : exists d ov', overlay_save (ex_ov (zeros 64) 3 2) true = Ok (d, ov') /\
  zlen d = 28 /\ oCompressedSize ov' = 28 /\ oRamSize ov' = 64 /\ oFlags ov' = 3 /\ slice_from d (-4) = [36; 0; 0; 0].
Proof. eexists _, _. split; [vm_compute; reflexivity|]. vm_compute. repeat split; reflexivity. Qed.

(** C19: [mcf_ok] describes the code file, [locates] says that the settings block
    can be found in the saved data, [loaded_like] is the comparison (everything
    equal except the four words of the block that [save] sets).  The premise
    [code_decompress d = Ok d] says that the plain data is not taken for
    compressed data by the loader. *)
Theorem C19_main_code_roundtrip : forall m s0 ne em cso, mcf_ok m s0 ne em cso ->
  exists d, mcf_save m false = Ok d /\ zlen d = zlen (sdata (mSections m)) + 12 * zlen (ne ++ em) /\
    forall ptr, code_decompress d = Ok d -> locates d (mRam m) cso ptr ->
      exists m', mcf_new d (mRam m) ptr = Ok m' /\ loaded_like m m' cso.
Proof. exact mcf_roundtrip. Qed.
Print Assumptions C19_main_code_roundtrip.

(** the same for a compressed save; the compressed-size word is set as well *)
Theorem C19_main_code_roundtrip_compressed : forall m s0 ne em cso c, mcf_ok m s0 ne em cso ->
  cso + 0x18 <= 0x4000 -> zlen (sdata (mSections m)) + 12 * zlen (ne ++ em) < 2 ^ 24 ->
  mcf_save m true = Ok c -> slice_from c (-4) <> [0; 0; 0; 0] ->
  exists D, code_decompress c = Ok D /\ zlen D = zlen (sdata (mSections m)) + 12 * zlen (ne ++ em) /\
    slice D (cso + 0x14) (cso + 0x18) = le 4 (mRam m + zlen c) /\
    forall ptr, locates D (mRam m) cso ptr ->
      exists m', mcf_new c (mRam m) ptr = Ok m' /\ loaded_like m m' cso.
Proof. exact mcf_roundtrip_compressed. Qed.
Print Assumptions C19_main_code_roundtrip_compressed.

(** the constructor ends on every input, with a file or a documented error *)
Theorem C19_main_code_load_safe : forall d ram ptr, is_bytes d ->
  match mcf_new d ram ptr with
  | Ok m => mRam m = ram /\ exists s0 r, mSections m = s0 :: r /\ sImplicit s0 = true /\ sRam s0 = ram /\ sBss s0 = 0 /\
              Forall (fun s => sImplicit s = false) r
  | Err e => e = StructError \/ e = ValueError \/ e = RuntimeError \/ e = IndexError
  end.
Proof. exact mcf_new_safe. Qed.
Print Assumptions C19_main_code_load_safe.

Definition ex_s0 : section :=
  {| sData := zeros 0x1C ++ [0x21; 0x06; 0xC0; 0xDE; 0xDE; 0xC0; 0x06; 0x21] ++ [1; 2; 3; 4];
     sRam := 0x2000000; sBss := 0; sImplicit := true |}.
Definition ex_ne : list section := [{| sData := [5; 6; 7; 8; 9; 10; 11; 12]; sRam := 0x1FF8000; sBss := 0x20; sImplicit := false |}].
Definition ex_em : list section := [{| sData := []; sRam := 0x27E0000; sBss := 0x60; sImplicit := false |}].
Definition ex_mcf : mcf := {| mSections := ex_s0 :: ex_ne ++ ex_em; mRam := 0x2000000; mCso := Some 0 |}.
Example C19_ex : mcf_ok ex_mcf ex_s0 ex_ne ex_em 0 /\
  exists d, mcf_save ex_mcf false = Ok d /\ code_decompress d = Ok d /\ locates d 0x2000000 0 None /\
  match mcf_new d 0x2000000 None with
  | Ok m => tl (mSections m) = ex_ne ++ ex_em /\ mCso m = Some 0
  | Err _ => False
  end.
Proof.
  split.
  - constructor; try reflexivity; unfold u32; try (repeat constructor; vm_compute; congruence).
  - eexists. split; [vm_compute; reflexivity|]. split; [vm_compute; reflexivity|]. split; [|vm_compute; auto].
    right. split; [left; reflexivity|]. split; [reflexivity|]. split; [lia|]. split; [vm_compute; reflexivity|].
    intros i Hi Hm. assert (C : In i [0; 4; 8; 12; 16; 20; 24]) by (assert (i = 4 * (i / 4)) by lia; assert (i / 4 = 0 \/ i / 4 = 1 \/ i / 4 = 2 \/ i / 4 = 3 \/ i / 4 = 4 \/ i / 4 = 5 \/ i / 4 = 6) by lia; cbn [In]; lia).
    cbn [In] in C. intuition subst; vm_compute in H; discriminate.
Qed.
Example C19_compressed_ex :
  let m := {| mSections := [{| sData := zeros 0x4000 ++ zeros 64; sRam := 0x2000000; sBss := 0; sImplicit := true |}];
              mRam := 0x2000000; mCso := Some 0 |} in
  mcf_ok m {| sData := zeros 0x4000 ++ zeros 64; sRam := 0x2000000; sBss := 0; sImplicit := true |} [] [] 0 /\
  exists c, mcf_save m true = Ok c /\ slice_from c (-4) <> [0; 0; 0; 0].
Proof.
  cbv zeta. split.
  - constructor; try reflexivity; unfold u32; try (repeat constructor; vm_compute; congruence).
  - eexists. split; [vm_compute; reflexivity|]. vm_compute. discriminate.
Qed.

(** C20: no code file built by [fromSections] can be saved, compressed or not *)
Theorem C20_fromSections_save_fails : forall secs ram m c,
  mcf_fromSections secs ram = Ok m -> exists e, mcf_save m c = Err e.
Proof. exact fromSections_save. Qed.
Print Assumptions C20_fromSections_save_fails.
Theorem C20_fromSections_constructs : forall secs ram, 0 <= ram < 2 ^ 32 ->
  mcf_fromSections secs ram = Ok {| mSections := secs; mRam := ram; mCso := None |}.
Proof. exact fromSections_ok. Qed.
Print Assumptions C20_fromSections_constructs.
Theorem C20_fromSections_savable_refuted :
  ~ (forall secs ram m, mcf_fromSections secs ram = Ok m -> exists d, mcf_save m false = Ok d).
Proof.
  intros H. destruct (H [ex_s0] 0x2000000 _ eq_refl) as (d & E). vm_compute in E. discriminate.
Qed.
Print Assumptions C20_fromSections_savable_refuted.
Example C20_ex : exists m, mcf_fromSections [ex_s0] 0x2000000 = Ok m /\ mcf_save m false = Err TypeError.
Proof. eexists. split; [vm_compute; reflexivity|]. vm_compute. reflexivity. Qed.

(** * C91: where the settings of a main code file are found, and what its sections are *)
From Verif Require Import PyBase PyLemmas LzModel CodeModel CsoSpec CsoLemmas.

(** without a pointer: the first aligned marker below 0x8000, or else the first
    place in the file that names the end of the file as the end of a table *)
Theorem C91_search : forall d0 ram m d, is_bytes d -> code_decompress d0 = Ok d -> mcf_new d0 ram None = Ok m ->
  match mCso m with
  | Some o => (exists i, magic_at d i /\ o = i - 0x1C /\ forall j, j < i -> ~ magic_at d j) \/
              (no_magic d /\ exists k, settings_at ram d k /\ o = k - 4 /\ forall j, j < k -> ~ settings_at ram d j)
  | None => no_magic d /\ forall k, ~ settings_at ram d k
  end.
Proof.
  intros d0 ram m d B D H. destruct (mcf_new_inv _ _ _ _ _ H D) as (_ & F & _). pose proof (search_cso_spec ram d B) as S.
  rewrite (proj2 (find_cso_spec ram d None)) in F by discriminate. rewrite F in S. exact S.
Qed.
Print Assumptions C91_search.

(** when the search fails: the end of the file is no 32-bit address, or its address
    stands at one of the offsets 1, 2, 3 *)
Theorem C91_search_fails : forall d ram e, is_bytes d -> search_cso ram d = Err e ->
  e = StructError /\ no_magic d /\ (~ 0 <= ram + zlen d < 2 ^ 32 \/ exists k, end_at ram d k /\ 1 <= k <= 3).
Proof. intros d ram e B H. pose proof (search_cso_spec ram d B) as S. rewrite H in S. exact S. Qed.
Print Assumptions C91_search_fails.

(** a pointer to a place inside the file decides; any other pointer changes nothing *)
Theorem C91_pointer : forall d0 ram p m d o, code_decompress d0 = Ok d -> points_to ram d p o -> mcf_new d0 ram (Some p) = Ok m -> mCso m = Some o.
Proof.
  intros d0 ram p m d o D P H. destruct (mcf_new_inv _ _ _ _ _ H D) as (_ & F & _). rewrite (proj1 (find_cso_spec ram d (Some p)) p o eq_refl P) in F. congruence.
Qed.
Print Assumptions C91_pointer.
Theorem C91_pointer_ignored : forall d0 ram p d, code_decompress d0 = Ok d -> (forall o, ~ points_to ram d p o) -> mcf_new d0 ram (Some p) = mcf_new d0 ram None.
Proof.
  intros d0 ram p d D N. assert (E : find_cso ram d (Some p) = find_cso ram d None).
  { transitivity (search_cso ram d); [|symmetry]; apply find_cso_spec; [intros q o [= <-]; apply N|discriminate]. }
  unfold mcf_new. rewrite D. cbn [bind]. rewrite E. apply eq_refl.
Qed.
Print Assumptions C91_pointer_ignored.

(** no settings: one section, the whole file *)
Theorem C91_no_settings : forall d0 ram ptr m d, code_decompress d0 = Ok d -> mcf_new d0 ram ptr = Ok m -> mCso m = None ->
  mSections m = [{| sData := d; sRam := ram; sBss := 0; sImplicit := true |}].
Proof. intros d0 ram ptr m d D H N. destruct (mcf_new_inv _ _ _ _ _ H D) as (_ & _ & S). rewrite N in S. exact S. Qed.
Print Assumptions C91_no_settings.

(** with settings: the part of the file up to the data of the sections, then one
    section per row of the table, their data following each other *)
Theorem C91_sections : forall d0 ram ptr m d o, code_decompress d0 = Ok d -> mcf_new d0 ram ptr = Ok m -> mCso m = Some o ->
  let t := setting d o 0 - ram in let e := setting d o 1 - ram in let b := setting d o 2 - ram in
  0 <= t ->
  exists rest, mSections m = {| sData := slice d 0 b; sRam := ram; sBss := 0; sImplicit := true |} :: rest /\
    zlen rest = Z.max 0 ((e - t + 11) / 12) /\
    forall i, (i < length rest)%nat -> nth_error rest i =
      Some {| sData := slice d (b + sizes d t i) (b + sizes d t (S i)); sRam := row d t (Z.of_nat i) 0; sBss := row d t (Z.of_nat i) 2; sImplicit := false |}.
Proof.
  intros d0 ram ptr m d o D H O t e b T. destruct (mcf_new_inv _ _ _ _ _ H D) as (_ & _ & S). rewrite O in S. destruct S as (_ & rest & S & C). exists rest. split; [exact S|].
  fold t e b in C. replace t with (t + 12 * Z.of_nat 0) in C at 1 by lia. replace b with (b + sizes d t 0) in C at 1 by (cbn [sizes]; lia).
  destruct (copy_table_spec d t e b T _ _ _ C) as [[C1 C1'] C2]. split; [|exact C2]. pose proof (zlen_nonneg rest). change (Z.of_nat 0) with 0 in *.
  destruct (Z_le_gt_dec (zlen rest) 0) as [L|L]; [|specialize (C1' ltac:(lia)); lia]. replace (zlen rest) with 0 by lia.
  assert ((e - t + 11) / 12 < 1) by (apply Z.div_lt_upper_bound; lia). lia.
Qed.
Print Assumptions C91_sections.

(** four bytes of code, settings without a marker, one section of four bytes, the table *)
Definition cso_code : bytes :=
  [1; 2; 3; 4] ++ le 4 0x2000014 ++ le 4 0x2000020 ++ le 4 0x2000010 ++ [5; 6; 7; 8] ++ le 4 0x1FF8000 ++ le 4 4 ++ le 4 8.
(** the same with a pointer at the end to settings that say something else *)
Definition cso_ptr : bytes := cso_code ++ le 4 0x2000020 ++ le 4 0x2000020 ++ le 4 0x2000002 ++ le 4 0x2000020.
(** settings followed by the marker *)
Definition cso_marked : bytes :=
  le 4 0x2000024 ++ le 4 0x2000030 ++ le 4 0x2000024 ++ zeros 16 ++ [0x21; 0x06; 0xC0; 0xDE; 0xDE; 0xC0; 0x06; 0x21] ++ le 4 7 ++ le 4 0 ++ le 4 9.
Example C91_ex :
  is_bytes cso_code /\ code_decompress cso_code = Ok cso_code /\
  mcf_new cso_code 0x2000000 None = Ok {| mSections := [{| sData := firstn 16 cso_code; sRam := 0x2000000; sBss := 0; sImplicit := true |};
    {| sData := [5; 6; 7; 8]; sRam := 0x1FF8000; sBss := 8; sImplicit := false |}]; mRam := 0x2000000; mCso := Some 4 |} /\
  settings_at 0x2000000 cso_code 8 /\ setting cso_code 4 0 = 0x2000014 /\
  (* an address one too high: nothing is found *)
  mcf_new cso_code 0x2000001 None = Ok {| mSections := [{| sData := cso_code; sRam := 0x2000001; sBss := 0; sImplicit := true |}]; mRam := 0x2000001; mCso := None |} /\
  code_decompress cso_ptr = Ok cso_ptr /\ points_to 0x2000000 cso_ptr 0x2000030 32 /\
  mcf_new cso_ptr 0x2000000 (Some 0x2000030) = Ok {| mSections := [{| sData := [1; 2]; sRam := 0x2000000; sBss := 0; sImplicit := true |}]; mRam := 0x2000000; mCso := Some 32 |} /\
  code_decompress cso_marked = Ok cso_marked /\ magic_at cso_marked 0x1C /\
  mcf_new cso_marked 0x2000000 (Some 5) = Ok {| mSections := [{| sData := firstn 36 cso_marked; sRam := 0x2000000; sBss := 0; sImplicit := true |};
    {| sData := []; sRam := 7; sBss := 9; sImplicit := false |}]; mRam := 0x2000000; mCso := Some 0 |} /\
  search_cso 1 ([9] ++ le 4 10 ++ zeros 4) = Err StructError.
Proof.
  split; [apply forallb_byteb; vm_compute; reflexivity|]. split; [vm_compute; reflexivity|]. split; [vm_compute; reflexivity|].
  split; [split; [split; [lia|split; [vm_compute; discriminate|vm_compute; reflexivity]]|split; [right; lia|split; [vm_compute; reflexivity|split; [exists 1; vm_compute; reflexivity|vm_compute; reflexivity]]]]|].
  split; [vm_compute; reflexivity|]. split; [vm_compute; reflexivity|]. split; [vm_compute; reflexivity|].
  split; [split; [lia|split; [left; split; vm_compute; discriminate|vm_compute; split; [reflexivity|split; [discriminate|reflexivity]]]]|].
  split; [vm_compute; reflexivity|]. split; [vm_compute; reflexivity|]. split; [split; [lia|split; vm_compute; reflexivity]|]. split; vm_compute; reflexivity.
Qed.

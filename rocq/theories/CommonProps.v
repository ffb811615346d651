(** * Properties of _common.py and of the named lists (C08, C23, C24, C28, C47) *)
From Coq Require Import String.
From Verif Require Import PyBase PyLemmas CommonModel CommonLemmas InfoBlockLemmas CrcLemmas.

(** C08: the check value of CRC-16 with reflected polynomial 0xA001 and initial value 0xFFFF *)
Example C08_check_value : crc16 (asc "123456789") = 0x4B37.
Proof. vm_compute. reflexivity. Qed.
Theorem C08_crc16_range : forall data, is_bytes data -> 0 <= crc16 data < 65536.
Proof. exact crc16_range. Qed.
Print Assumptions C08_crc16_range.
(** every error burst of at most 16 bits, at any bit position, is detected
    ([unle] is int.from_bytes(data, 'little')) *)
Theorem C08_crc16_detects_bursts : forall a b e k,
  is_bytes a -> is_bytes b -> length a = length b -> 0 <= k -> 0 < e < 65536 ->
  Z.lxor (unle a) (unle b) = Z.shiftl e k -> crc16 a <> crc16 b.
Proof. exact crc16_burst. Qed.
Print Assumptions C08_crc16_detects_bursts.
Example C08_bursts_ex : Z.lxor (unle [1; 2; 3; 4]) (unle [1; 0x92; 0x03; 4]) = Z.shiftl 0x90 8 /\
  crc16 [1; 2; 3; 4] = 11169 /\ crc16 [1; 0x92; 3; 4] = 1697.
Proof. vm_compute. repeat split. Qed.
(** in particular any change confined to one byte or two neighbouring bytes *)
Theorem C08_crc16_detects_changes : forall a x y b,
  is_bytes a -> is_bytes b -> is_bytes x -> is_bytes y -> zlen x = zlen y -> zlen x <= 2 ->
  x <> y -> crc16 (a ++ x ++ b) <> crc16 (a ++ y ++ b).
Proof. exact crc16_change. Qed.
Print Assumptions C08_crc16_detects_changes.
Example C08_changes_ex : crc16 ([1; 2] ++ [3] ++ [4]) = 11169 /\ crc16 ([1; 2] ++ [7] ++ [4]) = 60323.
Proof. vm_compute. split; reflexivity. Qed.
(** the checksum of a concatenation depends on the first part only through its checksum, injectively *)
Theorem C08_crc16_append : forall a a' b, is_bytes a -> is_bytes a' -> is_bytes b ->
  (crc16 (a ++ b) = crc16 (a' ++ b) <-> crc16 a = crc16 a').
Proof. exact crc16_append. Qed.
Print Assumptions C08_crc16_append.
Theorem C08_crc16_residue : forall a, is_bytes a -> crc16 (a ++ le 2 (crc16 a)) = 0.
Proof. exact crc16_residue. Qed.
Print Assumptions C08_crc16_residue.
Example C08_residue_ex : crc16 [1; 2; 3] = 24929 /\ crc16 ([1; 2; 3] ++ [0x61; 0x61]) = 0.
Proof. vm_compute. split; reflexivity. Qed.

(** it is the usual CRC-16: the remainder, all numbers read with their bits reversed,
    of the message times x^16, its first 16 bits inverted, by the polynomial x^16 + x^15 + x^2 + 1
    ([0x14003] is 1 1000 0000 0000 0101 reversed): the only c below 2^16 for which the
    inverted message is c shifted behind the message plus a multiple of that polynomial *)
Theorem C08_crc16_standard : forall data c, is_bytes data ->
  (crc16 data = c <-> exists q, 0 <= q < 2 ^ (8 * zlen data) /\ 0 <= c < 65536 /\
   Z.lxor 0xFFFF (unle data) = Z.lxor (Z.shiftl c (8 * zlen data)) (pmul q 0x14003)).
Proof. exact crc16_standard. Qed.
Print Assumptions C08_crc16_standard.
Example C08_standard_ex : let m := asc "123456789" in
  Z.lxor 0xFFFF (unle m) = Z.lxor (Z.shiftl 0x4B37 (8 * zlen m)) (pmul 0x5c39b13d853f62c4ba 0x14003).
Proof. vm_compute. reflexivity. Qed.

(** C23: named lists *)
Theorem C23_index : forall K V (eqb : K -> K -> bool) (L : list (K * V)) name i, eqb_ok eqb ->
  (indexInNamedList eqb L name = Ok i <->
   exists l1 v l2, L = l1 ++ (name, v) :: l2 /\ ~ In name (map fst l1) /\ i = zlen l1).
Proof. intros K V eqb L name i HE. apply (index_loop_ok eqb L name HE 0 i). Qed.
Print Assumptions C23_index.
Theorem C23_index_missing : forall K V (eqb : K -> K -> bool) (L : list (K * V)) name e, eqb_ok eqb ->
  (indexInNamedList eqb L name = Err e <-> e = KeyError /\ ~ In name (map fst L)).
Proof. intros K V eqb L name e HE. apply (index_loop_err eqb L name HE 0 e). Qed.
Print Assumptions C23_index_missing.
Theorem C23_find : forall K V (eqb : K -> K -> bool) (L : list (K * V)) name v, eqb_ok eqb ->
  (findInNamedList eqb L name = Ok v <-> exists l1 l2, L = l1 ++ (name, v) :: l2 /\ ~ In name (map fst l1)).
Proof. intros K V eqb L name v HE. apply (find_named eqb L name v HE). Qed.
Print Assumptions C23_find.
Theorem C23_find_missing : forall K V (eqb : K -> K -> bool) (L : list (K * V)) name e, eqb_ok eqb ->
  (findInNamedList eqb L name = Err e <-> e = KeyError /\ ~ In name (map fst L)).
Proof. intros K V eqb L name e HE. apply (find_named_err eqb L name e HE). Qed.
Print Assumptions C23_find_missing.
(** a successful set replaces the first match and nothing else *)
Theorem C23_set : forall K V (eqb : K -> K -> bool) (L : list (K * V)) name v L', eqb_ok eqb ->
  (setInNamedList eqb L name v = Ok L' <->
   exists l1 w l2, L = l1 ++ (name, w) :: l2 /\ ~ In name (map fst l1) /\ L' = l1 ++ (name, v) :: l2).
Proof. intros K V eqb L name v L' HE. apply (set_named eqb L name v L' HE). Qed.
Print Assumptions C23_set.
Theorem C23_get_after_set : forall K V (eqb : K -> K -> bool) (L : list (K * V)) name v L', eqb_ok eqb ->
  setInNamedList eqb L name v = Ok L' ->
  findInNamedList eqb L' name = Ok v /\ zlen L' = zlen L /\ map fst L' = map fst L /\
  (forall other, other <> name -> findInNamedList eqb L' other = findInNamedList eqb L other).
Proof. exact (@get_after_set). Qed.
Print Assumptions C23_get_after_set.
Example C23_ex : let L := [(asc "a", 1); (asc "b", 2); (asc "b", 3)] in
  findInNamedList beq L (asc "b") = Ok 2 /\ indexInNamedList beq L (asc "c") = Err KeyError /\
  setInNamedList beq L (asc "b") 9 = Ok [(asc "a", 1); (asc "b", 9); (asc "b", 3)].
Proof. vm_compute. repeat split. Qed.
Example C23_eqb_ok : eqb_ok beq.
Proof. exact beq_eq. Qed.

(** C24: alignment packing *)
Theorem C24_unpack_pack : forall x y al, 0 <= x < 4096 -> 0 <= y < 4096 -> In al valid_alignments ->
  let p := packAlignmentIntoPos x y al in unpackAlignmentFromPos (fst p) (snd p) = (x, y, al).
Proof. exact unpack_pack_alignment. Qed.
Print Assumptions C24_unpack_pack.
Theorem C24_unpack_range : forall xp yp, let '(x, y, al) := unpackAlignmentFromPos xp yp in
  0 <= x < 4096 /\ 0 <= y < 4096 /\ In al valid_alignments.
Proof. exact unpack_alignment_range. Qed.
Print Assumptions C24_unpack_range.
Theorem C24_pack_unpack : forall xp yp, 0 <= xp < 0x3000 -> 0 <= yp < 0x3000 ->
  let '(x, y, al) := unpackAlignmentFromPos xp yp in packAlignmentIntoPos x y al = (xp, yp).
Proof. exact pack_unpack_alignment. Qed.
Print Assumptions C24_pack_unpack.
(** the corner of an aligned rectangle: flush on the aligned side, centred to within one unit *)
Theorem C24_top_left : forall x y w h al, In al valid_alignments -> 0 <= w -> 0 <= h ->
  let '(l, t) := getTopLeftOfAlignedRect x y w h al in
  (Z.testbit al 0 = true -> l = x) /\ (Z.testbit al 1 = true -> l + w = x) /\
  (Z.testbit al 2 = true -> -1 <= (l - x) + (l + w - x) <= 0) /\
  (Z.testbit al 4 = true -> t = y) /\ (Z.testbit al 5 = true -> t + h = y) /\
  (Z.testbit al 6 = true -> -1 <= (t - y) + (t + h - y) <= 0).
Proof. exact top_left_of_rect. Qed.
Print Assumptions C24_top_left.
Example C24_ex : packAlignmentIntoPos 0x123 0x456 0x42 = (0x2123, 0x1456) /\
  unpackAlignmentFromPos 0x2123 0x1456 = (0x123, 0x456, 0x42) /\
  getTopLeftOfAlignedRect 100 100 31 20 0x24 = (84, 80).
Proof. vm_compute. repeat split. Qed.

(** C28: info blocks.  Whenever saving succeeds and the names fit in 16 bytes, the
    block is read back (anywhere inside a file); [None] names come back as ''. *)
Theorem C28_info_roundtrip : forall entries each b pre post exp,
  saveInfoBlock entries each = Ok b -> Forall name_fits entries -> exp = None \/ exp = Some each ->
  loadInfoBlock (pre ++ b ++ post) (zlen pre) exp = Ok (map loaded entries).
Proof. exact loadInfo_roundtrip. Qed.
Print Assumptions C28_info_roundtrip.
Theorem C28_info_save_succeeds : forall entries each,
  zlen entries < 256 -> 0 <= each < 65536 -> 4 + zlen entries * each < 65536 ->
  Forall (fun e => u16 (ieUnk00 e) /\ u16 (ieUnk02 e) /\ zlen (ieData e) = each /\
                   is_bytes (name_of e) /\ zlen (name_of e) <= 16) entries ->
  16 + zlen entries * (20 + each) < 65536 ->
  exists b, saveInfoBlock entries each = Ok b /\ zlen b = 16 + zlen entries * (20 + each).
Proof. exact saveInfo_ok. Qed.
Print Assumptions C28_info_save_succeeds.
Definition sample_entries : list infoEntry :=
  [ {| ieName := Some (asc "wall"); ieUnk00 := 1; ieUnk02 := 2; ieData := [1; 2; 3; 4] |};
    {| ieName := Some (asc "sixteen_letters_"); ieUnk00 := 65535; ieUnk02 := 0; ieData := [5; 6; 7; 8] |} ].
Example C28_ex : exists b, saveInfoBlock sample_entries 4 = Ok b /\ zlen b = 64 /\ Forall name_fits sample_entries /\
  loadInfoBlock ([9; 9] ++ b ++ [7]) 2 (Some 4) = Ok sample_entries.
Proof.
  eexists. split; [vm_compute; reflexivity|]. split; [reflexivity|]. split; [|vm_compute; reflexivity].
  repeat constructor; unfold name_fits, zlen; cbn; try lia; right; discriminate.
Qed.
(** an entry of the wrong length is refused *)
Theorem C28_info_bad_length : forall entries each b e,
  saveInfoBlock entries each = Ok b -> In e entries -> zlen (ieData e) = each.
Proof. intros entries each b e H. apply saveInfo_shape in H as [(_ & _ & _ & _ & F & _) _]. rewrite Forall_forall in F. apply F. Qed.
Print Assumptions C28_info_bad_length.
(** ... with ValueError, when the other numbers fit their fields *)
Theorem C28_info_bad_length_error : forall entries each e,
  zlen entries < 256 -> 0 <= each < 65536 -> 4 + zlen entries * each < 65536 ->
  Forall (fun e => u16 (ieUnk00 e) /\ u16 (ieUnk02 e)) entries -> In e entries -> zlen (ieData e) <> each ->
  saveInfoBlock entries each = Err ValueError.
Proof.
  intros entries each e L E L4 U I N. unfold saveInfoBlock. pose proof (zlen_nonneg entries) as Z0.
  rewrite !pack_us_ok by (repeat constructor; cbn; lia). cbn [bind].
  assert (exists us, mapM saveInfoUnk entries = Ok us) as (us & ->).
  { clear - U. induction U as [|x l (A & B) _ (us & IH)]; cbn [mapM]; [eexists; reflexivity|].
    unfold saveInfoUnk at 1. rewrite pack_us_ok by (repeat constructor; cbn; unfold u16 in *; lia). cbn [bind]. rewrite IH. eexists. reflexivity. }
  cbn [bind].
  assert (mapM (saveInfoData each) entries = Err ValueError) as ->; [|reflexivity].
  clear - I N. induction entries as [|x l IH]; [contradiction|]. cbn [mapM]. unfold saveInfoData at 1.
  destruct (Z.eqb_spec (zlen (ieData x)) each) as [E|]; [|reflexivity]. cbn [bind].
  destruct I as [-> | I]; [contradiction|]. now rewrite (IH I).
Qed.
Print Assumptions C28_info_bad_length_error.
Example C28_bad_length_ex : saveInfoBlock sample_entries 5 = Err ValueError.
Proof. vm_compute. reflexivity. Qed.

(** C47: null-terminated strings *)
Theorem C47_string : forall pre s post, (forall c, In c s -> c <> 0) ->
  loadNullTerminatedStringFrom (pre ++ s ++ [0] ++ post) (zlen pre) 1 = s.
Proof. exact loadstr1. Qed.
Print Assumptions C47_string.
Example C47_ex : loadNullTerminatedStringFrom (asc "xxhello" ++ [0] ++ asc "yy" ++ [0]) 2 1 = asc "hello".
Proof. vm_compute. reflexivity. Qed.
(** without a terminator the last character is silently dropped *)
Theorem C47_string_unterminated : forall pre s, (forall c, In c s -> c <> 0) -> 0 < zlen s ->
  loadNullTerminatedStringFrom (pre ++ s) (zlen pre) 1 = removelast s.
Proof. exact loadstr1_missing. Qed.
Print Assumptions C47_string_unterminated.
Example C47_unterminated_ex : loadNullTerminatedStringFrom (asc "hello") 0 1 = asc "hell".
Proof. vm_compute. reflexivity. Qed.
(** for two-byte characters the terminator is looked for at any byte offset, so the
    claim is false there: 'A' in UTF-16-LE followed by a terminator loses a byte *)
Theorem C47_wide_string_refuted :
  ~ (forall s post, (forall k, 0 <= k -> 2 * k + 2 <= zlen s -> slice s (2 * k) (2 * k + 2) <> [0; 0]) -> zlen s mod 2 = 0 ->
       loadNullTerminatedStringFrom (s ++ [0; 0] ++ post) 0 2 = s).
Proof. exact wide_string_false. Qed.
Print Assumptions C47_wide_string_refuted.

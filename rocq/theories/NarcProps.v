(** * Properties of NARC archives (C12, C13) *)
From Coq Require Import String.
From Verif Require Import PyBase PyLemmas CommonModel FntModel FntSpec FntLemmas FntSaveLemmas NarcModel NarcLemmas.

(** ** C12 *)
Theorem C12_roundtrip : forall n d tail depth, narc_save n = Ok d -> files_named (nFilenames n) ->
  (height (nFilenames n) <= depth)%nat -> narc_load depth (d ++ tail) = Ok n.
Proof. exact narc_roundtrip. Qed.
Print Assumptions C12_roundtrip.
Theorem C12_save_succeeds : forall n, tree_ok (nFilenames n) -> folder_count (nFilenames n) <= 4096 ->
  47 + 8 * zlen (nFiles n) + table_size (nFilenames n) + fold_right (fun f a => (zlen f + 3) / 4 * 4 + a) 0 (nFiles n) < 2 ^ 32 ->
  exists d, narc_save n = Ok d.
Proof. exact narc_save_succeeds. Qed.
Print Assumptions C12_save_succeeds.
(** FAT entry [i] (at 0x1C + 8*i) delimits file [i] inside the saved data, on a 4-byte boundary; files do not overlap *)
Theorem C12_layout : forall n d, narc_save n = Ok d -> exists raw starts, raw mod 4 = 0 /\ length starts = length (nFiles n) /\
  raw + zlen (body (nFiles n)) = zlen d /\
  (forall i f, nth_error (nFiles n) i = Some f -> exists s, nth_error starts i = Some s /\
     unpack_u 4 d (0x1C + 8 * Z.of_nat i) = Ok s /\ unpack_u 4 d (0x1C + 8 * Z.of_nat i + 4) = Ok (s + zlen f) /\
     0 <= s /\ (raw + s) mod 4 = 0 /\ raw + s + zlen f <= zlen d /\ slice d (raw + s) (raw + s + zlen f) = f /\
     (forall j t, (i < j)%nat -> nth_error starts j = Some t -> s + zlen f <= t)).
Proof. exact narc_layout. Qed.
Print Assumptions C12_layout.
Theorem C12_bad_magic : forall depth d, 28 <= zlen d -> slice_to d 4 <> asc "NARC" -> narc_load depth d = Err ValueError.
Proof. exact narc_bad_magic. Qed.
Print Assumptions C12_bad_magic.
Definition ex_narc (e : endian) : narc :=
  {| nFilenames := Folder [(asc "d", Folder [] [asc "y"] 1)] [asc "x"] 0; nFiles := [[1; 2; 3; 4; 5]; []; [7]]; nEndian := e |}.
Example C12_ex : narc_save (ex_narc BE) =
    Ok (asc "NARC" ++ [0xFE; 0xFF; 0; 1; 108; 0; 0; 0; 16; 0; 3; 0] ++
        asc "BTAF" ++ [36; 0; 0; 0; 3; 0; 0; 0] ++ [0; 0; 0; 0; 5; 0; 0; 0; 8; 0; 0; 0; 8; 0; 0; 0; 8; 0; 0; 0; 9; 0; 0; 0] ++
        asc "BTNF" ++ [36; 0; 0; 0; 16; 0; 0; 0; 0; 0; 2; 0; 23; 0; 0; 0; 1; 0; 0; 0xF0; 1; 120; 0x81; 100; 1; 0xF0; 0; 1; 121; 0; 0xFF; 0xFF] ++
        asc "GMIF" ++ [20; 0; 0; 0] ++ [1; 2; 3; 4; 5; 0; 0; 0; 7; 0; 0; 0]) /\
  (d <- narc_save (ex_narc LE) ;; narc_load 2 d) = Ok (ex_narc LE) /\ (d <- narc_save (ex_narc BE) ;; narc_load 2 (d ++ [9])) = Ok (ex_narc BE) /\
  tree_ok (nFilenames (ex_narc LE)) /\ files_named (nFilenames (ex_narc LE)).
Proof.
  split; [vm_compute; reflexivity|]. split; [vm_compute; reflexivity|]. split; [vm_compute; reflexivity|].
  split; [apply tree_okb_ok; reflexivity|apply files_namedb_ok; reflexivity].
Qed.

(** ** C13 *)
Theorem C13_set_get : forall n name v n' fid, idOf (nFilenames n) name = Ok (Some fid) -> 0 <= fid -> setFileByName n name v = Ok n' ->
  nFilenames n' = nFilenames n /\ nEndian n' = nEndian n /\ length (nFiles n') = length (nFiles n) /\
  getFileByName n' name = Ok v /\
  (forall m fm, idOf (nFilenames n) m = Ok (Some fm) -> 0 <= fm -> fm <> fid -> getFileByName n' m = getFileByName n m).
Proof. exact set_get. Qed.
Print Assumptions C13_set_get.
Theorem C13_set_succeeds : forall n name v fid, idOf (nFilenames n) name = Ok (Some fid) -> 0 <= fid < zlen (nFiles n) ->
  exists n', setFileByName n name v = Ok n'.
Proof. exact set_succeeds. Qed.
Print Assumptions C13_set_succeeds.
Theorem C13_unknown_name : forall n name v, idOf (nFilenames n) name = Ok None ->
  getFileByName n name = Err ValueError /\ setFileByName n name v = Err ValueError.
Proof. exact unknown_name. Qed.
Print Assumptions C13_unknown_name.
(** any sequence of assignments: a name reads back the last value assigned to its ID, or the original *)
Theorem C13_history : forall ops n n' name fid, tree_ok (nFilenames n) -> idOf (nFilenames n) name = Ok (Some fid) -> set_all n ops = Ok n' ->
  nFilenames n' = nFilenames n /\ length (nFiles n') = length (nFiles n) /\
  getFileByName n' name = match last_for (nFilenames n) fid ops None with Some v => Ok v | None => getFileByName n name end.
Proof. exact set_all_get. Qed.
Print Assumptions C13_history.
Example C13_ex : getFileByName (ex_narc LE) (asc "x") = Ok [1; 2; 3; 4; 5] /\
  (n <- setFileByName (ex_narc LE) (asc "/d/y") [8; 9] ;; getFileByName n (asc "d/y")) = Ok [8; 9] /\
  (n <- setFileByName (ex_narc LE) (asc "/d/y") [8; 9] ;; getFileByName n (asc "x")) = Ok [1; 2; 3; 4; 5] /\
  setFileByName (ex_narc LE) (asc "zz") [8; 9] = Err ValueError /\
  (exists n', set_all (ex_narc LE) [(asc "x", [1]); (asc "d/y", [2]); (asc "x", [3])] = Ok n' /\ getFileByName n' (asc "x") = Ok [3]).
Proof. repeat (split; [vm_compute; reflexivity|]). eexists. split; vm_compute; reflexivity. Qed.

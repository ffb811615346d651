(** * Properties of filename tables (C09, C10, C11) *)
From Coq Require Import String.
From Verif Require Import PyBase PyLemmas CommonModel FntModel FntSpec FntLemmas FntSaveLemmas.

(** the tree used in the examples:  /a.bin, /b.bin, /sub/c.bin, /sub/deep/ (empty), /e/ (d.bin) *)
Definition ex_tree : folder :=
  Folder [(asc "sub", Folder [(asc "deep", Folder [] [] 0)] [asc "c.bin"] 12); (asc "e", Folder [] [asc "d.bin"] 13)]
         [asc "a.bin"; asc "b.bin"] 10.

(** ** C09 *)
Theorem C09_save_succeeds : forall r, tree_ok r -> folder_count r <= 4096 -> table_size r < 2 ^ 32 ->
  exists data, save r = Ok data /\ zlen data = table_size r.
Proof. exact save_ok_size. Qed.
Print Assumptions C09_save_succeeds.
Theorem C09_save_needs : forall r data, save r = Ok data -> tree_ok r /\ folder_count r <= 4096.
Proof. exact save_ok_tree. Qed.
Print Assumptions C09_save_needs.
(** [tail]: padding after the table is ignored *)
Theorem C09_roundtrip : forall r data tail depth, save r = Ok data -> files_named r -> (height r <= depth)%nat ->
  load depth (data ++ tail) = Ok r.
Proof. exact save_load_tail. Qed.
Print Assumptions C09_roundtrip.
Theorem C09_reload_stable : forall depth data r, is_bytes data -> load depth data = Ok r ->
  folder_count r <= 4096 -> table_size r < 2 ^ 32 -> exists d', save r = Ok d' /\ load depth d' = Ok r.
Proof. exact load_save_load. Qed.
Print Assumptions C09_reload_stable.
(** reading always ends (the only unbounded recursion is through subfolders, cut off by Python's limit) *)
Theorem C09_load_ends : forall depth data, is_bytes data -> load depth data <> Err OutOfFuel.
Proof. exact load_fuel. Qed.
Print Assumptions C09_load_ends.
(** the non-emptiness hypothesis of C09_roundtrip cannot be dropped *)
Theorem C09_empty_filename_truncates : exists r data, tree_ok r /\ save r = Ok data /\ load 5 data <> Ok r /\
  load 5 data = Ok (Folder [] [asc "a"] 0).
Proof. exact empty_filename. Qed.
Print Assumptions C09_empty_filename_truncates.
Example C09_ex :
  save ex_tree = Ok (le 4 32 ++ le 2 10 ++ le 2 4 ++ le 4 55 ++ le 2 12 ++ le 2 0xF000 ++ le 4 69 ++ le 2 0 ++ le 2 0xF001 ++
                     le 4 70 ++ le 2 13 ++ le 2 0xF000 ++
                     (5 :: asc "a.bin") ++ (5 :: asc "b.bin") ++ (0x83 :: asc "sub" ++ le 2 0xF001) ++ (0x81 :: asc "e" ++ le 2 0xF003) ++ [0] ++
                     (5 :: asc "c.bin") ++ (0x84 :: asc "deep" ++ le 2 0xF002) ++ [0] ++ [0] ++ (5 :: asc "d.bin") ++ [0]) /\
  height ex_tree = 3%nat /\ folder_count ex_tree = 4 /\ table_size ex_tree = 77 /\
  (d <- save ex_tree ;; load 3 d) = Ok ex_tree /\ (d <- save ex_tree ;; load 2 d) = Err RecursionError.
Proof. vm_compute. repeat split; reflexivity. Qed.
Example C09_ex_hyps : tree_ok ex_tree /\ files_named ex_tree.
Proof. exact (conj (tree_okb_ok ex_tree eq_refl) (files_namedb_ok ex_tree eq_refl)). Qed.

(** ** C10 *)
Theorem C10_long_names_rejected : forall r g n, folder_in g r -> (In n (fFiles g) \/ In n (map fst (fFolders g))) -> 127 < zlen n ->
  exists e, save r = Err e /\ (folder_count r <= 4096 -> e = ValueError \/ e = UnicodeError).
Proof. exact save_long. Qed.
Print Assumptions C10_long_names_rejected.
(** nothing is truncated: whatever is saved has all names within the limit and reads back unchanged
    (C09_save_needs, C09_roundtrip); and save fails only with these exceptions *)
Theorem C10_save_errors : forall r e, save r = Err e -> e = ValueError \/ e = UnicodeError \/ e = StructError.
Proof. exact save_errors. Qed.
Print Assumptions C10_save_errors.
Theorem C10_too_many_folders : forall r, 4096 < folder_count r -> exists e, save r = Err e.
Proof. exact save_too_many. Qed.
Print Assumptions C10_too_many_folders.
Example C10_ex : save (Folder [(asc "x", Folder [] [rep 65 128] 0)] [] 0) = Err ValueError /\
  save (Folder [(rep 65 128, Folder [] [] 0)] [] 0) = Err ValueError /\
  (exists d, save (Folder [(rep 65 127, Folder [] [rep 66 127] 0)] [] 0) = Ok d) /\
  save (Folder [] [[0x3042]] 0) = Err UnicodeError /\ save (Folder [] [asc "a"] 65536) = Err StructError.
Proof. vm_compute. repeat split; try reflexivity. eexists; reflexivity. Qed.

(** ** C11 *)
Theorem C11_filename_then_id : forall r id s, paths_ok r -> names_unique r -> filenameOf r id = Some s -> idOf r s = Ok (Some id).
Proof. exact filename_to_id. Qed.
Print Assumptions C11_filename_then_id.
Theorem C11_id_then_filename : forall r id s, ids_unique r -> idOf r s = Ok (Some id) ->
  exists a b n, s = repeat 47 a ++ n ++ repeat 47 b /\ filenameOf r id = Some n.
Proof. exact id_to_filename. Qed.
Print Assumptions C11_id_then_filename.
Theorem C11_filename_spec : forall r id s, filenameOf r id = Some s -> exists p, file_at r p id /\ s = join_slash p.
Proof. exact filename_spec. Qed.
Print Assumptions C11_filename_spec.
Theorem C11_filename_none : forall r id, filenameOf r id = None -> forall p, ~ file_at r p id.
Proof. exact filename_none. Qed.
Print Assumptions C11_filename_none.
Theorem C11_id_spec : forall r p id, p <> [] -> Forall path_name p -> names_unique r ->
  (idOf r (join_slash p) = Ok (Some id) <-> file_at r p id).
Proof. exact id_spec. Qed.
Print Assumptions C11_id_spec.
Theorem C11_subfolder_spec : forall r p g, p <> [] -> Forall path_name p -> names_unique r ->
  (subfolder r (join_slash p) = Ok (Some g) <-> dir_at r p g).
Proof. exact subfolder_spec. Qed.
Print Assumptions C11_subfolder_spec.
Theorem C11_compose : forall r g p q, p <> [] -> q <> [] -> Forall path_name p -> Forall path_name q ->
  subfolder r (join_slash p) = Ok (Some g) ->
  idOf r (join_slash p ++ 47 :: join_slash q) = idOf g (join_slash q) /\
  subfolder r (join_slash p ++ 47 :: join_slash q) = subfolder g (join_slash q).
Proof. exact lookup_compose. Qed.
Print Assumptions C11_compose.
Theorem C11_compose_none : forall r p q, p <> [] -> q <> [] -> Forall path_name p -> Forall path_name q ->
  subfolder r (join_slash p) = Ok None ->
  idOf r (join_slash p ++ 47 :: join_slash q) = Ok None /\ subfolder r (join_slash p ++ 47 :: join_slash q) = Ok None.
Proof. exact lookup_compose_none. Qed.
Print Assumptions C11_compose_none.
Theorem C11_slashes_ignored : forall r s a b,
  idOf r (repeat 47 a ++ s ++ repeat 47 b) = idOf r s /\ subfolder r (repeat 47 a ++ s ++ repeat 47 b) = subfolder r s.
Proof. exact (fun r s a b => conj (idOf_slashes r s a b) (subfolder_slashes r s a b)). Qed.
Print Assumptions C11_slashes_ignored.
Theorem C11_empty_path : forall r s, (forall c, In c s -> c = 47) -> idOf r s = Err IndexError /\ subfolder r s = Err IndexError.
Proof. exact empty_path. Qed.
Print Assumptions C11_empty_path.
Theorem C11_contains_id : forall r id, contains_int r id = true <-> exists p, file_at r p id.
Proof. exact contains_int_spec. Qed.
Print Assumptions C11_contains_id.
Theorem C11_contains_path : forall r p, p <> [] -> Forall path_name p -> names_unique r ->
  (contains_str r (join_slash p) = true <-> (exists id, file_at r p id) \/ (exists g, dir_at r p g)).
Proof. exact contains_str_spec. Qed.
Print Assumptions C11_contains_path.
(** [folder[key]]: the same answers, with KeyError for what is not there *)
Theorem C11_getitem_id : forall r id,
  (forall n, filenameOf r id = Some n -> getitem_int r id = Ok n) /\ ((forall p, ~ file_at r p id) -> getitem_int r id = Err KeyError).
Proof.
  intros r id. unfold getitem_int. split; [intros n ->; reflexivity|]. intros N. destruct (filenameOf r id) eqn:E; [|reflexivity].
  apply filename_spec in E as (p & F & _). destruct (N p F).
Qed.
Print Assumptions C11_getitem_id.
Theorem C11_getitem_path : forall r p, p <> [] -> Forall path_name p -> names_unique r ->
  (forall id, file_at r p id -> getitem_str r (join_slash p) = Ok (inl id)) /\
  (forall g, (forall id, ~ file_at r p id) -> dir_at r p g -> getitem_str r (join_slash p) = Ok (inr g)) /\
  ((forall id, ~ file_at r p id) -> (forall g, ~ dir_at r p g) -> getitem_str r (join_slash p) = Err KeyError).
Proof.
  intros r p N P U. unfold getitem_str, idOf, subfolder. rewrite pathParts_join by assumption. cbn [bind].
  destruct (idOf_find_total p r N) as [o EO]. destruct (subfolder_find_total p r N) as [s ES]. rewrite EO, ES. cbn [bind]. split; [|split].
  - intros id F. apply idOf_find_complete in F; [|assumption]. rewrite F in EO. injection EO as <-. reflexivity.
  - intros g NF D. destruct o as [id|]; [destruct (NF id); apply idOf_find_sound, EO|]. apply subfolder_find_complete in D; [|assumption]. rewrite D in ES. injection ES as <-. reflexivity.
  - intros NF ND. destruct o as [id|]; [destruct (NF id); apply idOf_find_sound, EO|]. destruct s as [g|]; [destruct (ND g); apply subfolder_find_sound, ES|]. reflexivity.
Qed.
Print Assumptions C11_getitem_path.
(** a key without a name, like "" or "/", is not a KeyError *)
Theorem C11_getitem_empty : forall r s, (forall c, In c s -> c = 47) -> getitem_str r s = Err IndexError.
Proof. intros r s H. unfold getitem_str. rewrite (proj1 (empty_path r s H)). reflexivity. Qed.
Print Assumptions C11_getitem_empty.
Example C11_getitem_ex : getitem_int ex_tree 12 = Ok (asc "sub/c.bin") /\ getitem_int ex_tree 14 = Err KeyError /\
  getitem_str ex_tree (asc "sub/c.bin") = Ok (inl 12) /\ getitem_str ex_tree (asc "sub/deep") = Ok (inr (Folder [] [] 0)) /\
  getitem_str ex_tree (asc "sub/nothing") = Err KeyError /\ getitem_str ex_tree (asc "/") = Err IndexError.
Proof. vm_compute. repeat split; reflexivity. Qed.
Example C11_ex : filenameOf ex_tree 12 = Some (asc "sub/c.bin") /\ idOf ex_tree (asc "sub/c.bin") = Ok (Some 12) /\
  idOf ex_tree (asc "//sub/c.bin/") = Ok (Some 12) /\ idOf ex_tree (asc "b.bin") = Ok (Some 11) /\
  subfolder ex_tree (asc "sub/deep") = Ok (Some (Folder [] [] 0)) /\ idOf ex_tree (asc "sub") = Ok None /\
  filenameOf ex_tree 14 = None /\ contains_str ex_tree (asc "sub") = true /\ contains_str ex_tree (asc "") = false.
Proof. vm_compute. repeat split; reflexivity. Qed.
Example C11_ex_hyps : paths_ok ex_tree /\ names_unique ex_tree /\ ids_unique ex_tree /\
  file_at ex_tree [asc "sub"; asc "c.bin"] 12 /\ dir_at ex_tree [asc "sub"; asc "deep"] (Folder [] [] 0).
Proof.
  split; [apply paths_okb_ok; reflexivity|]. split; [apply names_uniqueb_ok; vm_compute; reflexivity|].
  split; [apply ids_uniqueb_ok; vm_compute; reflexivity|]. split.
  - eapply fat_below; [left; reflexivity|]. exact (fat_here (Folder [(asc "deep", Folder [] [] 0)] [asc "c.bin"] 12) (asc "c.bin") 0%nat eq_refl).
  - eapply dat_below; [left; reflexivity|]. apply dat_here. left; reflexivity.
Qed.

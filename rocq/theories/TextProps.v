(** * Theorems about printing *)
From Coq Require Import String.
From Verif Require Import PyBase PyLemmas CommonModel FntModel FntSpec TextModel TextSpec TextLemmas.

(** ** C78: names of notes *)

(** every number of a note has a name, which in Helmholtz notation denotes that note *)
Theorem C78_note_name : forall value, exists s, noteName value = Ok s /\ helmholtz s = Some value.
Proof. exact note_back. Qed.
Print Assumptions C78_note_name.
(** hence different notes never share a name *)
Theorem C78_distinct : forall v w, noteName v = noteName w -> v = w.
Proof. intros v w E. destruct (note_back v) as (s & S & H), (note_back w) as (t & T & G). congruence. Qed.
Print Assumptions C78_distinct.
Example C78_ex : noteName 60 = Ok (asc "c'") /\ noteName 61 = Ok [99; 9839; 39] /\ noteName 48 = Ok (asc "c") /\ noteName 47 = Ok (asc "B")
  /\ noteName 0 = Ok [67; 885; 885; 885] /\ noteName 127 = Ok (asc "g''''''") /\ noteName (-1) = Ok [66; 885; 885; 885; 885].
Proof. repeat split. Qed.

(** ** C79: bytes shown as a literal *)

(** what is printed is a literal of the first [maxLen] bytes, with three dots after it when there are more *)
Theorem C79_short_bytes : forall data maxLen, is_bytes data -> 0 <= maxLen -> ~ In 39 (firstn (Z.to_nat maxLen) data) ->
  exists lit, shortBytesRepr data maxLen = Ok (lit ++ (if maxLen <? zlen data then asc "..." else [])) /\
              literal lit = Some (firstn (Z.to_nat maxLen) data).
Proof. exact short_repr. Qed.
Print Assumptions C79_short_bytes.
Example C79_ex : is_bytes [1; 50; 0; 65; 92; 10; 255; 7; 3] /\ ~ In 39 (firstn 8 [1; 50; 0; 65; 92; 10; 255; 7; 3]) /\
  shortBytesRepr [1; 50; 0; 65; 92; 10; 255; 7; 3] 8 = Ok (asc "b'\x012\0A\\\n\xff\7'...").
Proof. repeat split; try (unfold is_byte; lia); [repeat constructor; unfold is_byte; lia|cbn; lia]. Qed.
(** an apostrophe is not escaped, so that what is printed is then not a literal *)
Theorem C79_apostrophe_refuted : exists data, is_bytes data /\ shortBytesRepr data 16 = Ok (asc "b'''") /\ literal (asc "b'''") = None.
Proof. exists [39]. repeat split; try (repeat constructor; unfold is_byte; lia). Qed.
Print Assumptions C79_apostrophe_refuted.

(** ** C80: listings of folders *)

(** the lines are: for every file, its number and, indented by its depth, its name; for
    every folder, its first number and, indented, its name with a slash; and no others *)
Theorem C80_lines : forall indent f, nat_ids f -> exists L, strList indent None f = Ok L /\ zlen L = items f /\
  forall line, In line L <->
    (exists p id, file_at f p id /\ shows indent (zlen p - 1) id (last p []) line) \/
    (exists p g, dir_at f p g /\ shows indent (zlen p - 1) (fFirst g) (last p [] ++ [47]) line).
Proof.
  intros indent f N. exists (map fst (entries indent f)). split; [apply strList_plain|]. split; [rewrite zlen_map; apply zlen_entries|]. intros line. rewrite in_map_iff. split.
  - intros ([x [id|]] & <- & I); cbn [fst].
    + left. apply in_entries_file in I as (p & P & ->). exists p, id. split; [exact P|]. apply shows_iff; [eapply file_id_nat; eassumption|reflexivity].
    + right. apply in_entries_dir in I as (p & g & P & ->). exists p, g. split; [exact P|]. apply shows_iff; [eapply dir_id_nat; eassumption|reflexivity].
  - intros [(p & id & P & S)|(p & g & P & S)]; apply shows_iff in S.
    + exists (line, Some id). split; [reflexivity|]. apply in_entries_file. exists p. split; assumption.
    + eapply file_id_nat; eassumption.
    + exists (line, None). split; [reflexivity|]. apply in_entries_dir. exists p, g. split; assumption.
    + eapply dir_id_nat; eassumption.
Qed.
Print Assumptions C80_lines.
(** the printed text tells everything about a tree of ordinary names: two trees printed alike are the same *)
Theorem C80_tells_all : forall f g, printable_tree f -> printable_tree g -> one_line f -> one_line g -> nat_ids f -> nat_ids g ->
  fFirst f = fFirst g -> folder_str f = folder_str g -> f = g.
Proof.
  intros f g P P' O O' N N' FI E. unfold folder_str in E. rewrite !strList_plain in E. cbn [bind] in E. apply (f_equal (fun r => match r with Ok t => t | _ => [] end)) in E. apply join_inj in E; [|apply entries_clean; assumption..].
  apply (entries_inj f g 0 [] []); try assumption; try exact I; [lia|]. rewrite !app_nil_r. exact E.
Qed.
Print Assumptions C80_tells_all.
(** with the files at hand, the previews of those that exist begin in one column, four
    places to the right of the longest line; the other lines are as without them *)
Theorem C80_previews : forall indent fl f, nat_ids f -> exists P S col,
  strList indent None f = Ok P /\ strList indent (Some fl) f = Ok S /\
  (forall l, In l P -> zlen l + 4 <= col) /\ (P <> [] -> exists l, In l P /\ zlen l + 4 = col) /\
  zlen S = zlen P /\
  (forall p id data, file_at f p id -> nth_error fl (Z.to_nat id) = Some data ->
     exists l w, shows indent (zlen p - 1) id (last p []) l /\ shortBytesRepr data 16 = Ok w /\ In (l ++ spaces (col - zlen l) ++ w) S) /\
  (forall p id, file_at f p id -> zlen fl <= id -> exists l, shows indent (zlen p - 1) id (last p []) l /\ In l S) /\
  (forall p g, dir_at f p g -> exists l, shows indent (zlen p - 1) (fFirst g) (last p [] ++ [47]) l /\ In l S).
Proof.
  intros indent fl f N. destruct (strList_previews indent fl f N) as (U & M & F). exists (map fst (entries indent f)).
  unfold strList at 2. rewrite unc_eq, M. cbn [bind]. set (col := match U with [] => 4 | _ => fold_right Z.max 0 (map (fun e => zlen (fst e)) U) + 4 end). eexists _, col.
  split; [apply strList_plain|]. split; [reflexivity|]. rewrite <- F.
  assert (CE : col = match U with [] => 4 | _ => fold_right Z.max 0 (map zlen (map fst U)) + 4 end) by (unfold col; rewrite map_map; reflexivity).
  assert (COL : forall l, In l (map fst U) -> zlen l + 4 <= col).
  { intros l I. rewrite CE. destruct U as [|u U]; [destruct I|]. pose proof (max_ge (map zlen (map fst (u :: U))) (zlen l) (in_map zlen _ _ I)). lia. }
  split; [exact COL|]. split.
  { intros NE. rewrite CE. destruct U as [|u U]; [contradiction|]. pose proof (max_hit (map zlen (map fst (u :: U)))) as H. destruct (proj1 (in_map_iff _ _ _) (H ltac:(apply Forall_forall; intros z Z; apply in_map_iff in Z as (x & <- & _); apply zlen_nonneg) ltac:(discriminate))) as (l & E & I). exists l. split; [exact I|lia]. }
  split; [rewrite !zlen_map; reflexivity|].
  assert (G : forall e v, In e (entries indent f) -> with_preview (Some fl) e = Ok v -> In v U).
  { clear - M. revert U M. induction (entries indent f) as [|e l IH]; intros U M e' v [] W; cbn [mapM] in M.
    - subst e'. rewrite W in M. cbn [bind] in M. destruct (mapM _ l); [|discriminate]. injection M as <-. left. reflexivity.
    - destruct (with_preview (Some fl) e); [|discriminate]. cbn [bind] in M. destruct (mapM _ l); [|discriminate]. injection M as <-. right. eapply IH; [reflexivity|eassumption|exact W]. }
  split; [|split].
  - intros p id data P D. pose proof (file_id_nat f p id N P) as I0. destruct (short_total data 16 ltac:(lia)) as (w & W).
    eexists _, w. split; [apply shows_iff; [exact I0|reflexivity]|]. split; [exact W|]. set (l := fmt_04d id ++ _). apply in_map_iff. exists (l, Some w). split; [reflexivity|]. apply (G (l, Some id)); [apply in_entries_file; exists p; split; [exact P|reflexivity]|].
    unfold with_preview. cbn [snd fst preview_of]. assert (LT : (Z.to_nat id < length fl)%nat) by (apply nth_error_Some; congruence). replace (zlen fl <=? id) with false by (unfold zlen; lia). rewrite (PyLemmas.get_nth fl id data) by assumption. cbn [bind]. rewrite W. reflexivity.
  - intros p id P D. pose proof (file_id_nat f p id N P) as I0. eexists. split; [apply shows_iff; [exact I0|reflexivity]|]. set (l := fmt_04d id ++ _). apply in_map_iff. exists (l, None). split; [reflexivity|]. apply (G (l, Some id)); [apply in_entries_file; exists p; split; [exact P|reflexivity]|].
    unfold with_preview. cbn [snd fst preview_of]. replace (zlen fl <=? id) with true by lia. reflexivity.
  - intros p g P. pose proof (dir_id_nat f p g N P) as I0. eexists. split; [apply shows_iff; [exact I0|reflexivity]|]. set (l := fmt_04d (fFirst g) ++ _). apply in_map_iff. exists (l, None). split; [reflexivity|]. apply (G (l, None)); [apply in_entries_dir; exists p, g; split; [exact P|reflexivity]|]. reflexivity.
Qed.
Print Assumptions C80_previews.
(** a negative number, which only a program can set, is shown with a sign and at least
    three digits *)
Theorem C80_negative : forall indent name id, id < 0 -> exists d,
  strList indent None (Folder [] [name] id) = Ok [45 :: d ++ spaces (indent + 1) ++ name] /\
  Forall (fun c => 48 <= c < 58) d /\ undec d = - id /\ 3 <= zlen d /\ (zlen d = 3 \/ hd 0 d <> 48).
Proof.
  intros indent name id N. exists (rep 48 (3 - zlen (str_nat (- id))) ++ str_nat (- id)). set (n := - id) in *. assert (0 < n) by lia.
  pose proof (digits_chars (S (Z.to_nat (Z.log2 n))) n ltac:(lia)) as D. fold (str_nat n) in D. pose proof (zlen_nonneg (str_nat n)). split.
  - unfold strList. cbn [strListUncombined file_lines preview_of bind app map fst snd]. unfold fmt_04d. replace (id <? 0) with true by lia. fold n. cbn [app]. rewrite <- !app_assoc. reflexivity.
  - split; [apply Forall_app; split; [unfold rep; apply Forall_forall; intros c C; apply repeat_spec in C; subst c; lia|exact D]|].
    split; [rewrite undec_zeros; apply str_nat_value; lia|]. rewrite zlen_app. destruct (Z.leb_spec 3 (zlen (str_nat n))) as [L|L].
    + assert (R : rep 48 (3 - zlen (str_nat n)) = []) by (unfold rep; replace (Z.to_nat (3 - zlen (str_nat n))) with 0%nat by lia; reflexivity). rewrite R, zlen_nil. split; [lia|]. cbn [app]. right.
      destruct (digits_hd (S (Z.to_nat (Z.log2 n))) n) as (c & r & E & C); [split; [lia|apply fuel_enough; lia]|]. unfold str_nat. rewrite E. exact C.
    + rewrite zlen_rep by lia. lia.
Qed.
Print Assumptions C80_negative.
Example C80_negative_ex : strList 0 None (Folder [] [asc "a"; asc "b"] (-1)) = Ok [asc "-001 a"; asc "0000 b"].
Proof. reflexivity. Qed.
Definition C80_tree : folder := Folder [(asc "sub", Folder [] [asc "x.bin"; asc "y"] 2)] [asc "a.txt"; asc "b"] 0.
Ltac below3 H := inversion H as [|? ? ? I H1]; subst; [|cbn in I; destruct I as [[= <- <-]|[]]; inversion H1 as [|? ? ? I2 H2]; subst; [|destruct I2]].
Example C80_ex : nat_ids C80_tree /\ printable_tree C80_tree /\ one_line C80_tree /\
  strList 0 (Some [[104; 105]; repeat 0 20; []]) C80_tree =
    Ok [asc "0000 a.txt        b'hi'"; asc "0001 b            b'\0\0\0\0\0\0\0\0\0\0\0\0\0\0\0\0'..."; asc "0002 sub/"; asc "0002     x.bin    b''"; asc "0003     y"] /\
  folder_str C80_tree = Ok (asc "0000 a.txt" ++ [10] ++ asc "0001 b" ++ [10] ++ asc "0002 sub/" ++ [10] ++ asc "0002     x.bin" ++ [10] ++ asc "0003     y").
Proof.
  split; [intros g H; below3 H; cbn; lia|]. split; [intros g H; below3 H; (split; repeat constructor; cbn; try discriminate)|].
  split; [intros g H; below3 H; (split; repeat constructor; cbn; lia)|]. split; reflexivity.
Qed.

(** ** C81: numbered lists *)

(** line [k] shows the number [k] in brackets, right-justified, and the item, and all items begin in the same column *)
Theorem C81_enumerated : forall items indent, 0 <= indent ->
  zlen (enumeratedListOfStrs items indent) = zlen items /\
  exists w, forall k x, nth_error items k = Some x -> exists pad d,
    nth_error (enumeratedListOfStrs items indent) k = Some (spaces indent ++ [91] ++ spaces pad ++ d ++ [93; 32] ++ x) /\
    Forall (fun c => 48 <= c < 58) d /\ undec d = Z.of_nat k /\ 0 <= pad /\ pad + zlen d = w.
Proof.
  intros items indent I. split; [unfold enumeratedListOfStrs; rewrite zlen_map; unfold zlen; rewrite combine_range_len; reflexivity|].
  exists (zlen (str_nat (zlen items - 1))). intros k x E. exact (enumerated items indent k x I E).
Qed.
Print Assumptions C81_enumerated.
Example C81_ex : enumeratedListOfStrs (repeat (asc "x") 9 ++ [asc "abc"; asc "d"]) 2 =
  [asc "  [ 0] x"; asc "  [ 1] x"; asc "  [ 2] x"; asc "  [ 3] x"; asc "  [ 4] x"; asc "  [ 5] x"; asc "  [ 6] x"; asc "  [ 7] x"; asc "  [ 8] x"; asc "  [ 9] abc"; asc "  [10] d"].
Proof. vm_compute. reflexivity. Qed.

(** ** C24: names of alignments *)

(** two alignments have the same name exactly when they place every rectangle alike *)
Theorem C24_alignment_name : forall a b, getAlignmentName a = getAlignmentName b <->
  forall x y w h, getTopLeftOfAlignedRect x y w h a = getTopLeftOfAlignedRect x y w h b.
Proof.
  intros a b. unfold getAlignmentName, getTopLeftOfAlignedRect.
  destruct (Z.land a A_HCENTER =? 0), (Z.land a A_RIGHT =? 0), (Z.land a A_VCENTER =? 0), (Z.land a A_BOTTOM =? 0),
    (Z.land b A_HCENTER =? 0), (Z.land b A_RIGHT =? 0), (Z.land b A_VCENTER =? 0), (Z.land b A_BOTTOM =? 0); cbn [negb];
  (split; [intros E; first [discriminate E|intros; reflexivity]|intros E; first [reflexivity|exfalso; specialize (E 0 0 3 3); discriminate E]]).
Qed.
Print Assumptions C24_alignment_name.
Example C24_ex_name : getAlignmentName 0x11 = asc "top-left" /\ getAlignmentName 0x44 = asc "center" /\ getAlignmentName 0x22 = asc "bottom-right"
  /\ getAlignmentName 0x41 = asc "center-left".
Proof. repeat split. Qed.

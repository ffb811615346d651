(** * ROMs and archives that were read: what saving them needs (for C119) *)
From Verif Require Import PyBase PyLemmas PyTac FntModel FntSpec FntLemmas LzModel CodeModel RomModel RomSpec RomEditSpec NarcModel ViewSpec ViewLemmas ViewRom ViewProps ViewFilesProps RomHeader RomBody RomLoad RomResave RomProps NarcLemmas NarcProps RomEditLemmas RomEditProps RomViewSpec RomView RomViewProps EditSpec EditBytes.

Definition named_folder (g : folder) : Prop := tree_ok g /\ files_named g.
Lemma named_folder_intro fo fi x : Forall name_ok fi -> Forall (fun n => n <> []) fi -> Forall (fun p => name_ok (fst p) /\ named_folder (snd p)) fo -> 0 <= x < 65536 -> named_folder (Folder fo fi x).
Proof.
  intros A B C X. rewrite Forall_forall in C. split.
  - intros g G. inversion G as [|r n f I G']; subst; [|apply (proj2 (C _ I)); exact G']. split; [exact A|]. split; [|exact X]. apply Forall_forall. intros p P. apply C. exact P.
  - intros g G. inversion G as [|r n f I G']; subst; [exact B|apply (proj2 (C _ I)); exact G'].
Qed.
Lemma part_name t o n : is_bytes t -> 0 <= n <= 127 -> name_ok (part t o n).
Proof. intros B N. split; [unfold part, zlen; rewrite firstn_length; lia|apply is_bytes_part; exact B]. Qed.
Lemma read_named t : is_bytes t -> (forall n g, denotes t n g -> named_folder g) /\
  (forall o fo fi, entries t o fo fi -> o < zlen t /\ Forall name_ok fi /\ Forall (fun n => n <> []) fi /\ Forall (fun p => name_ok (fst p) /\ named_folder (snd p)) fo).
Proof.
  intros B. apply (denotes_mutind t (fun n g _ => named_folder g) (fun o fo fi _ => o < zlen t /\ Forall name_ok fi /\ Forall (fun n => n <> []) fi /\ Forall (fun p => name_ok (fst p) /\ named_folder (snd p)) fo)).
  - intros n fo fi N L _ (_ & A1 & A2 & A3). apply named_folder_intro; try assumption. apply half_range; [exact B|lia|lia].
  - intros o O _. split; [lia|]. repeat split; constructor.
  - intros o fo fi O N _ (L & A1 & A2 & A3). split; [lia|]. split; [constructor; [apply part_name; [exact B|lia]|exact A1]|]. split; [|exact A3]. constructor; [|exact A2].
    intros E. apply (f_equal zlen) in E. rewrite zlen_part in E by lia. change (zlen (@nil Z)) with 0 in E. lia.
  - intros o len g fo fi O E N L _ G _ (_ & A1 & A2 & A3). split; [lia|]. split; [exact A1|]. split; [exact A2|]. constructor; [|exact A3]. split; [apply part_name; [exact B|cbn; lia]|exact G].
Qed.
Lemma entries_height rec t k n : (forall id g, rec id = Ok g -> (height g <= k)%nat) -> forall off fo fi l files, loadEntries rec t n off fo fi = Ok (l, files) ->
  Forall (fun p => (height (snd p) <= k)%nat) fo -> Forall (fun p => (height (snd p) <= k)%nat) l.
Proof.
  intros R. induction n as [|n IH]; intros off fo fi l files H F; cbn [loadEntries] in H; [discriminate|]. apply bind_ok in H as (c & _ & H). cbv zeta in H. destruct (c =? 0); [injection H as <- <-; exact F|].
  destruct (negb _); [|apply IH in H; assumption]. apply bind_ok in H as (s & _ & H). apply bind_ok in H as (g & G & H). apply IH in H; [exact H|]. apply Forall_app. split; [exact F|]. constructor; [exact (R _ _ G)|constructor].
Qed.
Lemma load_height t : forall depth id g, loadFolder depth t id = Ok g -> (height g <= depth)%nat.
Proof.
  induction depth as [|k IH]; intros id g H; cbn [loadFolder] in H; [discriminate|]. apply bind_ok in H as (o & _ & H). apply bind_ok in H as (i & _ & H). apply bind_ok in H as ([l fs] & E & H). injection H as <-.
  apply (entries_height _ _ k) in E; [|exact IH|constructor]. cbn [height]. apply le_n_S. clear - E. induction E as [|p l P _ IHl]; cbn [map fold_right]; lia.
Qed.

Lemma skip_both {A} a : forall b (l : list A), skipn (a + b) l = skipn b (skipn a l).
Proof. induction a as [|a IH]; intros b l; [reflexivity|]. destruct l as [|x l]; cbn [Nat.add skipn]; [rewrite skipn_nil; reflexivity|apply IH]. Qed.
Section Loaded.
  Context (depth : nat) (d : bytes) (r : rom) (B : is_bytes d) (L : 0x200 <= zlen d) (H : rom_load depth d = Ok r).
  Lemma loaded_names : tree_ok (filenames r) /\ files_named (filenames r).
  Proof.
    destruct (C102_names depth d r B L H) as [(_ & ->)|(_ & D)]; [apply named_folder_intro; [constructor|constructor|constructor|lia]|].
    apply (proj1 (read_named (fnt_part d) ltac:(apply is_bytes_part; exact B)) _ _ D).
  Qed.
  Lemma loaded_post : zlen (arm9PostData r) mod 12 = 0 -> post_blocks (arm9PostData r).
  Proof.
    intros M. destruct (C102_parts depth d r B L H) as (_ & _ & _ & _ & _ & _ & (k & E & A & _)). pose proof (word_range d 0x20 B ltac:(lia) ltac:(lia)) as W1. pose proof (word_range d 0x2C B ltac:(lia) ltac:(lia)) as W2.
    set (o := word d 0x20 + word d 0x2C) in *. assert (O : 0 <= o) by (unfold o; lia). clearbody o. clear W1 W2.
    assert (F : o + 12 * Z.of_nat k <= zlen d \/ k = 0%nat).
    { destruct k as [|k]; [right; reflexivity|left]. pose proof (A k ltac:(lia)) as M4. apply (f_equal zlen) in M4. unfold part in M4. unfold zlen in M4 at 1. rewrite firstn_length, skipn_length in M4. change (zlen magic) with 4 in M4.
      rewrite E in M. unfold part in M. unfold zlen in M. rewrite firstn_length, skipn_length in M. unfold zlen. 
      assert (Q : Z.of_nat (Nat.min (Z.to_nat (12 * Z.of_nat (S k))) (length d - Z.to_nat o)) > 12 * Z.of_nat k) by lia.
      set (x := Z.of_nat (Nat.min _ _)) in *. assert (x <= 12 * Z.of_nat (S k)) by lia. pose proof (Z.div_mod x 12 ltac:(lia)). assert (x = 12 * Z.of_nat (S k)) by lia. lia. }
    destruct F as [F|F]; [|rewrite E, F; constructor]. rewrite E. clear E M. revert o O A F. induction k as [|k IH]; intros o O A F; [constructor|].
    replace (part d o (12 * Z.of_nat (S k))) with (magic ++ part d (o + 4) 8 ++ part d (o + 12) (12 * Z.of_nat k)).
    - constructor; [apply zlen_part; lia|]. apply IH; [lia| |lia]. intros i I. specialize (A (S i) ltac:(lia)). rewrite <- A. f_equal. lia.
    - specialize (A 0%nat ltac:(lia)). rewrite <- A. replace (o + 12 * Z.of_nat 0) with o by lia. unfold part. replace (Z.to_nat (o + 4)) with (Z.to_nat o + 4)%nat by lia. replace (Z.to_nat (o + 12)) with (Z.to_nat o + 12)%nat by lia.
      replace (Z.to_nat (12 * Z.of_nat (S k))) with (4 + (8 + Z.to_nat (12 * Z.of_nat k)))%nat by lia. change (Z.to_nat 4) with 4%nat. change (Z.to_nat 8) with 8%nat.
      assert (FA : forall a b (l : list Z), firstn (a + b) l = firstn a l ++ firstn b (skipn a l)) by (intros a; induction a as [|a IHa]; intros b l; [reflexivity|destruct l as [|x l]; cbn [Nat.add firstn skipn app]; [rewrite firstn_nil; reflexivity|rewrite IHa; reflexivity]]).
      rewrite !skip_both. set (s := skipn (Z.to_nat o) d).
      rewrite (FA 4%nat), (FA 8%nat). do 2 f_equal. change 12%nat with (4 + 8)%nat. f_equal. clear. revert s. intros s. destruct s as [|? [|? [|? [|? s]]]]; reflexivity.
  Qed.
  Lemma loaded_parts : byte_parts r.
  Proof.
    pose proof H as H'. destruct (rom_view depth d B L) as (post & order & T & _ & E). rewrite E in H'. apply bind_ok in H' as (ban & N & H'). apply bind_ok in H' as (names & _ & H'). apply SeqRead.ok_inj in H'. rewrite <- H'. clear H' E.
    unfold byte_parts. cbn [viewed name idCode developerCode secureAreaDisable pad088 nintendoLogo pad16C pad200 rsaSignature arm9 arm9PostData arm7 arm9OverlayTable arm7OverlayTable iconBanner debugRom files].
    assert (P : forall o n, is_bytes (part d o n)) by (intros o n; apply is_bytes_part; exact B). apply Forall_app. split.
    - repeat (apply Forall_cons; [first [apply P|destruct (_ =? 0); [constructor|apply P]|idtac]|]); [..|constructor].
      + destruct (rstrip_split (part d 0 12)) as (k & Q & _). pose proof (P 0 12) as P0. rewrite Q in P0. apply Forall_app in P0. apply P0.
      + destruct T as (k & -> & _). apply P.
      + unfold banner_res in N. destruct (_ =? 0); [injection N as <-; constructor|]. apply bind_ok in N as (v & _ & N). injection N as <-. apply is_bytes_slice. exact B.
    - apply Forall_forall. intros f F. apply in_map_iff in F as (i & <- & _). apply P.
  Qed.
  Lemma loaded_height : (1 <= depth)%nat -> (height (filenames r) <= depth)%nat.
  Proof.
    intros D. pose proof H as H'. destruct (rom_view depth d B L) as (post & order & _ & _ & E). rewrite E in H'. apply bind_ok in H' as (ban & _ & H'). apply bind_ok in H' as (names & N & H'). injection H' as <-.
    cbn [viewed filenames]. unfold names_res in N. destruct (fnt_of d) as [|x l]; [injection N as <-; cbn; exact D|]. exact (load_height _ _ _ _ N).
  Qed.
End Loaded.

Lemma upd_bytes l n v : Forall (fun b : bytes => is_bytes b) l -> is_bytes v -> Forall (fun b : bytes => is_bytes b) (upd l n v).
Proof. intros F V. revert n. induction F as [|x l X F IH]; intros [|n]; cbn [upd]; constructor; try assumption. apply IH. Qed.
Definition on_paths (ops : list (list (list Z) * bytes)) : list (list Z * bytes) := map (fun x => (join_slash (fst x), snd x)) ops.
Definition good_op (x : list (list Z) * bytes) : Prop := writable_path (fst x) /\ is_bytes (snd x).
Section Edit.
  Context (t : bytes) (names : folder) (N : forall p, p <> [] -> forall id, idOf_find p names = Ok (Some id) <-> found t 0 p id) (P : forall p id, found t 0 p id -> 0 <= id).
  Lemma path_id p : writable_path p -> (exists id, idOf names (join_slash p) = Ok (Some id) /\ found t 0 p id /\ 0 <= id) \/ (idOf names (join_slash p) = Ok None /\ forall id, ~ found t 0 p id).
  Proof.
    intros W. pose proof (path_nonempty p W) as Q. unfold idOf. rewrite (parts_of_path p W). cbn [bind]. destruct (idOf_find_total p names Q) as ([id|] & O); rewrite O.
    - left. exists id. apply (N p Q) in O. split; [reflexivity|]. split; [exact O|exact (P _ _ O)].
    - right. split; [reflexivity|]. intros id F. apply (N p Q) in F. congruence.
  Qed.
  Lemma narc_edits ops : forall n f, Forall good_op ops -> nFilenames n = names -> (forall i, 0 <= i < zlen (nFiles n) -> get (nFiles n) i = Ok (f i)) ->
    (forall n', set_all n (on_paths ops) = Ok n' -> exists g, edits t (fun i => i < zlen (nFiles n)) f ops g /\ nFilenames n' = names /\ nEndian n' = nEndian n /\ zlen (nFiles n') = zlen (nFiles n) /\
       (forall i, 0 <= i < zlen (nFiles n) -> get (nFiles n') i = Ok (g i)) /\ (Forall (fun b : bytes => is_bytes b) (nFiles n) -> Forall (fun b : bytes => is_bytes b) (nFiles n'))) /\
    (forall g, edits t (fun i => i < zlen (nFiles n)) f ops g -> exists n', set_all n (on_paths ops) = Ok n').
  Proof.
    induction ops as [|[p v] ops IH]; intros n f G E F.
    - split; [|intros g _; exists n; reflexivity]. intros n' H. unfold set_all, on_paths in H. cbn [map foldM] in H. injection H as <-. exists f. split; [constructor|]. split; [exact E|]. split; [reflexivity|]. split; [reflexivity|]. split; [exact F|]. intros X; exact X.
    - inversion G as [|x l (W & V) G']; subst x l. cbn [fst snd] in W, V.
      assert (ST : forall id, found t 0 p id -> id < zlen (nFiles n) -> exists n1, setFileByName n (join_slash p) v = Ok n1 /\ nFilenames n1 = names /\ nEndian n1 = nEndian n /\ nFiles n1 = upd (nFiles n) (Z.to_nat id) v).
      { intros id I1 I2. pose proof (P _ _ I1) as I0. unfold setFileByName, narc_fid. rewrite E. unfold idOf. rewrite (parts_of_path p W). cbn [bind]. rewrite (proj2 (N p (path_nonempty p W) id) I1). cbn [bind]. unfold setl. cbv zeta.
        rewrite (proj2 (Z.ltb_ge id 0) I0). rewrite (proj2 (Z.ltb_ge id 0) I0). rewrite (proj2 (Z.leb_gt (zlen (nFiles n)) id) I2). cbn [orb bind]. eexists. split; [reflexivity|]. repeat split. }
      assert (LU : forall id, zlen (upd (nFiles n) id v) = zlen (nFiles n)) by (intros id; unfold zlen; rewrite length_upd; reflexivity).
      assert (GU : forall id, 0 <= id -> forall i, 0 <= i < zlen (nFiles n) -> get (upd (nFiles n) (Z.to_nat id) v) i = Ok (if i =? id then v else f i)).
      { intros id I0 i I. apply get_nth; [lia|]. destruct (Z.eqb_spec i id) as [->|D]; [apply nth_error_upd_same; unfold zlen in I; lia|]. rewrite nth_error_upd_other by lia. apply PyLemmas.get_inv; [lia|apply F; exact I]. }
      split.
      + intros n' H. unfold set_all, on_paths in H. cbn [map foldM fst snd] in H. apply bind_ok in H as (n1 & H1 & H).
        assert (X : exists id, found t 0 p id /\ id < zlen (nFiles n)).
        { unfold setFileByName, narc_fid in H1. rewrite E in H1. destruct (path_id p W) as [(id & O & I & I0)|(O & _)]; rewrite O in H1; cbn [bind] in H1; [|discriminate]. exists id. split; [exact I|].
          apply bind_ok in H1 as (l & S & _). unfold setl in S. cbv zeta in S. rewrite (proj2 (Z.ltb_ge id 0) I0) in S. destruct ((id <? 0) || (zlen (nFiles n) <=? id)) eqn:Q; [discriminate|]. lia. }
        destruct X as (id & I1 & I2). pose proof (P _ _ I1) as I0. destruct (ST id I1 I2) as (n2 & S1 & S2 & S3 & S4). rewrite H1 in S1. injection S1 as <-.
        destruct (IH n1 (fun i => if i =? id then v else f i) G' S2) as (A & _).
        { rewrite S4, LU. apply GU. exact I0. }
        destruct (A n' H) as (g & A1 & A2 & A3 & A4 & A5 & A6). rewrite S4, LU in A1, A4, A5. exists g. split; [apply (ed_file _ _ _ _ _ _ id); assumption|]. split; [exact A2|]. split; [congruence|]. split; [exact A4|]. split; [exact A5|]. intros FB. apply A6. rewrite S4. apply upd_bytes; assumption.
      + intros g D. inversion D as [|f' p' v' ops' id g' I1 I2 D' E1 E2 E3]; subst. destruct (ST id I1 I2) as (n1 & S1 & S2 & S3 & S4). unfold set_all, on_paths. cbn [map foldM fst snd]. rewrite S1. cbn [bind].
        destruct (IH n1 (fun i => if i =? id then v else f i) G') as (_ & A); [congruence|rewrite S4, LU; apply GU; exact (P _ _ I1)|]. rewrite S4, LU in A. destruct (A g D') as (n' & A'). exists n'. exact A'.
  Qed.
End Edit.
Lemma edits_ext t h1 h2 f ops g : (forall p id, found t 0 p id -> h1 id <-> h2 id) -> edits t h1 f ops g -> edits t h2 f ops g.
Proof. intros E. induction 1 as [f|f p v ops id g F Hh D IH]; [constructor|]. apply (ed_file _ _ _ _ _ _ id); [exact F|apply (E p id F); exact Hh|exact IH]. Qed.
Lemma rom_set_back ops : forall r n', set_all (as_narc r) ops = Ok n' -> exists r', rom_set_all r ops = Ok r'.
Proof.
  induction ops as [|[p v] ops IH]; intros r n' H; [exists r; reflexivity|]. unfold set_all in H. cbn [foldM fst snd] in H. apply bind_ok in H as (n1 & H1 & H).
  unfold rom_set_all. cbn [foldM fst snd]. unfold setFileByName, narc_fid in H1. cbn [as_narc nFilenames nFiles nEndian] in H1.
  assert (X : exists fs, rom_setFileByName r p v = Ok (set_files r fs) /\ as_narc (set_files r fs) = n1).
  { unfold rom_setFileByName. destruct (idOf (filenames r) p) as [[i|]|e]; [|discriminate|discriminate]. cbn [bind] in H1 |- *. destruct (setl (files r) i v) as [fs|e]; [|discriminate]. cbn [bind] in H1 |- *. exists fs. split; [reflexivity|]. apply SeqRead.ok_inj in H1. exact H1. }
  destruct X as (fs & -> & X). cbn [bind]. rewrite <- X in H. destruct (IH (set_files r fs) n' H) as (r' & R). exists r'. exact R.
Qed.
Lemma has_files depth d r : is_bytes d -> 0x200 <= zlen d -> rom_load depth d = Ok r -> forall i, i < zlen (files r) <-> has_file d i.
Proof.
  intros B L H i. destruct (C102_files depth d r B L H) as (N & _). unfold has_file. pose proof (Z.div_mod (zlen (fat_part d)) 8 ltac:(lia)). pose proof (Z.mod_pos_bound (zlen (fat_part d)) 8 ltac:(lia)). lia.
Qed.
Definition drop_third_of (l : list Z) : list Z := match l with a :: b :: _ :: r => a :: b :: r | _ => l end.
Lemma drop_third (a b : list Z) : a = b -> drop_third_of a = drop_third_of b.
Proof. apply f_equal. Qed.
Section RomEdit.
  Context (depth : nat) (d : bytes) (r : rom) (B : is_bytes d) (L : 0x200 <= zlen d) (H : rom_load depth d = Ok r).
  Lemma rom_edits ops : Forall good_op ops ->
    (forall r', rom_set_all r (on_paths ops) = Ok r' -> exists g, edits (fnt_part d) (has_file d) (rom_file d) ops g /\ r' = set_files r (files r') /\ zlen (files r') = zlen (files r) /\
       (forall i, 0 <= i -> has_file d i -> get (files r') i = Ok (g i)) /\ byte_parts r') /\
    (forall g, edits (fnt_part d) (has_file d) (rom_file d) ops g -> exists r', rom_set_all r (on_paths ops) = Ok r').
  Proof.
    intros G. pose proof (has_files depth d r B L H) as HF.
    destruct (narc_edits (fnt_part d) (filenames r) (name_found depth d r B L H) (name_nonneg depth d r B L H) ops (as_narc r) (rom_file d) G eq_refl) as (A1 & A2).
    { cbn [as_narc nFiles]. intros i I. apply (file_of depth d r B L H i); [lia|]. split; [apply HF; lia|reflexivity]. }
    cbn [as_narc nFiles nFilenames nEndian] in A1, A2. split.
    - intros r' R. apply rom_set_all_narc in R as (R & E). destruct (A1 (as_narc r') R) as (g & D & _ & _ & Z & F & Y). cbn [as_narc nFiles] in Z, F, Y. exists g.
      split; [apply (edits_ext _ (fun i => i < zlen (files r))); [intros p id _; apply HF|exact D]|]. split; [exact E|]. split; [exact Z|]. split; [intros i I0 I; apply F; split; [exact I0|apply HF; exact I]|].
      pose proof (loaded_parts depth d r B L H) as P. unfold byte_parts in *. apply Forall_app in P as (P1 & P2). rewrite E. apply Forall_app. split; [exact P1|]. cbn [set_files files]. apply Y. exact P2.
    - intros g D. destruct (A2 g) as (n' & N'); [apply (edits_ext _ (has_file d)); [intros p id _; symmetry; apply HF|exact D]|]. exact (rom_set_back _ _ _ N').
  Qed.
  Lemma same_name d' r2 : is_bytes d' -> 0x200 <= zlen d' -> rom_load depth d' = Ok r2 -> name r2 = name r -> part d' 0 12 = part d 0 12.
  Proof.
    intros B' L' H' E. destruct (C102_header depth d r B L H) as ((k & K & _) & _). destruct (C102_header depth d' r2 B' L' H') as ((k' & K' & _) & _). rewrite E in K'.
    rewrite K, K'. apply (f_equal zlen) in K, K'. rewrite zlen_part in K, K' by lia. rewrite zlen_app in K, K'. unfold zlen in K, K'. rewrite !repeat_length in *. do 2 f_equal. lia.
  Qed.
  Lemma rom_edited upd ops r' data r1 : Forall good_op ops -> (1 <= depth)%nat -> rom_set_all r (on_paths ops) = Ok r' -> rom_save upd r' = Ok (data, r1) ->
    zlen (arm9PostData r) mod 12 = 0 -> ~ RomSpec.stored data (word data 0x20 + zlen (arm9 r) + zlen (arm9PostData r)) magic ->
    exists g, edits (fnt_part d) (has_file d) (rom_file d) ops g /\ is_bytes data /\
      (forall p id, found (fnt_part data) 0 p id <-> found (fnt_part d) 0 p id) /\
      (forall i, 0 <= i -> (has_file data i <-> has_file d i) /\ (has_file d i -> rom_file data i = g i)) /\ kept_header d data /\ kept_code d data.
  Proof.
    intros G D1 S SV PM NM. destruct (rom_edits ops G) as (A & _). destruct (A r' S) as (g & D & E & Z & F & Y). exists g. split; [exact D|].
    pose proof (rom_bytes _ _ _ _ Y SV) as BD. split; [exact BD|].
    destruct (loaded_names depth d r B L H) as (_ & FN). pose proof (loaded_height depth d r B L H D1) as HH. pose proof (loaded_post depth d r B L H PM) as PB.
    destruct (C15_roundtrip upd r' data r1 depth SV) as (order & LD & _); [rewrite E; assumption..|]. destruct (rom_save_cap upd r' data r1 SV) as (cap & EC).
    assert (LL : 0x200 <= zlen data) by (destruct (C16_header upd r' data r1 SV) as (_ & Q & _); lia).
    set (r2 := reloaded r1 data order) in *. assert (RF : filenames r2 = filenames r) by (unfold r2; rewrite EC, E; reflexivity). assert (RG : files r2 = files r') by (unfold r2; rewrite EC; reflexivity).
    split; [|split; [|split]].
    - intros p id. split; intros I; pose proof (found_cons _ _ _ _ I) as N; [apply (name_found depth data r2 BD LL LD p N) in I; rewrite RF in I; apply (name_found depth d r B L H p N); exact I|].
      apply (name_found depth d r B L H p N) in I. apply (name_found depth data r2 BD LL LD p N). rewrite RF. exact I.
    - intros i I. pose proof (has_files depth data r2 BD LL LD i) as X1. pose proof (has_files depth d r B L H i) as X2. rewrite RG, Z in X1. split; [rewrite <- X1, <- X2; reflexivity|]. intros X. pose proof (F i I X) as Q. rewrite <- RG in Q. apply (file_of depth data r2 BD LL LD i I) in Q as (_ & ->). reflexivity.
    - pose proof (C102_header depth data r2 BD LL LD) as (_ & P1 & P2 & P3 & P4). pose proof (C102_header depth d r B L H) as (_ & Q1 & Q2 & Q3 & Q4).
      assert (N2 : name r2 = name r).
      { unfold r2. rewrite EC, E. cbn [reloaded set_capacity set_files name]. destruct (C102_header depth d r B L H) as ((k & K & LN) & _). pose proof (f_equal zlen K) as K'. rewrite zlen_part in K' by lia. rewrite zlen_app in K'. rewrite firstn_all2 by (unfold zlen in K'; lia). rewrite <- (app_nil_r (name r)) at 1. apply (rstrip_app_rep 0 (name r) 0). destruct (name r) as [|x l]; [left; reflexivity|right]. intros Q. apply LN. rewrite <- Q. clear. revert x. induction l as [|y l IH]; intros x; [reflexivity|]. cbn [last] in *. apply IH. }
      assert (X : [idCode r2; developerCode r2; secureAreaDisable r2; pad088 r2; nintendoLogo r2; pad16C r2] = [idCode r; developerCode r; secureAreaDisable r; pad088 r; nintendoLogo r; pad16C r]).
      { unfold r2. rewrite EC, E. cbn [reloaded set_capacity set_files idCode developerCode secureAreaDisable pad088 nintendoLogo pad16C].
        injection Q1 as _ _ SA _ _ _. assert (SL : length (secureAreaDisable r) = 8%nat) by (rewrite SA; pose proof (zlen_part d 0x78 8 ltac:(lia) ltac:(lia) ltac:(lia)) as ZP; unfold zlen in ZP; lia).
        rewrite firstn_app, SL, firstn_all2 by lia. change (firstn (8 - 8) (zeros 8)) with (zeros 0). change (zeros 0) with (@List.nil BinNums.Z). rewrite app_nil_r. reflexivity. }
      rewrite P1, Q1 in X. unfold kept_header. split.
      + cbn [map fst snd]. rewrite (same_name data r2 BD LL LD N2). f_equal. exact X.
      + split; [|split].
        * assert (X2 : [unitCode r2; encryptionSeedSelect r2; pad015 r2; pad016 r2; pad017 r2; pad018 r2; pad019 r2; pad01A r2; pad01B r2; pad01C r2; region r2; RomModel.version r2; autostart r2] = [unitCode r; encryptionSeedSelect r; pad015 r; pad016 r; pad017 r; pad018 r; pad019 r; pad01A r; pad01B r; pad01C r; region r; RomModel.version r; autostart r]) by (unfold r2; rewrite EC, E; reflexivity).
          apply drop_third in P2, Q2. cbn [map drop_third_of] in P2, Q2 |- *. congruence.
        * rewrite <- P3, <- Q3. unfold r2. rewrite EC, E. reflexivity.
        * rewrite <- P4, <- Q4. unfold r2. rewrite EC, E. reflexivity.
    - destruct (C102_parts depth data r2 BD LL LD) as (P1 & P2 & P3 & P4 & _). destruct (C102_parts depth d r B L H) as (Q1 & Q2 & Q3 & Q4 & _). unfold kept_code. cbn [map]. change (0x20 + 12) with 0x2C. change (0x30 + 12) with 0x3C. change (0x50 + 4) with 0x54. change (0x58 + 4) with 0x5C.
      rewrite <- P1, <- P2, <- P3, <- P4, <- Q1, <- Q2, <- Q3, <- Q4. unfold r2. rewrite EC, E. split; reflexivity.
  Qed.
End RomEdit.
Section NarcEdit.
  Context (depth : nat) (d : bytes) (n : narc) (B : is_bytes d) (H : narc_load depth d = Ok n).
  Lemma narc_denotes : denotes (narc_names d) 0 (nFilenames n).
  Proof. pose proof H as H'. apply C104_read in H' as (_ & _ & _ & N); [|exact B]. apply C103_any_depth in N; [exact N|apply is_bytes_part; exact B]. Qed.
  Lemma narc_count : zlen (nFiles n) = word d 0x18.
  Proof. pose proof H as H'. apply C104_read in H' as (S & _ & F & _); [|exact B]. pose proof (word_range d 0x18 B ltac:(lia) ltac:(unfold narc_shape in S; lia)). rewrite F. unfold zlen. rewrite map_length, seq_length. lia. Qed.
  Lemma narc_get i : 0 <= i < zlen (nFiles n) -> get (nFiles n) i = Ok (ViewSpec.narc_file d (Z.to_nat i)).
  Proof.
    intros I. pose proof narc_count as C. pose proof H as H'. apply C104_read in H' as (_ & _ & F & _); [|exact B]. apply get_nth; [lia|]. rewrite F, nth_error_map, (nth_error_nth' _ 0%nat), seq_nth by (rewrite ?seq_length; lia). reflexivity.
  Qed.
  Lemma narc_edited ops n' : Forall good_op ops -> set_all n (on_paths ops) = Ok n' ->
    exists g, edits (narc_names d) (fun i => i < word d 0x18) (fun i => ViewSpec.narc_file d (Z.to_nat i)) ops g /\
    forall data, narc_save n' = Ok data -> is_bytes data /\ narc_shape data /\
      (forall p id, found (narc_names data) 0 p id <-> found (narc_names d) 0 p id) /\
      word data 0x18 = word d 0x18 /\ (forall i, 0 <= i < word d 0x18 -> ViewSpec.narc_file data (Z.to_nat i) = g i) /\ (half data 4 = 0xFFFE <-> half d 4 = 0xFFFE).
  Proof.
    intros G S. pose proof narc_denotes as D. pose proof narc_count as C. assert (BT : is_bytes (narc_names d)) by (apply is_bytes_part; exact B).
    destruct (narc_edits (narc_names d) (nFilenames n) (fun p _ id => id_found (narc_names d) p 0 _ D id) (fun p id F => found_nonneg _ _ _ _ BT F _ D) ops n _ G eq_refl narc_get) as (A & _).
    destruct (A n' S) as (g & E & N1 & N2 & N3 & N4 & N5). rewrite C in *. exists g. split; [exact E|]. intros data SV.
    assert (FB : Forall (fun b : bytes => is_bytes b) (nFiles n)).
    { pose proof H as H'. apply C104_read in H' as (_ & _ & F & _); [|exact B]. rewrite F. apply Forall_forall. intros x X. apply in_map_iff in X as (i & <- & _). apply is_bytes_part. exact B. }
    pose proof (narc_bytes _ _ SV (N5 FB)) as BD. split; [exact BD|].
    assert (LD : narc_load depth data = Ok n').
    { rewrite <- (app_nil_r data). apply C12_roundtrip; [exact SV| |]; rewrite N1; [apply (proj1 (read_named (narc_names d) BT) _ _ D)|].
      pose proof H as H'. apply C104_read in H' as (_ & _ & _ & N); [|exact B]. exact (load_height _ _ _ _ N). }
    pose proof LD as LD'. apply C104_read in LD' as (SH & EN & FF & NN); [|exact BD]. split; [exact SH|]. 
    assert (W : 0 <= word data 0x18) by (pose proof (word_range data 0x18 BD ltac:(lia) ltac:(unfold narc_shape in SH; lia)); lia).
    assert (CD : word data 0x18 = word d 0x18) by (rewrite <- N3, FF; unfold zlen; rewrite map_length, seq_length; lia).
    split; [|split; [exact CD|split]].
    - intros p id. apply C103_any_depth in NN; [|apply is_bytes_part; exact BD]. fold (narc_names data) in NN. rewrite N1 in NN. rewrite <- (id_found _ p 0 _ NN id), <- (id_found _ p 0 _ D id). reflexivity.
    - intros i I. specialize (N4 i I). rewrite FF in N4. apply PyLemmas.get_inv in N4; [|lia]. rewrite nth_error_map, (nth_error_nth' _ 0%nat), seq_nth in N4 by (rewrite ?seq_length; lia). cbn [option_map Nat.add] in N4. congruence.
    - pose proof H as H'. apply C104_read in H' as (_ & EO & _); [|exact B]. rewrite N2, EO in EN. destruct (Z.eqb_spec (half d 4) 0xFFFE), (Z.eqb_spec (half data 4) 0xFFFE); try discriminate; tauto.
  Qed.
  Lemma narc_edits_ok ops : Forall good_op ops -> forall g, edits (narc_names d) (fun i => i < word d 0x18) (fun i => ViewSpec.narc_file d (Z.to_nat i)) ops g -> exists n', set_all n (on_paths ops) = Ok n'.
  Proof.
    intros G. pose proof narc_denotes as D. pose proof narc_count as C. assert (BT : is_bytes (narc_names d)) by (apply is_bytes_part; exact B).
    destruct (narc_edits (narc_names d) (nFilenames n) (fun p _ id => id_found (narc_names d) p 0 _ D id) (fun p id F => found_nonneg _ _ _ _ BT F _ D) ops n _ G eq_refl narc_get) as (_ & A). rewrite C in A. exact A.
  Qed.
End NarcEdit.

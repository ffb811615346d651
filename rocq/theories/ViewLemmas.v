(** * Lemmas for ViewProps: integers and parts of arbitrary files *)
From Verif Require Import PyBase PyLemmas PyTac CommonModel FntModel FntSpec FntSaveLemmas CodeModel RomModel RomSpec RomLoad LoadTotal ViewSpec.

Lemma slice_part (d : bytes) i j : 0 <= i -> 0 <= j -> slice d i j = part d i (j - i).
Proof.
  intros I J. unfold slice, part, clamp. rewrite (proj2 (Z.ltb_ge i 0)), (proj2 (Z.ltb_ge j 0)) by lia.
  destruct (Z.le_gt_cases (zlen d) i) as [H|H].
  - rewrite !(skipn_all2 d) by (unfold zlen in *; lia). rewrite !firstn_nil. reflexivity.
  - rewrite (Z.min_l i) by lia. destruct (Z.le_gt_cases j (zlen d)) as [K|K]; [rewrite Z.min_l by lia; reflexivity|].
    rewrite Z.min_r by lia. rewrite !firstn_all2; [reflexivity|rewrite skipn_length; unfold zlen in *; lia|rewrite skipn_length; unfold zlen in *; lia].
Qed.
Lemma slice_part0 (d : bytes) i n : 0 <= i -> 0 <= n -> slice d i (i + n) = part d i n.
Proof. intros I N. rewrite slice_part by lia. f_equal. lia. Qed.
Lemma slice_in {A} (d : list A) i j : 0 <= i -> 0 <= j -> slice d i j = firstn (Z.to_nat (j - i)) (skipn (Z.to_nat i) d).
Proof.
  intros I J. unfold slice, clamp. rewrite (proj2 (Z.ltb_ge i 0)), (proj2 (Z.ltb_ge j 0)) by lia.
  destruct (Z.le_gt_cases (zlen d) i) as [H|H].
  - rewrite !(skipn_all2 d) by (unfold zlen in *; lia). rewrite !firstn_nil. reflexivity.
  - rewrite (Z.min_l i) by lia. destruct (Z.le_gt_cases j (zlen d)) as [K|K]; [rewrite Z.min_l by lia; reflexivity|].
    rewrite Z.min_r by lia. rewrite !firstn_all2; [reflexivity|rewrite skipn_length; unfold zlen in *; lia|rewrite skipn_length; unfold zlen in *; lia].
Qed.
Lemma zlen_part d o n : 0 <= o -> 0 <= n -> o + n <= zlen d -> zlen (part d o n) = n.
Proof. intros. unfold part, zlen in *. rewrite firstn_length, skipn_length. lia. Qed.
Lemma zlen_part_min d o n : 0 <= o -> 0 <= n -> zlen (part d o n) = Z.max 0 (Z.min n (zlen d - o)).
Proof. intros. unfold part, zlen in *. rewrite firstn_length, skipn_length. lia. Qed.
Lemma part_part d o n i m : 0 <= o -> 0 <= n -> 0 <= i -> 0 <= m -> i + m <= n -> part (part d o n) i m = part d (o + i) m.
Proof.
  intros. unfold part. rewrite skipn_firstn_comm, firstn_firstn. rewrite skipn_skipn_. f_equal; [lia|]. f_equal. lia.
Qed.
(** ** integers *)
Lemma unpack_in n d o : 0 <= o -> o + Z.of_nat n <= zlen d -> unpack_u n d o = Ok (unle (part d o (Z.of_nat n))).
Proof. intros. unfold unpack_u, unpack_e. rewrite rd_slice by lia. cbn [bind dec]. rewrite slice_part0 by lia. reflexivity. Qed.
Lemma unpack_out n d o : 0 <= o -> zlen d < o + Z.of_nat n -> unpack_u n d o = Err StructError.
Proof. intros. unfold unpack_u, unpack_e, rd, struct_off. replace (o <? 0) with false by lia. replace (zlen d <? o + Z.of_nat n) with true by lia. reflexivity. Qed.
Lemma word_part d o : 0 <= o -> word d o = unle (part d o 4).
Proof. intros. unfold word. rewrite slice_part0 by lia. reflexivity. Qed.
Lemma half_part d o : 0 <= o -> half d o = unle (part d o 2).
Proof. intros. unfold half. rewrite slice_part0 by lia. reflexivity. Qed.
Lemma unpack_word d o : 0 <= o -> o + 4 <= zlen d -> unpack_u 4 d o = Ok (word d o).
Proof. intros. rewrite unpack_in, word_part by lia. reflexivity. Qed.
Lemma unpack_half d o : 0 <= o -> o + 2 <= zlen d -> unpack_u 2 d o = Ok (half d o).
Proof. intros. rewrite unpack_in, half_part by lia. reflexivity. Qed.
Lemma get_byte d o : 0 <= o < zlen d -> get d o = Ok (byte d o).
Proof.
  intros H. destruct (get_some d o H) as (x & E & N). rewrite E. f_equal. unfold byte. symmetry. apply nth_error_nth. exact N.
Qed.
Lemma skipn_byte d o : 0 <= o < zlen d -> skipn (Z.to_nat o) d = byte d o :: skipn (Datatypes.S (Z.to_nat o)) d.
Proof.
  intros H. unfold byte. assert (L : (Z.to_nat o < length d)%nat) by (unfold zlen in H; lia). clear H. revert L. generalize (Z.to_nat o). induction d as [|x d IH]; intros n L; [cbn in L; lia|].
  destruct n; [reflexivity|]. cbn [skipn nth]. apply IH. cbn in L. lia.
Qed.
Lemma unpack_byte d o : 0 <= o < zlen d -> unpack_u 1 d o = Ok (byte d o).
Proof. intros. rewrite unpack_in by lia. unfold part. rewrite skipn_byte by lia. change (Z.to_nat (Z.of_nat 1)) with 1%nat. cbn [firstn unle]. f_equal. lia. Qed.
Lemma word_range d o : is_bytes d -> 0 <= o -> o + 4 <= zlen d -> 0 <= word d o < 2 ^ 32.
Proof. intros B H L. exact (unpack_u_range 4 d o _ B (unpack_word d o H L)). Qed.
Lemma half_range d o : is_bytes d -> 0 <= o -> o + 2 <= zlen d -> 0 <= half d o < 65536.
Proof. intros B H L. exact (unpack_u_range 2 d o _ B (unpack_half d o H L)). Qed.
Lemma byte_range d o : is_bytes d -> 0 <= o < zlen d -> 0 <= byte d o < 256.
Proof. intros B H. exact (unpack_u_range 1 d o _ B (unpack_byte d o H)). Qed.
Lemma is_bytes_part d o n : is_bytes d -> is_bytes (part d o n).
Proof. intros B. unfold part. apply Forall_firstn_, Forall_skipn_. exact B. Qed.
Lemma word_in d o n i : 0 <= o -> 0 <= n -> 0 <= i -> i + 4 <= n -> word (part d o n) i = word d (o + i).
Proof. intros. rewrite !word_part, part_part by lia. reflexivity. Qed.

(** ** Filename tables *)
Lemma ctl c : 0 <= c < 256 -> Z.land c 0x7F = c mod 128 /\ ((Z.land c 0x80 =? 0) = (c <? 128)).
Proof.
  intros H. pose proof (sweep 256 (fun c => (Z.land c 0x7F =? c mod 128) && Bool.eqb (Z.land c 0x80 =? 0) (c <? 128)) ltac:(vm_compute; reflexivity) c H) as S.
  cbv beta in S. apply andb_prop in S as (S1 & S2). split; [lia|apply Bool.eqb_prop; exact S2].
Qed.
Lemma fid12 x : 0 <= x -> Z.land x 0xFFF = x mod 4096.
Proof. intros H. change 0xFFF with (Z.ones 12). rewrite Z.land_ones by lia. reflexivity. Qed.
Definition fid (x : Z) := x mod 4096.

Lemma entries_read data rec : is_bytes data -> forall n off fo fi l files, 0 <= off ->
  loadEntries rec data n off fo fi = Ok (l, files) -> (forall id g, 0 <= id < 65536 -> rec id = Ok g -> denotes data (fid id) g) ->
  exists l' files', l = fo ++ l' /\ files = fi ++ files' /\ entries data off l' files'.
Proof.
  intros B n. induction n as [|n IH]; intros off fo fi l files O H HR; cbn [loadEntries] in H; [discriminate|].
  apply bind_ok in H as (c & E & H). assert (L : off + 1 <= zlen data) by exact (unpack_u_lt _ _ _ _ O E). rewrite unpack_byte in E by lia. injection E as <-. cbv zeta in H.
  pose proof (byte_range data off B ltac:(lia)) as R. destruct (Z.eqb_spec (byte data off) 0) as [Z0|NZ].
  { injection H as <- <-. exists [], []. rewrite !app_nil_r. split; [reflexivity|]. split; [reflexivity|]. constructor; [lia|exact Z0]. }
  destruct (ctl _ R) as (C1 & C2). rewrite C1, C2 in H. clear C1 C2. destruct (Z.ltb_spec (byte data off) 128) as [F|D]; cbn [negb] in H.
  - rewrite Z.mod_small in H by lia. apply IH in H as (l' & fs' & -> & -> & EN); [|lia|exact HR]. exists l', (part data (off + 1) (byte data off) :: fs').
    split; [reflexivity|]. split; [rewrite <- app_assoc, slice_part0 by lia; reflexivity|]. constructor; [lia|lia|exact EN].
  - assert (M : byte data off mod 128 = byte data off - 128) by (rewrite <- (Z.mod_small (byte data off - 128) 128) by lia; rewrite <- (Z_mod_plus_full (byte data off - 128) 1 128); f_equal; lia).
    rewrite M in H. apply bind_ok in H as (s & E & H). apply bind_ok in H as (g & G & H). assert (L2 : off + 1 + (byte data off - 128) + 2 <= zlen data) by (apply (unpack_u_lt 2) in E; lia).
    rewrite unpack_half in E by lia. injection E as <-. apply HR in G; [|apply half_range; [exact B|lia|lia]].
    apply IH in H as (l' & fs' & -> & -> & EN); [|lia|exact HR]. exists ((part data (off + 1) (byte data off - 128), g) :: l'), fs'.
    split; [rewrite <- app_assoc, slice_part0 by lia; reflexivity|]. split; [reflexivity|]. apply en_dir; try lia; assumption.
Qed.
Lemma folder_read data depth : is_bytes data -> forall id g, 0 <= id -> loadFolder depth data id = Ok g -> denotes data (fid id) g.
Proof.
  intros B. induction depth as [|k IH]; intros id g I H; cbn [loadFolder] in H; [discriminate|]. rewrite fid12 in H by lia. cbv zeta in H. fold (fid id) in H.
  assert (RI : 0 <= fid id < 4096) by (apply Z.mod_pos_bound; lia).
  apply bind_ok in H as (o & E1 & H). apply bind_ok in H as (i & E2 & H). apply bind_ok in H as ([l fs] & E3 & H). injection H as <-.
  assert (L : 8 * fid id + 6 <= zlen data) by (apply (unpack_u_lt 2) in E2; lia). rewrite unpack_word in E1 by lia. rewrite unpack_half in E2 by lia. injection E1 as <-. injection E2 as <-.
  pose proof (word_range data (8 * fid id) B ltac:(lia) ltac:(lia)) as RW.
  apply entries_read in E3 as (l' & fs' & -> & -> & EN); [|exact B|lia|intros id' g' R; apply IH; lia]. constructor; [exact RI|exact L|exact EN].
Qed.
Lemma read_all data : is_bytes data ->
  (forall n g, denotes data n g -> exists depth, forall k, (depth <= k)%nat -> loadFolder k data n = Ok g) /\
  (forall o fo fi, entries data o fo fi -> 0 <= o /\ exists depth, forall k fuel a b, (depth <= k)%nat -> zlen data - o < Z.of_nat fuel ->
     loadEntries (loadFolder k data) data fuel o a b = Ok (a ++ fo, b ++ fi)).
Proof.
  intros B. apply (denotes_mutind data (fun n g _ => exists depth, forall k, (depth <= k)%nat -> loadFolder k data n = Ok g)
    (fun o fo fi _ => 0 <= o /\ exists depth, forall k fuel a b, (depth <= k)%nat -> zlen data - o < Z.of_nat fuel -> loadEntries (loadFolder k data) data fuel o a b = Ok (a ++ fo, b ++ fi))).
  - intros n fo fi N L _ (O & depth & IH). exists (S depth). intros [|k] K; [lia|]. cbn [loadFolder]. rewrite fid12, Z.mod_small by lia. cbv zeta.
    rewrite unpack_word, unpack_half by lia. cbn [bind]. rewrite IH by (unfold zlen in *; lia). reflexivity.
  - intros o R Z0. split; [lia|]. exists 0%nat. intros k [|fuel] a b K F; [lia|]. cbn [loadEntries]. rewrite unpack_byte, Z0 by lia. cbn [bind Z.eqb]. rewrite !app_nil_r. reflexivity.
  - intros o fo fi R C _ (O & depth & IH). split; [lia|]. exists depth. intros k [|fuel] a b K F; [lia|]. cbn [loadEntries]. rewrite unpack_byte by lia. cbn [bind]. cbv zeta.
    destruct (ctl (byte data o)) as (C1 & C2); [lia|]. rewrite C1, C2, Z.mod_small by lia. rewrite (proj2 (Z.eqb_neq (byte data o) 0)), (proj2 (Z.ltb_lt (byte data o) 128)) by lia. cbn [negb].
    rewrite IH by lia. rewrite slice_part0, <- app_assoc by lia. reflexivity.
  - intros o len g fo fi R C LL L _ (d1 & IH1) _ (O & d2 & IH2). split; [lia|]. exists (Nat.max d1 d2). intros k [|fuel] a b K F; [lia|]. cbn [loadEntries]. rewrite unpack_byte by lia. cbn [bind]. cbv zeta.
    destruct (ctl (byte data o)) as (C1 & C2); [lia|]. rewrite C1, C2. rewrite (proj2 (Z.eqb_neq (byte data o) 0)), (proj2 (Z.ltb_ge (byte data o) 128)) by lia. cbn [negb].
    assert (M : byte data o mod 128 = len) by (rewrite C, <- (Z_mod_plus_full (128 + len) (-1) 128), Z.mod_small; lia). rewrite M, unpack_half by lia. cbn [bind].
    pose proof (half_range data (o + 1 + len) B ltac:(lia) ltac:(lia)) as HR. rewrite <- folder_mask, fid12, IH1 by lia. cbn [bind]. rewrite IH2 by lia. rewrite slice_part0, <- app_assoc by lia. reflexivity.
Qed.
Lemma load_iff data depth : is_bytes data -> (4096 <= depth)%nat -> forall g, load depth data = Ok g <-> denotes data 0 g.
Proof.
  intros B D g. split.
  - intros H. apply (folder_read data depth B 0xF000 g); [lia|exact H].
  - intros H. destruct (proj1 (read_all data B) _ _ H) as (k & K). specialize (K (Nat.max k depth) ltac:(lia)). unfold load. rewrite <- folder_mask. change (Z.land 0xF000 0xFFF) with 0.
    assert (E : load (Nat.max k depth) data = load depth data) by (rewrite (load_limit data (Nat.max k depth)), (load_limit data depth) by lia; reflexivity). unfold load in E. rewrite <- (folder_mask data (Nat.max k depth)), <- (folder_mask data depth) in E. change (Z.land 0xF000 0xFFF) with 0 in E. rewrite <- E. exact K.
Qed.
(** ** endless tables *)
Lemma entries_endless data k : is_bytes data -> forall fuel o a b, 0 <= o -> loadEntries (loadFolder k data) data fuel o a b = Err RecursionError ->
  exists m, 0 <= m < 4096 /\ lists_from data m o /\ loadFolder k data m = Err RecursionError.
Proof.
  intros B. induction fuel as [|fuel IH]; intros o a b O H; cbn [loadEntries] in H; [discriminate|].
  destruct (unpack_u 1 data o) as [c|e] eqn:E; cbn [bind] in H; [|apply SeqTotal.unpack_u_err in E; subst; discriminate].
  assert (L : o + 1 <= zlen data) by exact (unpack_u_lt _ _ _ _ O E). rewrite unpack_byte in E by lia. injection E as <-. cbv zeta in H.
  pose proof (byte_range data o B ltac:(lia)) as R. destruct (Z.eqb_spec (byte data o) 0) as [Z0|NZ]; [discriminate|].
  destruct (ctl _ R) as (C1 & C2). rewrite C1, C2 in H. clear C1 C2. destruct (Z.ltb_spec (byte data o) 128) as [F|D]; cbn [negb] in H.
  - rewrite Z.mod_small in H by lia. apply IH in H as (m & M & LF & HM); [|lia]. exists m. split; [exact M|]. split; [|exact HM]. apply lf_file; [lia|lia|exact LF].
  - assert (M : byte data o mod 128 = byte data o - 128) by (rewrite <- (Z.mod_small (byte data o - 128) 128) by lia; rewrite <- (Z_mod_plus_full (byte data o - 128) 1 128); f_equal; lia).
    rewrite M in H. destruct (unpack_u 2 data (o + 1 + (byte data o - 128))) as [s|e] eqn:E; cbn [bind] in H; [|apply SeqTotal.unpack_u_err in E; subst; discriminate].
    assert (L2 : o + 1 + (byte data o - 128) + 2 <= zlen data) by (apply (unpack_u_lt 2) in E; lia).
    rewrite unpack_half in E by lia. injection E as <-. pose proof (half_range data (o + 1 + (byte data o - 128)) B ltac:(lia) ltac:(lia)) as HR.
    destruct (loadFolder k data (half data (o + 1 + (byte data o - 128)))) as [g|e] eqn:G; cbn [bind] in H.
    + apply IH in H as (m & RM & LF & HM); [|lia]. exists m. split; [exact RM|]. split; [|exact HM]. apply (lf_dir data m o (byte data o - 128)); try lia. exact LF.
    + injection H as ->. exists (half data (o + 1 + (byte data o - 128)) mod 4096). split; [apply Z.mod_pos_bound; lia|]. split; [apply (lf_here data _ o (byte data o - 128)); try lia; reflexivity|].
      rewrite <- folder_mask, fid12 in G by lia. exact G.
Qed.
Lemma folder_endless data k n : is_bytes data -> 0 <= n < 4096 -> loadFolder (S k) data n = Err RecursionError ->
  exists m, 0 <= m < 4096 /\ lists data n m /\ loadFolder k data m = Err RecursionError.
Proof.
  intros B N H. cbn [loadFolder] in H. rewrite fid12, Z.mod_small in H by lia. cbv zeta in H.
  destruct (unpack_u 4 data (8 * n)) as [o|e] eqn:E1; cbn [bind] in H; [|apply SeqTotal.unpack_u_err in E1; subst; discriminate].
  destruct (unpack_u 2 data (8 * n + 4)) as [i|e] eqn:E2; cbn [bind] in H; [|apply SeqTotal.unpack_u_err in E2; subst; discriminate].
  assert (L : 8 * n + 6 <= zlen data) by (apply (unpack_u_lt 2) in E2; lia). rewrite unpack_word in E1 by lia. injection E1 as <-.
  pose proof (word_range data (8 * n) B ltac:(lia) ltac:(lia)) as RW.
  destruct (loadEntries _ _ _ _ _ _) as [[? ?]|e] eqn:E3; cbn [bind] in H; [discriminate|]. injection H as ->.
  apply entries_endless in E3 as (m & M & LF & HM); [|exact B|lia]. exists m. split; [exact M|]. split; [split; assumption|exact HM].
Qed.
From Coq Require Import Relations.
Lemma chain_of data : is_bytes data -> forall k n, 0 <= n < 4096 -> loadFolder k data n = Err RecursionError ->
  exists l : list Z, length l = S k /\ Forall (fun m => 0 <= m < 4096) l /\ hd 0 l = n /\ Sorted.Sorted (lists data) l.
Proof.
  intros B. induction k as [|k IH]; intros n N H.
  - exists [n]. split; [reflexivity|]. split; [constructor; [lia|constructor]|]. split; [reflexivity|repeat constructor].
  - apply folder_endless in H as (m & M & L & H); [|exact B|exact N]. destruct (IH m M H) as (l & L1 & L2 & L3 & L4). exists (n :: l). split; [cbn; lia|]. split; [constructor; [lia|exact L2]|]. split; [reflexivity|].
    constructor; [exact L4|]. destruct l as [|m' l]; [discriminate|]. cbn [hd] in L3. subst m'. constructor. exact L.
Qed.
Lemma repeated (l : list Z) : ~ NoDup l -> exists a x b c, l = a ++ x :: b ++ x :: c.
Proof.
  induction l as [|x l IH]; intros H; [exfalso; apply H; constructor|]. destruct (in_dec Z.eq_dec x l) as [I|I].
  - apply in_split in I as (b & c & ->). exists [], x, b, c. reflexivity.
  - destruct IH as (a & y & b & c & ->); [intros N; apply H; constructor; assumption|]. exists (x :: a), y, b, c. reflexivity.
Qed.
Lemma sorted_path (R : Z -> Z -> Prop) : forall b x c y d, Sorted.Sorted R (x :: b ++ y :: c) -> d = y -> clos_trans Z R x d.
Proof.
  induction b as [|z b IH]; intros x c y d S ->; inversion S as [|? ? S1 S2]; subst; cbn [app] in *; inversion S2; subst.
  - apply t_step. assumption.
  - eapply t_trans; [apply t_step; eassumption|]. eapply IH; [exact S1|reflexivity].
Qed.
Lemma sorted_suffix (R : Z -> Z -> Prop) : forall a l, Sorted.Sorted R (a ++ l) -> Sorted.Sorted R l.
Proof. induction a as [|x a IH]; intros l H; [exact H|]. apply IH. inversion H; assumption. Qed.
Lemma t_rt (R : Z -> Z -> Prop) x y : clos_trans Z R x y -> clos_refl_trans Z R x y.
Proof. induction 1; [apply rt_step; assumption|eapply rt_trans; eassumption]. Qed.
Lemma endless_cycle data : is_bytes data -> load 4096 data = Err RecursionError ->
  exists n, clos_refl_trans Z (lists data) 0 n /\ clos_trans Z (lists data) n n.
Proof.
  intros B H. unfold load in H. rewrite <- folder_mask in H. change (Z.land 0xF000 0xFFF) with 0 in H.
  destruct (chain_of data B 4096 0 ltac:(lia) H) as (l & L1 & L2 & L3 & L4).
  assert (ND : ~ NoDup l).
  { intros ND. pose proof (NoDup_incl_length (l := l) (l' := map Z.of_nat (seq 0 4096)) ND) as X. rewrite map_length, seq_length in X.
    assert (incl l (map Z.of_nat (seq 0 4096))); [|specialize (X H0); lia]. intros z I. rewrite Forall_forall in L2. specialize (L2 z I). apply in_map_iff. exists (Z.to_nat z). split; [lia|]. apply in_seq. lia. }
  clear L1 L2 H. apply repeated in ND as (a & x & b & c & ->). exists x. split.
  - destruct a as [|y a]; [cbn [app hd] in L3; subst; apply rt_refl|]. cbn [app hd] in L3. subst y. apply t_rt. eapply sorted_path; [exact L4|reflexivity].
  - apply sorted_suffix in L4. eapply sorted_path; [exact L4|reflexivity].
Qed.
(** a folder that is described lists only described folders of smaller height *)
Lemma lists_below data : (forall n g, denotes data n g -> forall m, lists data n m -> exists g', denotes data m g' /\ (height g' < height g)%nat) /\
  (forall o fo fi, entries data o fo fi -> forall m, lists_from data m o -> exists x g', In (x, g') fo /\ denotes data m g').
Proof.
  apply (denotes_mutind data (fun n g _ => forall m, lists data n m -> exists g', denotes data m g' /\ (height g' < height g)%nat)
    (fun o fo fi _ => forall m, lists_from data m o -> exists x g', In (x, g') fo /\ denotes data m g')).
  - intros n fo fi N L _ IH m (_ & M). destruct (IH m M) as (x & g' & I & D). exists g'. split; [exact D|]. eapply height_below. exact I.
  - intros o R Z0 m M. inversion M; lia.
  - intros o fo fi R C _ IH m M. inversion M; try lia. subst. apply IH. assumption.
  - intros o len g fo fi R C LL L D _ _ IH m M. inversion M; [lia| |].
    + assert (len0 = len) by lia. subst. exists (part data (o + 1) len), g. split; [left; reflexivity|exact D].
    + assert (len0 = len) by lia. subst. destruct (IH m) as (x & g' & I & D'); [assumption|]. exists x, g'. split; [right; exact I|exact D'].
Qed.
Lemma below_rt data n m : clos_refl_trans Z (lists data) n m -> forall g, denotes data n g -> exists g', denotes data m g'.
Proof. induction 1 as [x y H|x|x y z _ IH1 _ IH2]; intros g D; [destruct (proj1 (lists_below data) _ _ D _ H) as (g' & D' & _); eauto|eauto|]. destruct (IH1 _ D) as (g' & D'). eauto. Qed.
Lemma below_t data n m : clos_trans Z (lists data) n m -> forall g, denotes data n g -> exists g', denotes data m g' /\ (height g' < height g)%nat.
Proof. induction 1 as [x y H|x y z _ IH1 _ IH2]; intros g D; [exact (proj1 (lists_below data) _ _ D _ H)|]. destruct (IH1 _ D) as (g' & D' & L). destruct (IH2 _ D') as (g2 & D2 & L2). exists g2. split; [exact D2|lia]. Qed.
Lemma denotes_fun data n g g' : is_bytes data -> denotes data n g -> denotes data n g' -> g = g'.
Proof.
  intros B D D'. destruct (proj1 (read_all data B) _ _ D) as (k & K). destruct (proj1 (read_all data B) _ _ D') as (k' & K').
  specialize (K (Nat.max k k') ltac:(lia)). specialize (K' (Nat.max k k') ltac:(lia)). congruence.
Qed.
Lemma cycle_fails data n : is_bytes data -> clos_refl_trans Z (lists data) 0 n -> clos_trans Z (lists data) n n -> forall g, ~ denotes data 0 g.
Proof.
  intros B R T g D. destruct (below_rt _ _ _ R _ D) as (g1 & D1). destruct (below_t _ _ _ T _ D1) as (g2 & D2 & L). rewrite (denotes_fun data n g1 g2 B D1 D2) in L. lia.
Qed.
Lemma rstrip_split l : exists k, l = rstrip 0 l ++ repeat 0 k /\ last (rstrip 0 l) 1 <> 0.
Proof.
  induction l as [|x l (k & E & N)]; [exists 0%nat; split; [reflexivity|discriminate]|]. cbn [rstrip]. destruct (rstrip 0 l) as [|y m] eqn:R.
  - cbn [app] in E. destruct (Z.eqb_spec x 0) as [->|X]; [exists (S k); cbn [repeat app]; rewrite <- E; split; [reflexivity|discriminate]|]. exists k. cbn [app last]. rewrite <- E. split; [reflexivity|exact X].
  - exists k. split; [cbn [app] in *; rewrite E at 1; reflexivity|]. exact N.
Qed.

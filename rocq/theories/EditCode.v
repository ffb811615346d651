(** * A ROM that was read and got other code, overlays or files (for C122) *)
From Coq Require Import Permutation Sorted.
From Verif Require Import PyBase PyLemmas PyTac FntModel FntSpec FntLemmas LzModel LzSpec LzLemmas Lz10Lemmas CodeLzLemmas CodeModel CodeLemmas CodeProps RomModel RomSpec RomEditSpec NarcModel ViewSpec ViewLzSpec ViewLz ViewLemmas ViewRom ViewProps ViewFilesProps RomHeader RomBody RomLoad RomResave RomProps NarcLemmas NarcProps RomEditLemmas RomEditProps RomViewSpec RomView RomViewProps EditSpec EditBytes EditView EditCodeSpec.

(** ** What is written consists of bytes *)
Lemma code_out_bytes data b c : is_bytes data -> code_compress data b = Ok c -> is_bytes c.
Proof.
  assert (G : forall x y, is_bytes x -> code_compress_body x = Ok y -> is_bytes y).
  { clear. intros data c B H. unfold code_compress_body in H.
    destruct (lz_compress_spec code_params code_params_ok (rev data)) as (bs & ignD & ignC & E & Ht & Hs & Hb). rewrite E in H. cbn [bind] in H.
    assert (BF : is_bytes (rev (stream_bytes code_params bs))) by (apply Forall_rev; eapply stream_is_bytes; [exact code_params_ok|apply Forall_rev; exact B|exact Hs|exact Ht]).
    set (cm := rev _) in *. clearbody cm. cbv zeta in H. destruct ((zlen cm =? 0) || _); [injection H as <-; apply app_bytes; [apply pad_bytes; [unfold is_byte; lia|exact B]|repeat constructor; unfold is_byte; lia]|].
    apply bind_ok in H as (w1 & W1 & H). apply bind_ok in H as (c4 & P4 & H). apply bind_ok in H as (c5 & P5 & H). apply bind_ok in H as (w2 & W2 & H).
    assert (PB : forall k, is_bytes (pad_to 4 0xFF (slice_to data ignD ++ slice_from cm k))).
    { intros k. apply pad_bytes; [unfold is_byte; lia|]. apply app_bytes; [unfold slice_to; apply is_bytes_slice; exact B|unfold slice_from; apply is_bytes_slice; exact BF]. }
    apply (put_bytes _ _ _ _) in H; [exact H| |exact (pack_u_bytes _ _ _ W2)]. apply put_bytes in P4; [|apply app_bytes; [apply PB|apply zeros_bytes]|exact (pack_u_bytes _ _ _ W1)].
    apply setl_inv in P5 as (_ & ->); [|pose proof (zlen_nonneg (pad_to 4 0xFF (slice_to data ignD ++ slice_from cm ignC))); lia].
    apply Forall_upd; [exact P4|]. unfold pad_to. rewrite zlen_app. set (z := zlen (slice_to data ignD ++ _)). unfold rep. unfold zlen at 1. rewrite repeat_length. pose proof (Z.mod_pos_bound (- z) 4 ltac:(lia)). unfold is_byte. lia. }
  intros B H. unfold code_compress in H. destruct b; [|exact (G _ _ B H)]. apply bind_ok in H as (y & Y & H). injection H as <-. apply app_bytes; [unfold slice_to; apply is_bytes_slice; exact B|]. apply (G (slice_from data 0x4000)); [unfold slice_from; apply is_bytes_slice; exact B|exact Y].
Qed.
Lemma table_bytes_out t d : saveOverlayTable t = Ok d -> is_bytes d.
Proof.
  intros H. unfold saveOverlayTable in H. apply bind_ok in H as (rows & M & H). injection H as <-. apply concat_bytes. revert rows M. generalize (sort_keys t). intros l. induction l as [|[i ov] l IH]; intros rows M; cbn [mapM] in M; [injection M as <-; constructor|].
  apply bind_ok in M as (x & X & M). apply bind_ok in M as (y & Y & M). injection M as <-. constructor; [exact (pack_us_bytes _ _ X)|exact (IH _ Y)].
Qed.
Lemma sections_bytes l rows : mapM save_sec l = Ok rows -> is_bytes (concat rows).
Proof.
  revert rows. induction l as [|s l IH]; intros rows M; cbn [mapM] in M; [injection M as <-; constructor|].
  apply bind_ok in M as (x & X & M). apply bind_ok in M as (y & Y & M). injection M as <-. cbn [concat]. apply app_bytes; [exact (pack_us_bytes _ _ X)|exact (IH _ Y)].
Qed.
Lemma setInt_bytes d a v r : is_bytes d -> setInt d a v = Ok r -> is_bytes r.
Proof. intros B H. unfold setInt in H. apply bind_ok in H as (w & W & H). exact (put_bytes _ _ _ _ B (pack_u_bytes _ _ _ W) H). Qed.
Lemma mcf_bytes m z c : Forall (fun s => is_bytes (sData s)) (mSections m) -> mcf_save m z = Ok c -> is_bytes c.
Proof.
  intros F H. unfold mcf_save in H. cbv zeta in H. apply bind_ok in H as (t1 & T1 & H). apply bind_ok in H as (t2 & T2 & H). apply bind_ok in H as (dat & D & H).
  set (body := fold_left _ _ _) in *.
  assert (BB : is_bytes body).
  { unfold body. clear - F. assert (G : forall l acc, Forall (fun s => is_bytes (sData s)) l -> is_bytes acc -> is_bytes (fold_left (fun d s => pad_to 4 0 (d ++ sData s)) l acc)).
    { induction l as [|s l IH]; intros acc FL A; [exact A|]. inversion FL; subst. cbn [fold_left]. apply IH; [assumption|]. apply pad_bytes; [unfold is_byte; lia|]. apply app_bytes; assumption. }
    apply G; [exact F|constructor]. }
  clearbody body. apply sections_bytes in T1, T2.
  assert (BD : is_bytes dat).
  { destruct (mCso m) as [cso|]; [|injection D as <-; apply app_bytes; [exact BB|apply app_bytes; assumption]].
    apply bind_ok in D as (d1 & D1 & D). apply bind_ok in D as (d2 & D2 & D). apply bind_ok in D as (s0 & _ & D). apply setInt_bytes in D; [exact D|]. apply setInt_bytes in D2; [exact D2|]. apply setInt_bytes in D1; [exact D1|].
    apply app_bytes; [exact BB|apply app_bytes; assumption]. }
  destruct z.
  - apply bind_ok in H as (c0 & C & H). apply code_out_bytes in C; [|exact BD]. destruct (mCso m); [|discriminate]. exact (setInt_bytes _ _ _ _ C H).
  - destruct (mCso m); [|discriminate]. exact (setInt_bytes _ _ _ _ BD H).
Qed.

(** ** The ROM *)
Section Rework.
  Context (depth : nat) (d : bytes) (r : rom) (B : is_bytes d) (L : 0x200 <= zlen d) (H : rom_load depth d = Ok r).
  Lemma rom_reworked upd a9 a7 t9 t7 fs data r1 : (1 <= depth)%nat -> Forall (fun b : bytes => is_bytes b) ([a9; a7; t9; t7] ++ fs) -> rom_save upd (with_code r a9 a7 t9 t7 fs) = Ok (data, r1) ->
    zlen (arm9PostData r) mod 12 = 0 -> ~ RomSpec.stored data (word data 0x20 + zlen a9 + zlen (arm9PostData r)) magic ->
    is_bytes data /\ reworked d data a9 a7 t9 t7 fs /\
    exists r2, rom_load depth data = Ok r2 /\ 0x200 <= zlen data /\ arm9 r2 = a9 /\ arm7 r2 = a7 /\ arm9OverlayTable r2 = t9 /\ arm7OverlayTable r2 = t7 /\ files r2 = fs /\
      arm9RamAddress r2 = arm9RamAddress r /\ arm7RamAddress r2 = arm7RamAddress r /\ arm9CodeSettings r2 = arm9CodeSettings r /\ arm7CodeSettings r2 = arm7CodeSettings r.
  Proof.
    intros D1 FB SV PM NM. pose proof (loaded_parts depth d r B L H) as BP. set (r' := with_code r a9 a7 t9 t7 fs) in *.
    assert (Y : byte_parts r').
    { unfold byte_parts in *. apply Forall_app in BP as (P1 & P2). apply Forall_app in FB as (F1 & F2). apply Forall_app. split; [|exact F2].
      repeat match goal with P : Forall _ (_ :: _) |- _ => apply Forall_cons_iff in P as (? & P) end. repeat (constructor; [assumption|]). constructor. }
    pose proof (rom_bytes _ _ _ _ Y SV) as BD. split; [exact BD|].
    destruct (loaded_names depth d r B L H) as (_ & FN). pose proof (loaded_height depth d r B L H D1) as HH. pose proof (loaded_post depth d r B L H PM) as PB.
    destruct (C15_roundtrip upd r' data r1 depth SV) as (order & LD & _); [assumption..|]. destruct (rom_save_cap upd r' data r1 SV) as (cap & EC).
    assert (LL : 0x200 <= zlen data) by (destruct (C16_header upd r' data r1 SV) as (_ & Q & _); lia).
    set (r2 := reloaded r1 data order) in *. assert (RF : filenames r2 = filenames r) by (unfold r2; rewrite EC; reflexivity). assert (RG : files r2 = fs) by (unfold r2; rewrite EC; reflexivity).
    split; [split|].
    - intros p id. split; intros I; pose proof (found_cons _ _ _ _ I) as N; [apply (name_found depth data r2 BD LL LD p N) in I; rewrite RF in I; apply (name_found depth d r B L H p N); exact I|].
      apply (name_found depth d r B L H p N) in I. apply (name_found depth data r2 BD LL LD p N). rewrite RF. exact I.
    - intros i I. pose proof (has_files depth data r2 BD LL LD i) as X1. rewrite RG in X1. rewrite X1. reflexivity.
    - intros i I. destruct (get_some fs i I) as (x & G & _). pose proof G as G'. rewrite <- RG in G'. apply (file_of depth data r2 BD LL LD i) in G' as (_ & ->); [|lia]. apply PyLemmas.get_inv in G; [exact G|lia].
    - pose proof (C102_header depth data r2 BD LL LD) as (_ & P1 & P2 & P3 & P4). pose proof (C102_header depth d r B L H) as (_ & Q1 & Q2 & Q3 & Q4).
      assert (N2 : name r2 = name r).
      { unfold r2. rewrite EC. cbn [reloaded set_capacity r' with_code name]. destruct (C102_header depth d r B L H) as ((k & K & LN) & _). pose proof (f_equal zlen K) as K'. rewrite zlen_part in K' by lia. rewrite zlen_app in K'. rewrite firstn_all2 by (unfold zlen in K'; lia). rewrite <- (app_nil_r (name r)) at 1. apply (rstrip_app_rep 0 (name r) 0). destruct (name r) as [|x l]; [left; reflexivity|right]. intros Q. apply LN. rewrite <- Q. clear. revert x. induction l as [|y l IH]; intros x; [reflexivity|]. cbn [last] in *. apply IH. }
      assert (X : [idCode r2; developerCode r2; secureAreaDisable r2; pad088 r2; nintendoLogo r2; pad16C r2] = [idCode r; developerCode r; secureAreaDisable r; pad088 r; nintendoLogo r; pad16C r]).
      { unfold r2. rewrite EC. cbn [reloaded set_capacity r' with_code idCode developerCode secureAreaDisable pad088 nintendoLogo pad16C].
        injection Q1 as _ _ SA _ _ _. assert (SL : length (secureAreaDisable r) = 8%nat) by (rewrite SA; pose proof (zlen_part d 0x78 8 ltac:(lia) ltac:(lia) ltac:(lia)) as ZP; unfold zlen in ZP; lia).
        rewrite firstn_app, SL, firstn_all2 by lia. change (firstn (8 - 8) (zeros 8)) with (zeros 0). change (zeros 0) with (@List.nil BinNums.Z). rewrite app_nil_r. reflexivity. }
      rewrite P1, Q1 in X. unfold kept_header. split.
      + cbn [map fst snd]. rewrite (same_name depth d r B L H data r2 BD LL LD N2). f_equal. exact X.
      + split; [|split].
        * assert (X2 : [unitCode r2; encryptionSeedSelect r2; pad015 r2; pad016 r2; pad017 r2; pad018 r2; pad019 r2; pad01A r2; pad01B r2; pad01C r2; region r2; RomModel.version r2; autostart r2] = [unitCode r; encryptionSeedSelect r; pad015 r; pad016 r; pad017 r; pad018 r; pad019 r; pad01A r; pad01B r; pad01C r; region r; RomModel.version r; autostart r]) by (unfold r2; rewrite EC; reflexivity).
          apply drop_third in P2, Q2. cbn [map drop_third_of] in P2, Q2 |- *. congruence.
        * rewrite <- P3, <- Q3. unfold r2. rewrite EC. reflexivity.
        * rewrite <- P4, <- Q4. unfold r2. rewrite EC. reflexivity.
    - destruct (C102_parts depth data r2 BD LL LD) as (P1 & P2 & _). rewrite <- P1, <- P2. unfold r2. rewrite EC. split; reflexivity.
    - destruct (C102_parts depth data r2 BD LL LD) as (_ & _ & P1 & P2 & _). rewrite <- P1, <- P2. unfold r2. rewrite EC. split; reflexivity.
    - exists r2. split; [exact LD|]. split; [exact LL|]. unfold r2. rewrite EC. repeat (split; [reflexivity|]). reflexivity.
  Qed.
End Rework.

(** ** Overlay tables *)
Lemma table_ok t d : saveOverlayTable t = Ok d -> Forall (fun x => 0 <= oCompressedSize (snd x) < 2 ^ 24) t -> Forall ov_ok t.
Proof.
  intros H F. unfold saveOverlayTable in H. apply bind_ok in H as (rows & M & _).
  apply (mapM_inv save_ov (fun x => 0 <= oCompressedSize (snd x) < 2 ^ 24 -> ov_ok x) (fun x => match save_ov x with Ok y => y | Err _ => [] end)) in M as (M & _).
  - apply Forall_forall. intros x I. apply (proj1 (Forall_forall _ _) M); [apply (Permutation_in x (sort_perm t)); exact I|exact (proj1 (Forall_forall _ _) F x I)].
  - intros [i ov] y E. split; [|rewrite E; reflexivity]. intros C. cbn [snd] in C. unfold save_ov in E. apply pack_us_inv in E as (E & _).
    repeat match goal with P : Forall _ (_ :: _) |- _ => apply Forall_cons_iff in P as (? & P) end. cbn [fst snd] in *. unfold ov_ok, u32. cbn [fst snd].
    match goal with X : 0 <= Z.lor _ _ < _ |- _ => rename X into Q end. rewrite lor_add in Q by lia. change (256 ^ Z.of_nat 4) with (2 ^ 32) in *. repeat (split; [lia|]). lia.
Qed.
Lemma foldM_same {A B} (f g : A -> B -> res A) l : (forall a x, In x l -> f a x = g a x) -> forall a, foldM f a l = foldM g a l.
Proof.
  induction l as [|x l IH]; intros H a; [reflexivity|]. cbn [foldM]. rewrite (H a x) by (left; reflexivity). destruct (g a x); [|reflexivity]. cbn [bind]. apply IH. intros b y Y. apply H. right. exact Y.
Qed.
Lemma in_range i : forall n s, In i (range_z s n) -> s <= i.
Proof. induction n as [|n IH]; intros s I; [destruct I|]. destruct I as [<-|I]; [lia|]. apply IH in I. lia. Qed.
Lemma load_table_same table cb cb' ids : is_bytes table -> (forall a j, 0 <= j -> listed table j -> cb a j = cb' a j) -> loadOverlayTable table cb ids = loadOverlayTable table cb' ids.
Proof.
  intros B E. unfold loadOverlayTable. apply foldM_same. intros acc x I. apply in_map_iff in I as (n & <- & I). apply in_range in I. destruct (Z_of_nat_complete n ltac:(lia)) as (k & ->).
  unfold load_ov. destruct (rd table (32 * _) 32) as [b|e] eqn:R; [|reflexivity]. cbn [bind]. destruct (match ids with None => false | Some f => _ end); [reflexivity|].
  apply ViewFiles.rd_inv in R as (L & ->); [|lia|lia]. rewrite (E _ (unle (slice (part table (32 * Z.of_nat k) 32) (4 * 6) (4 * 6 + 4)))); [reflexivity| |].
  - apply unle_range. apply is_bytes_slice, is_bytes_part. exact B.
  - exists (Z.of_nat k). split; [lia|]. split; [lia|]. rewrite (ViewFiles.row_word table k 6) by (lia || (f_equal; lia)). reflexivity.
Qed.
Lemma table_ids t d : saveOverlayTable t = Ok d -> Forall (fun x => 0 <= oFileID (snd x)) t.
Proof.
  intros H. unfold saveOverlayTable in H. apply bind_ok in H as (rows & M & _).
  apply (mapM_inv save_ov (fun x => 0 <= oFileID (snd x)) (fun x => match save_ov x with Ok y => y | Err _ => [] end)) in M as (M & _).
  - apply Forall_forall. intros x I. apply (proj1 (Forall_forall _ _) M). apply (Permutation_in x (sort_perm t)); exact I.
  - intros [i ov] y E. split; [|rewrite E; reflexivity]. unfold save_ov in E. apply pack_us_inv in E as (E & _).
    repeat match goal with P : Forall _ (_ :: _) |- _ => apply Forall_cons_iff in P as (? & P) end. cbn [fst snd] in *. lia.
Qed.
Lemma store_ids c t : forall fs acc fs' acc', foldM (store_overlay c) (fs, acc) t = Ok (fs', acc') -> Forall (fun x => 0 <= oFileID (snd x)) acc' -> Forall (fun x => 0 <= oFileID (snd x)) t /\ Forall (fun x => 0 <= oFileID (snd x)) acc.
Proof.
  induction t as [|x t IH]; intros fs acc fs' acc' H F; cbn [foldM] in H; [split; [constructor|]; assert (acc = acc') as -> by congruence; exact F|].
  apply bind_ok in H as ([fs1 acc1] & H1 & H2). unfold store_overlay in H1. cbn [fst snd] in H1. apply bind_ok in H1 as ([d ov] & E & H1). apply bind_ok in H1 as (fs2 & S & H1). assert (acc1 = acc ++ [(fst x, ov)]) as -> by congruence.
  destruct (IH _ _ _ _ H2 F) as (I1 & I2). apply Forall_app in I2 as (I2 & I3). inversion I3 as [|? ? I4 _]; subst. split; [|exact I2]. constructor; [|exact I1].
  destruct (overlay_save_spec _ _ _ _ E) as (_ & _ & _ & _ & _ & _ & _ & _ & _ & FE). cbn [snd] in I4. lia.
Qed.
Lemma store_bytes c t : forall fs acc fs' acc', foldM (store_overlay c) (fs, acc) t = Ok (fs', acc') -> Forall (fun x => is_bytes (oData (snd x))) t -> Forall (fun x => 0 <= oFileID (snd x)) t ->
  Forall (fun b : bytes => is_bytes b) fs -> Forall (fun b : bytes => is_bytes b) fs'.
Proof.
  induction t as [|x t IH]; intros fs acc fs' acc' H F P G; cbn [foldM] in H; [assert (fs = fs') as <- by congruence; exact G|]. apply Forall_cons_iff in F as (F0 & F), P as (P0 & P).
  apply bind_ok in H as ([fs1 acc1] & H1 & H2). unfold store_overlay in H1. cbn [fst snd] in H1. apply bind_ok in H1 as ([d ov] & E & H1). apply bind_ok in H1 as (fs2 & S & H1). assert (fs2 = fs1) as -> by congruence.
  apply (IH _ _ _ _ H2 F P). apply setl_inv in S as (_ & ->); [|exact P0]. apply upd_bytes; [exact G|]. destruct (overlay_save_spec _ _ _ _ E) as (_ & _ & _ & Q & _). destruct (c x); [exact (code_out_bytes _ _ _ F0 Q)|rewrite Q; exact F0].
Qed.

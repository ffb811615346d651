(** * Overlay tables that are reproduced byte for byte (C124) *)
From Coq Require Import Sorting.Sorted Permutation.
From Verif Require Import PyBase PyLemmas PyTac CodeModel CodeLemmas CodeProps RomSpec ViewSpec ViewLemmas ViewFilesProps.

Lemma save_ov_id x b : save_ov x = Ok b -> zlen b = 32 /\ unle (slice b 0 4) = fst x.
Proof.
  destruct x as [i ov]. unfold save_ov. intros H. apply pack_us_inv in H as (F & ->). inversion F as [|? ? F1 _]; subst. cbn [fst snd] in F1.
  unfold les. cbn [map concat fst snd app]. split; [autorewrite with zl; reflexivity|].
  match goal with |- context [le 4 i ++ ?r] => set (tl := r) end. rewrite (slice_mid [] (le 4 i) tl) by (rewrite ?zlen_le; reflexivity). apply unle_le_id. exact F1.
Qed.
Lemma saved_rows l : forall rows, mapM save_ov l = Ok rows -> Forall (fun b => zlen b = 32) rows /\ map (fun b => unle (slice b 0 4)) rows = map fst l.
Proof.
  induction l as [|x l IH]; intros rows M; cbn [mapM] in M; [injection M as <-; split; [constructor|reflexivity]|].
  apply bind_ok in M as (y & Y & M). apply bind_ok in M as (ys & YS & M). injection M as <-. destruct (save_ov_id _ _ Y) as (L & E). destruct (IH _ YS) as (F & G).
  split; [constructor; assumption|]. cbn [map]. rewrite E, G. reflexivity.
Qed.
Lemma row_at rows : forall i, Forall (fun b : bytes => zlen b = 32) rows -> 32 * Z.of_nat i < zlen (concat rows) ->
  unle (slice (concat rows) (32 * Z.of_nat i) (32 * Z.of_nat i + 4)) = nth i (map (fun b => unle (slice b 0 4)) rows) 0 /\ (i < length rows)%nat.
Proof.
  induction rows as [|b rows IH]; intros i F H; [cbn [concat] in H; change (zlen []) with 0 in H; lia|]. inversion F; subst. cbn [concat] in H |- *. rewrite zlen_app in H.
  destruct i as [|i]; cbn [map nth length].
  - split; [|lia]. change (32 * Z.of_nat 0) with 0. f_equal. apply slice_app_l; lia.
  - destruct (IH i) as (E & L); [assumption|lia|]. split; [|lia]. rewrite <- E. f_equal.
    replace (32 * Z.of_nat (S i)) with (zlen b + 32 * Z.of_nat i) by lia. rewrite slice_skip by lia. f_equal; lia.
Qed.

(** a table that was read is saved to the same bytes if the numbers of its overlays ascend
    from row to row, and only then *)
Theorem C124_overlay_table : forall d cb t, is_bytes d -> loadOverlayTable d cb None = Ok t ->
  saveOverlayTable t = Ok d <-> forall i, 32 * (Z.of_nat i + 1) < zlen d -> word d (32 * Z.of_nat i) < word d (32 * (Z.of_nat i + 1)).
Proof.
  intros d cb t B H. split.
  - intros SV i Hi. unfold saveOverlayTable in SV. apply bind_ok in SV as (rows & M & E). apply SeqRead.ok_inj in E. destruct (saved_rows _ _ M) as (F & G).
    assert (N : NoDup (map fst t)). { destruct (C105_read d cb None t H) as (_ & K & _). rewrite K. apply ViewFiles.firsts_nodup. }
    apply sort_sorted in N. rewrite <- E in Hi |- *. unfold word.
    destruct (row_at rows i F) as (A1 & L1); [lia|]. destruct (row_at rows (S i) F) as (A2 & L2); [lia|].
    replace (32 * (Z.of_nat i + 1)) with (32 * Z.of_nat (S i)) by lia. rewrite A1, A2, G.
    assert (L : length rows = length (sort_keys t)). { rewrite <- (map_length fst), <- G, map_length. reflexivity. }
    rewrite L in L2. clear - N L2. revert i L2. induction N as [|x l N IH A]; intros i L; cbn [length] in L; [lia|]. destruct i as [|i]; cbn [map nth].
    + destruct l as [|y l]; cbn [length] in L; [lia|]. inversion A; subst. assumption.
    + apply IH. lia.
  - intros SV. apply (C17_overlay_table_resave d cb t B H). intros i j Hij Hj.
    assert (G : forall k : nat, 32 * (i + Z.of_nat k + 1) < zlen d -> word d (32 * i) < word d (32 * (i + Z.of_nat k + 1))).
    { induction k as [|k IH]; intros Hk.
      - specialize (SV (Z.to_nat i)). rewrite Z2Nat.id in SV by lia. replace (i + Z.of_nat 0 + 1) with (i + 1) in Hk |- * by lia. apply SV. lia.
      - specialize (SV (Z.to_nat (i + Z.of_nat k + 1))). rewrite Z2Nat.id in SV by lia. replace (i + Z.of_nat (S k) + 1) with (i + Z.of_nat k + 1 + 1) in Hk |- * by lia.
        specialize (SV Hk). assert (word d (32 * i) < word d (32 * (i + Z.of_nat k + 1))) by (apply IH; lia). lia. }
    specialize (G (Z.to_nat (j - i - 1))). replace (i + Z.of_nat (Z.to_nat (j - i - 1)) + 1) with j in G by lia. apply G. exact Hj.
Qed.
Print Assumptions C124_overlay_table.
Definition same_table : bytes := concat (map (le 4) [5; 1; 2; 3; 4; 5; 0; 0x02000009;  7; 0; 0; 0; 0; 0; 1; 0]).
Example C124_ex_overlay_table :
  (is_bytes same_table /\ exists t, loadOverlayTable same_table (fun id fid => Ok [id; fid]) None = Ok t /\ saveOverlayTable t = Ok same_table) /\
  (is_bytes odd_table /\ exists t x, loadOverlayTable odd_table (fun id fid => Ok [id; fid]) None = Ok t /\ saveOverlayTable t = Ok x /\ zlen x < zlen odd_table).
Proof.
  split; (split; [all_bytes|]); [eexists; split; [vm_compute; reflexivity|vm_compute; reflexivity]|].
  eexists. eexists. split; [vm_compute; reflexivity|]. split; vm_compute; reflexivity.
Qed.

(** Data compressed by any encoder, proofs for C114. *)
From Verif Require Import PyBase PyLemmas PyTac RomSpec ViewSpec LzModel LzSpec LzLemmas ViewLzSpec ViewLemmas ViewFiles ViewLz BnText.

Lemma again_is total dist o x : 0 < dist <= zlen o -> zlen o + zlen x <= total -> (forall i, 0 <= i < zlen x -> byte (o ++ x) (zlen o + i) = byte (o ++ x) (zlen o + i - dist)) ->
  again total (length x) dist o = o ++ x.
Proof.
  intros D T H. assert (G : forall n j, (j + n = length x)%nat -> again total n dist (o ++ firstn j x) = o ++ x).
  { induction n as [|n IH]; intros j J; cbn [again]; [rewrite firstn_all2 by lia; reflexivity|].
    assert (ZJ : zlen (o ++ firstn j x) = zlen o + Z.of_nat j) by (rewrite zlen_app; unfold zlen at 2; rewrite firstn_length; lia). rewrite ZJ. unfold zlen in T at 2. rewrite (proj2 (Z.ltb_lt _ _)) by lia. cbv zeta. rewrite (proj2 (Z.ltb_ge _ 0)) by lia.
    rewrite <- (IH (S j)) by lia. f_equal. rewrite <- app_assoc. f_equal.
    assert (E : byte (o ++ firstn j x) (zlen o + Z.of_nat j - dist) = nth j x 0).
    { transitivity (byte (o ++ x) (zlen o + Z.of_nat j - dist)).
      - replace (o ++ x) with ((o ++ firstn j x) ++ skipn j x) by (rewrite <- app_assoc, firstn_skipn; reflexivity). symmetry. apply byte_app_l. lia.
      - rewrite <- H by (unfold zlen; lia). unfold byte. rewrite app_nth2 by (unfold zlen; lia). f_equal. unfold zlen. lia. }
    rewrite E. clear - J. revert j J. induction x as [|a x IHx]; intros [|j] J; cbn [length] in J; try lia; [reflexivity|]. cbn [firstn app nth]. f_equal. apply IHx. lia. }
  specialize (G (length x) 0%nat eq_refl). cbn [firstn] in G. rewrite app_nil_r in G. exact G.
Qed.
Lemma tells_longer o ts r : tells o ts r -> Forall (fun t => match t with Lit _ => True | Ref l _ => 3 <= l end) ts -> zlen o + zlen ts <= zlen r.
Proof.
  induction 1 as [o|o b ts r _ IH|o l dist x ts r X _ _ _ IH]; intros F; [rewrite zlen_nil; lia|inversion F; specialize (IH H2); rewrite zlen_app, !zlen_cons, zlen_nil in *; lia|inversion F; specialize (IH H2); rewrite zlen_app, !zlen_cons in *; lia].
Qed.
Lemma byte_mid a b c i : i = zlen a -> byte (a ++ b :: c) i = b.
Proof. intros ->. unfold byte, zlen. rewrite Nat2Z.id. rewrite app_nth2 by lia. rewrite Nat.sub_diag. reflexivity. Qed.
Lemma bits_flag ts : (length ts <= 8)%nat -> bits (flag_byte 128 ts) = map is_ref ts ++ repeat false (8 - length ts).
Proof.
  assert (G : forall ts w, flag_byte w ts = (fix fb w l := match l with [] => 0 | b :: l => (if b : bool then w else 0) + fb (w / 2) l end) w (map is_ref ts)).
  { induction ts0 as [|t l IH]; intros w; cbn [flag_byte map]; [reflexivity|]. rewrite IH. reflexivity. }
  rewrite G. rewrite <- (map_length is_ref ts). generalize (map is_ref ts) as l. clear. intros l L.
  do 9 (destruct l as [|[] l]; [vm_compute; reflexivity| |]); cbn [length] in L; lia.
Qed.
Lemma writable_long sub ts : Forall (writable sub) ts -> Forall (fun t => match t with Lit _ => True | Ref l _ => 3 <= l end) ts.
Proof. intros F. eapply Forall_impl; [|exact F]. intros [b|l dist] W; cbn [writable] in W; [exact I|lia]. Qed.
Lemma tells_app a b : forall o r, tells o (a ++ b) r -> exists m, tells o a m /\ tells m b r.
Proof.
  induction a as [|t a IH]; intros o r T; cbn [app] in T; [exists o; split; [constructor|exact T]|]. inversion T as [|? ? ? ? T'|? ? ? x ? ? X R DI T']; subst; destruct (IH _ _ T') as (m & T1 & T2); exists m; (split; [econstructor; eauto|exact T2]).
Qed.
Section Run.
  Variables (d : bytes) (total sub : Z) (copy : Z -> Z -> bytes -> bytes -> Prop).
  Local Notation unpacks := (unpacks d total copy).
  Hypothesis CP : forall l dist o x, 3 <= l <= 18 -> sub <= dist < sub + 4096 -> dist <= zlen o -> zlen o + l <= total -> zlen x = l ->
    (forall i, 0 <= i < l -> byte (o ++ x) (zlen o + i) = byte (o ++ x) (zlen o + i - dist)) -> copy l (dist - sub) o (o ++ x).
  Lemma tokens_run ts : forall o r0 pre rest p extra r, tells o ts r0 -> d = pre ++ toks_bytes sub ts ++ rest -> p = zlen pre -> Forall (writable sub) ts -> zlen r0 <= total ->
    unpacks (p + zlen (toks_bytes sub ts)) extra r0 r -> unpacks p (map is_ref ts ++ extra) o r.
  Proof.
    induction ts as [|t ts IH]; intros o r0 pre rest p extra r T D P W Z0 U.
    - inversion T; subst. cbn [map app]. unfold toks_bytes in U. cbn [map concat] in U. rewrite zlen_nil, Z.add_0_r in U. exact U.
    - pose proof (tells_longer _ _ _ T (writable_long _ _ W)) as TL. rewrite zlen_cons in TL. pose proof (zlen_nonneg ts) as ZT. inversion W as [|? ? W1 W2]; subst. unfold toks_bytes in *. cbn [map concat] in *. destruct t as [b|l dist]; cbn [tok_bytes is_ref app] in *.
      + inversion T as [|? ? ? ? T'|]; subst. assert (EB : byte (pre ++ b :: concat (map (tok_bytes sub) ts) ++ rest) (zlen pre) = b) by (apply byte_mid; reflexivity).
        apply Literal; [lia|rewrite zlen_app, zlen_cons; pose proof (zlen_nonneg (concat (map (tok_bytes sub) ts) ++ rest)); lia|]. rewrite EB.
        apply (IH (o ++ [b]) r0 (pre ++ [b]) rest); [exact T'|rewrite <- app_assoc; reflexivity|rewrite zlen_app, zlen_cons, zlen_nil; lia|exact W2|exact Z0|]. rewrite zlen_cons in U. replace (zlen pre + 1 + zlen (concat (map (tok_bytes sub) ts))) with (zlen pre + (1 + zlen (concat (map (tok_bytes sub) ts)))) by lia. exact U.
      + inversion T as [| |? ? ? x ? ? X R DI T']; subst. cbn [writable] in W1. destruct W1 as (L & DR). set (l := zlen x) in *.
        set (b1 := (l - 3) * 16 + (dist - sub) / 256) in *. set (b2 := (dist - sub) mod 256) in *. set (more := concat (map (tok_bytes sub) ts)) in *.
        pose proof (tells_longer _ _ _ T' (writable_long _ _ W2)) as TL'. rewrite zlen_app in TL'. fold l in TL'.
        assert (E1 : byte (pre ++ b1 :: b2 :: more ++ rest) (zlen pre) = b1) by (apply byte_mid; reflexivity).
        assert (E2 : byte (pre ++ b1 :: b2 :: more ++ rest) (zlen pre + 1) = b2).
        { replace (pre ++ b1 :: b2 :: more ++ rest) with ((pre ++ [b1]) ++ b2 :: more ++ rest) by (rewrite <- app_assoc; reflexivity). apply byte_mid. rewrite zlen_app, zlen_cons, zlen_nil. lia. }
        assert (Q : 0 <= (dist - sub) / 256 < 16) by (split; [apply Z.div_pos; lia|apply Z.div_lt_upper_bound; lia]). assert (B1 : b1 / 16 = l - 3) by (unfold b1; rewrite Z.div_add_l by lia; rewrite (Z.div_small ((dist - sub) / 256)) by lia; lia).
        assert (B2 : b1 mod 16 = (dist - sub) / 256) by (unfold b1; rewrite Z.add_comm, Z.mod_add by lia; apply Z.mod_small; lia).
        apply (Reference _ _ _ _ _ _ (o ++ x)); [lia|rewrite zlen_app, !zlen_cons; pose proof (zlen_nonneg (more ++ rest)); lia| |].
        * rewrite E1, E2, B1, B2. replace (l - 3 + 3) with l by lia. unfold b2. replace ((dist - sub) / 256 * 256 + (dist - sub) mod 256) with (dist - sub) by (rewrite (Z.div_mod (dist - sub) 256) at 1 by lia; lia).
          apply CP; [exact L|exact DR|exact DI|lia|reflexivity|exact R].
        * apply (IH (o ++ x) r0 (pre ++ [b1; b2]) rest); [exact T'|rewrite <- app_assoc; reflexivity|rewrite zlen_app, !zlen_cons, zlen_nil; lia|exact W2|exact Z0|]. rewrite !zlen_cons in U. unfold toks_bytes; fold more; replace (zlen pre + 2 + zlen more) with (zlen pre + (1 + (1 + zlen more))) by lia. exact U.
  Qed.
  Lemma blocks_run bs : forall o r pre rest, tells o (concat bs) r -> zlen r = total -> blocks_shape bs -> Forall (writable sub) (concat bs) -> d = pre ++ written sub bs ++ rest -> unpacks (zlen pre) [] o r.
  Proof.
    induction bs as [|b bs IH]; intros o r pre rest T ZR S W D; cbn [concat] in T, W.
    - inversion T as [o' E1 E2 E3| |]. constructor. congruence.
    - apply Forall_app in W as (W1 & W2). apply tells_app in T as (m & T1 & T2). pose proof (tells_longer _ _ _ T1 (writable_long _ _ W1)) as L1. pose proof (tells_longer _ _ _ T2 (writable_long _ _ W2)) as L2. pose proof (zlen_nonneg (concat bs)) as ZC.
      assert (SB : 1 <= zlen b <= 8 /\ (bs <> [] -> zlen b = 8) /\ blocks_shape bs). { cbn [blocks_shape] in S. destruct bs as [|b' bs]; [split; [exact S|]; split; [congruence|exact I]|]. destruct S as (S1 & S2). split; [lia|]. split; [intros _; exact S1|exact S2]. }
      destruct SB as (SB & SF & S'). unfold written in D. cbn [map concat] in D. rewrite <- app_comm_cons in D. fold (written sub bs) in D.
      assert (DE : byte d (zlen pre) = flag_byte 128 b) by (rewrite D; apply byte_mid; reflexivity).
      apply Flags; [lia|rewrite D, zlen_app; cbn [app]; rewrite zlen_cons; pose proof (zlen_nonneg ((toks_bytes sub b ++ written sub bs) ++ rest)); lia|]. rewrite DE, bits_flag by (unfold zlen in SB; lia).
      apply (tokens_run b o m (pre ++ [flag_byte 128 b]) (written sub bs ++ rest)); [exact T1|rewrite D; cbn [app]; rewrite <- !app_assoc; reflexivity|rewrite zlen_app, zlen_cons, zlen_nil; lia|exact W1|lia|].
      destruct bs as [|b' bs].
      + cbn [concat] in T2. inversion T2 as [o' E1 E2 E3| |]. constructor. congruence.
      + rewrite (proj2 (Nat.sub_0_le 8 (length b))) by (specialize (SF ltac:(congruence)); unfold zlen in SF; lia). cbn [repeat].
        specialize (IH m r (pre ++ flag_byte 128 b :: toks_bytes sub b) rest T2 ZR S' W2 ltac:(rewrite D; cbn [app]; rewrite <- !app_assoc; reflexivity)). rewrite zlen_app, zlen_cons in IH. replace (zlen pre + 1 + zlen (toks_bytes sub b)) with (zlen pre + (1 + zlen (toks_bytes sub b))) by lia. exact IH.
  Qed.
End Run.

Lemma part_mid a b c i n : i = zlen a -> n = zlen b -> part (a ++ b ++ c) i n = b.
Proof. intros -> ->. unfold part, zlen. rewrite !Nat2Z.id. rewrite skipn_app, skipn_all, Nat.sub_diag. cbn [skipn app]. rewrite firstn_app, firstn_all, Nat.sub_diag. cbn [firstn]. apply app_nil_r. Qed.
Lemma written_bytes sub bs : blocks_shape bs -> Forall (writable sub) (concat bs) -> is_bytes (written sub bs).
Proof.
  intros S W. assert (S8 : Forall (fun b => zlen b <= 8) bs). { clear W. induction bs as [|b bs IH]; [constructor|]. cbn [blocks_shape] in S. destruct bs as [|b' bs]; [constructor; [lia|constructor]|]. constructor; [lia|]. apply IH. apply S. }
  unfold written. induction bs as [|b bs IH]; [constructor|]. cbn [map concat] in *. apply Forall_app in W as (W1 & W2). inversion S8; subst. apply Forall_app. split; [|apply IH; [|exact W2|assumption]; cbn [blocks_shape] in S; destruct bs; [exact I|apply S]].
  constructor; [pose proof (flag_byte_range b 0 ltac:(lia) ltac:(lia)) as F; change (2 ^ (7 - 0)) with 128 in F; change (2 ^ (8 - 0)) with 256 in F; exact F|].
  clear - W1. unfold toks_bytes. induction b as [|t b IH]; [constructor|]. inversion W1; subst. cbn [map concat]. apply Forall_app. split; [|apply IH; assumption].
  destruct t as [b0|l dist]; cbn [tok_bytes writable] in *; [constructor; [assumption|constructor]|]. destruct H1 as (L & D). assert (Q : 0 <= (dist - sub) / 256 < 16) by (split; [apply Z.div_pos; lia|apply Z.div_lt_upper_bound; lia]).
  constructor; [unfold is_byte; lia|]. constructor; [apply Z.mod_pos_bound; lia|constructor].
Qed.
Lemma any_lz10 bs r tail : blocks_shape bs -> Forall (writable 1) (concat bs) -> tells [] (concat bs) r -> zlen r < 2 ^ 24 -> is_bytes tail ->
  lz10_decompress (0x10 :: le 3 (zlen r) ++ written 1 bs ++ tail) = Ok r.
Proof.
  intros S W T L BT. set (d := 0x10 :: le 3 (zlen r) ++ written 1 bs ++ tail). pose proof (zlen_nonneg r) as ZR.
  assert (BD : is_bytes d) by (constructor; [unfold is_byte; lia|]; apply Forall_app; split; [apply is_bytes_le|]; apply Forall_app; split; [apply written_bytes; assumption|exact BT]).
  assert (PT : unle (part d 1 3) = zlen r) by (unfold d; rewrite (part_mid [0x10] (le 3 (zlen r)) (written 1 bs ++ tail)) by (reflexivity || (rewrite zlen_le; reflexivity)); apply unle_le_id; change (256 ^ Z.of_nat 3) with (2 ^ 24); lia).
  apply (lz10_iff d r BD). split; [|split].
  - unfold d. rewrite zlen_cons, zlen_app, zlen_le. pose proof (zlen_nonneg (written 1 bs ++ tail)). lia.
  - reflexivity.
  - rewrite PT. replace 4 with (zlen (0x10 :: le 3 (zlen r))) by (rewrite zlen_cons, zlen_le; reflexivity).
    apply (blocks_run d (zlen r) 1 (copy10 (zlen r))) with (bs := bs) (rest := tail); [|exact T|reflexivity|exact S|exact W|reflexivity].
    intros l dist o x Hl Hd Ho Ht Hx R. split; [lia|]. replace (dist - 1 + 1) with dist by lia. replace (Z.to_nat l) with (length x) by (unfold zlen in Hx; lia). symmetry. apply again_is; [lia|lia|]. rewrite Hx. exact R.
Qed.
Lemma any_code pass bs r k : is_bytes pass -> blocks_shape bs -> Forall (writable 3) (concat bs) -> tells [] (concat bs) r -> 0 <= k < 248 ->
  let n := zlen (written 3 bs) + 8 + k in n < 2 ^ 24 -> n < zlen r < n + 2 ^ 32 ->
  code_decompress (pass ++ rev (written 3 bs) ++ repeat 0xFF (Z.to_nat k) ++ le 3 n ++ [8 + k] ++ le 4 (zlen r - n)) = Ok (pass ++ rev r).
Proof.
  intros BP S W T K n N L. set (st := written 3 bs) in *. set (ff := repeat 0xFF (Z.to_nat k)). set (d := pass ++ _). pose proof (zlen_nonneg st) as Z1. pose proof (zlen_nonneg pass) as Z2.
  assert (ZF : zlen ff = k) by (unfold ff, zlen; rewrite repeat_length; lia).
  assert (ZD : zlen d = zlen pass + n) by (unfold d; rewrite !zlen_app, zlen_rev, ZF, !zlen_le, zlen_cons, zlen_nil; unfold n; lia).
  assert (BD : is_bytes d).
  { unfold d. apply Forall_app; split; [exact BP|]. apply Forall_app; split; [apply Forall_rev; apply written_bytes; assumption|]. apply Forall_app; split; [apply Forall_forall; intros x I; apply repeat_spec in I; subst x; unfold is_byte; lia|].
    apply Forall_app; split; [apply is_bytes_le|]. constructor; [unfold is_byte; lia|apply is_bytes_le]. }
  assert (EL : end_len d 0 = 8 + k).
  { unfold end_len. replace d with ((pass ++ rev st ++ ff ++ le 3 n) ++ (8 + k) :: le 4 (zlen r - n)) by (unfold d; rewrite <- !app_assoc; reflexivity). apply byte_mid. rewrite (zlen_app _ (_ :: _)), !zlen_app, zlen_rev, ZF, !zlen_le, zlen_cons, zlen_le. lia. }
  assert (CL : comp_len d 0 = n).
  { unfold comp_len. replace (part d (zlen d - 0 - 8) 3) with (le 3 n); [apply unle_le_id; change (256 ^ Z.of_nat 3) with (2 ^ 24); lia|]. symmetry.
    replace d with ((pass ++ rev st ++ ff) ++ le 3 n ++ [8 + k] ++ le 4 (zlen r - n)) by (unfold d; rewrite <- !app_assoc; reflexivity). apply part_mid; [|rewrite zlen_le; reflexivity]. rewrite !zlen_app, zlen_rev, ZF, !zlen_le, zlen_cons, zlen_nil. lia. }
  assert (XL : extra_len d 0 = zlen r - n).
  { unfold extra_len. replace (part d (zlen d - 0 - 4) 4) with (le 4 (zlen r - n)); [apply unle_le_id; change (256 ^ Z.of_nat 4) with (2 ^ 32); lia|]. symmetry.
    replace d with ((pass ++ rev st ++ ff ++ le 3 n ++ [8 + k]) ++ le 4 (zlen r - n) ++ []) by (unfold d; rewrite app_nil_r, <- !app_assoc; reflexivity). apply part_mid; [|rewrite zlen_le; reflexivity]. rewrite !zlen_app, zlen_rev, ZF, !zlen_le, zlen_cons, zlen_nil. lia. }
  assert (PF : part d 0 (zlen d - 0) = d) by (rewrite Z.sub_0_r; apply part_full).
  apply (code_iff d _ BD). right. exists 0. split; [unfold appended, sensible; rewrite EL, CL, ZD; repeat split; try lia; reflexivity|]. right. rewrite XL. split; [lia|]. exists (pass ++ rev r). rewrite PF. split; [|replace (part d (zlen d - 0) 0) with (@nil Z) by reflexivity; rewrite app_nil_r; reflexivity].
  unfold code_means. rewrite EL, CL, XL, ZD. split; [lia|]. split; [lia|]. split.
  - intros i I. replace d with ((pass ++ rev st) ++ ff ++ (le 3 n ++ [8 + k] ++ le 4 (zlen r - n))) by (unfold d; rewrite <- !app_assoc; reflexivity). unfold byte.
    assert (ZA : zlen (pass ++ rev st) = zlen pass + zlen st) by (rewrite zlen_app, zlen_rev; reflexivity). unfold zlen in ZA at 1. rewrite app_nth2 by lia. rewrite app_nth1 by (unfold zlen in ZF; lia). unfold ff. rewrite BnText.nth_repeat_lt by lia; reflexivity.
  - exists r. split; [|replace (zlen pass + n - n) with (zlen pass) by lia; f_equal; symmetry; unfold d; apply (part_mid [] pass); reflexivity].
    replace (zlen pass + n - n) with (zlen pass) by lia. replace (n + (zlen r - n)) with (zlen r) by lia. replace (part d (zlen pass) (n - (8 + k))) with (rev st) by (symmetry; unfold d; apply part_mid; [reflexivity|rewrite zlen_rev; unfold n; lia]). rewrite rev_involutive.
    apply (blocks_run st (zlen r) 3 (copy_code (zlen r))) with (bs := bs) (rest := []) (pre := []); [|exact T|reflexivity|exact S|exact W|rewrite app_nil_r; reflexivity].
    intros l dist o x Hl Hd Ho Ht Hx R. split; [lia|]. split; [lia|]. replace (dist - 3 + 3) with dist by lia. rewrite (proj2 (Z.ltb_ge _ _)) by lia. replace (Z.to_nat l) with (length x) by (unfold zlen in Hx; lia). symmetry. apply again_is; [lia|lia|]. rewrite Hx. exact R.
Qed.

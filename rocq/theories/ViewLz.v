(** What compressed data mean, proofs for C114. *)
From Verif Require Import PyBase PyLemmas PyTac RomSpec ViewSpec ViewLzSpec ViewLemmas ViewFiles LzModel.

(** ** the rules one by one *)
Section Rules.
  Variables (d : bytes) (total : Z) (copy : Z -> Z -> bytes -> bytes -> Prop).
  Local Notation unpacks := (unpacks d total copy).
  Lemma full_iff p bs o r : zlen o = total -> unpacks p bs o r <-> r = o.
  Proof. intros F. split; [intros H; inversion H; subst; reflexivity || lia|]. intros ->. constructor. exact F. Qed.
  Lemma flags_iff p o r : zlen o < total -> unpacks p [] o r <-> p < zlen d /\ unpacks (p + 1) (bits (byte d p)) o r.
  Proof. intros F. split; [intros H; inversion H; subst; [lia|split; assumption]|]. intros (L & H). apply Flags; assumption. Qed.
  Lemma literal_iff p bs o r : zlen o < total -> unpacks p (false :: bs) o r <-> p < zlen d /\ unpacks (p + 1) bs (o ++ [byte d p]) r.
  Proof. intros F. split; [intros H; inversion H; subst; [lia|split; assumption]|]. intros (L & H). apply Literal; assumption. Qed.
  Lemma reference_iff p bs o r : zlen o < total -> unpacks p (true :: bs) o r <->
    p + 2 <= zlen d /\ exists o', copy (byte d p / 16 + 3) (byte d p mod 16 * 256 + byte d (p + 1)) o o' /\ unpacks (p + 2) bs o' r.
  Proof. intros F. split; [intros H; inversion H; subst; [lia|]; split; [assumption|]; exists o'; split; assumption|]. intros (L & o' & C & H). apply (Reference d total copy p bs o o'); assumption. Qed.
End Rules.
Lemma again_len total k : forall dist o, zlen o <= total -> zlen (again total k dist o) = Z.min total (zlen o + Z.of_nat k).
Proof.
  induction k as [|k IH]; intros dist o L; cbn [again]; [lia|]. destruct (zlen o <? total) eqn:E; [|lia]. rewrite IH; rewrite zlen_app, zlen_cons, zlen_nil; lia.
Qed.

Lemma byte_app_l o r i : 0 <= i < zlen o -> byte (o ++ r) i = byte o i.
Proof. intros I. unfold byte. apply app_nth1. unfold zlen in I. lia. Qed.
Lemma byte_beyond o i : zlen o <= i -> byte o i = 0.
Proof. intros I. unfold byte. apply nth_overflow. unfold zlen in I. lia. Qed.
Lemma byte_zeros o k i : 0 <= i -> byte (o ++ zeros k) i = byte o i.
Proof.
  intros I. unfold byte. destruct (Z.le_gt_cases (zlen o) i) as [L|L]; [|apply app_nth1; unfold zlen in L; lia]. unfold zlen in L. rewrite app_nth2 by lia. rewrite (nth_overflow o) by lia.
  unfold zeros, rep. apply nth_repeat.
Qed.
Lemma zeros_cons k : 0 < k -> zeros k = 0 :: zeros (k - 1).
Proof. intros K. unfold zeros, rep. replace (Z.to_nat k) with (S (Z.to_nat (k - 1))) by lia. reflexivity. Qed.
Lemma upd_mid {A} (a b : list A) x y : upd (a ++ x :: b) (length a) y = a ++ y :: b.
Proof. induction a as [|z a IH]; [reflexivity|]. cbn [app length upd]. rewrite IH. reflexivity. Qed.
Lemma write o k b : 0 < k -> setl (o ++ zeros k) (zlen o) b = Ok ((o ++ [b]) ++ zeros (k - 1)).
Proof.
  intros K. unfold setl. pose proof (zlen_nonneg o). rewrite (proj2 (Z.ltb_ge (zlen o) 0)) by lia. rewrite zeros_cons by lia. rewrite zlen_app, zlen_cons. pose proof (zlen_nonneg (zeros (k - 1))).
  rewrite (proj2 (Z.ltb_ge (zlen o) 0)) by lia. rewrite (proj2 (Z.leb_gt _ _)) by lia. cbn [orb]. unfold zlen at 1. rewrite Nat2Z.id, upd_mid, <- app_assoc. reflexivity.
Qed.

(** ** lz10 *)
Section Lz10.
  Variables (d : bytes) (total : Z).
  Hypothesis B : is_bytes d.
  Local Notation copy := (copy10 total).
  Local Notation unpacks := (unpacks d total copy).
  Definition st (p : Z) (o : bytes) : dstate := {| inPos := p; out := o ++ zeros (total - zlen o); outPos := zlen o; left := total - zlen o |}.
  Lemma st_full p o : zlen o = total -> out (st p o) = o.
  Proof. intros F. cbn [st out]. rewrite F, Z.sub_diag. unfold zeros, rep. cbn. apply app_nil_r. Qed.
  (** what a step says about the result: [Q r] is what is to be decided *)
  Definition settles (x : res (ctl dstate bytes)) (p : Z) (bs : list bool) (Q : bytes -> Prop) : Prop :=
    match x with
    | Ok (Ret r0) => forall r, Q r <-> r = r0
    | Ok (Cont s) => exists p' o', s = st p' o' /\ zlen o' < total /\ p <= p' /\ forall r, Q r <-> unpacks p' bs o' r
    | Err _ => forall r, ~ Q r
    end.
  Lemma lit_step p bs o : 0 <= p -> zlen o < total -> settles (lz10_lit d (st p o)) p bs (unpacks p (false :: bs) o).
  Proof.
    intros P F. unfold lz10_lit. cbn [st inPos out outPos left]. destruct (Z.le_gt_cases (zlen d) p) as [L|L].
    - rewrite get_ge by exact L. cbn [bind settles]. intros r H. apply literal_iff in H; [lia|exact F].
    - rewrite get_byte by lia. cbn [bind]. rewrite write by lia. cbn [bind]. destruct (total - zlen o - 1 =? 0) eqn:E; cbn [settles].
      + intros r. rewrite literal_iff by exact F. assert (Z1 : zlen (o ++ [byte d p]) = total) by (rewrite zlen_app, zlen_cons, zlen_nil; lia).
        rewrite (full_iff _ _ _ _ _ _ _ Z1). replace (total - zlen o - 1) with 0 by lia. unfold zeros, rep. cbn [Z.to_nat repeat]. rewrite app_nil_r. split; [intros (_ & H); exact H|intros H; split; [lia|exact H]].
      + exists (p + 1), (o ++ [byte d p]). assert (ZL : zlen (o ++ [byte d p]) = zlen o + 1) by (rewrite zlen_app, zlen_cons, zlen_nil; lia). split; [unfold st; rewrite ZL; replace (total - (zlen o + 1)) with (total - zlen o - 1) by lia; reflexivity|]. split; [lia|]. split; [lia|].
        intros r. rewrite literal_iff by exact F. split; [intros (_ & H); exact H|intros H; split; [lia|exact H]].
  Qed.
  Lemma copy_step n : forall p dist o, 0 < dist -> zlen o < total -> dist <= total + zlen o -> exists x, lz10_copy n (st p o) (zlen o - dist) = Ok x /\
    match x with Ret r0 => r0 = again total n dist o /\ zlen r0 = total | Cont s => s = st p (again total n dist o) /\ zlen (again total n dist o) < total end.
  Proof.
    induction n as [|n IH]; intros p dist o D F R; cbn [lz10_copy again].
    - exists (Cont (st p o)). split; [reflexivity|]. split; [reflexivity|exact F].
    - pose proof (zlen_nonneg o) as ZO. cbn [st inPos out outPos left].
      assert (G : get (o ++ zeros (total - zlen o)) (zlen o - dist) = Ok (let i := zlen o - dist in byte o (if i <? 0 then total + i else i))).
      { cbv zeta. unfold get. assert (ZT : zlen (o ++ zeros (total - zlen o)) = total) by (rewrite zlen_app; unfold zeros; rewrite zlen_rep by lia; lia). rewrite ZT. replace (zlen o - dist + total) with (total + (zlen o - dist)) by lia.
        set (i := if zlen o - dist <? 0 then total + (zlen o - dist) else zlen o - dist). assert (I : 0 <= i < total) by (unfold i; destruct (zlen o - dist <? 0) eqn:E; lia).
        rewrite (proj2 (Z.ltb_ge i 0)) by lia. assert (LT : (Z.to_nat i < length (o ++ zeros (total - zlen o)))%nat) by (apply Nat2Z.inj_lt; fold (zlen (o ++ zeros (total - zlen o))); rewrite ZT; lia). rewrite (nth_error_nth' _ 0 LT). fold (byte (o ++ zeros (total - zlen o)) i). rewrite byte_zeros by lia. reflexivity. }
      rewrite G. cbn [bind]. rewrite write by lia. cbn [bind]. rewrite (proj2 (Z.ltb_lt (zlen o) total)) by lia.
      set (b := let i := zlen o - dist in byte o (if i <? 0 then total + i else i)). assert (ZL : zlen (o ++ [b]) = zlen o + 1) by (rewrite zlen_app, zlen_cons, zlen_nil; lia). cbn [left].
      destruct (total - zlen o - 1 =? 0) eqn:E.
      + eexists. split; [reflexivity|]. replace (total - zlen o - 1) with 0 by lia. unfold zeros, rep. cbn [Z.to_nat repeat]. rewrite app_nil_r. split; [|lia]. destruct n as [|n]; [reflexivity|]. cbn [again]. rewrite (proj2 (Z.ltb_ge _ _)) by lia. reflexivity.
      + specialize (IH p dist (o ++ [b]) D ltac:(lia) ltac:(lia)). rewrite ZL in IH. replace (zlen o + 1 - dist) with (zlen o - dist + 1) in IH by lia. unfold st in IH at 1. rewrite ZL in IH. replace (total - (zlen o + 1)) with (total - zlen o - 1) in IH by lia. exact IH.
  Qed.
  Lemma top_bit f k : 0 <= k <= 7 -> negb (Z.land (Z.shiftl f k) 128 =? 0) = Z.testbit f (7 - k).
  Proof.
    intros K. change 128 with (2 ^ 7). assert (E : Z.land (Z.shiftl f k) (2 ^ 7) = Z.b2z (Z.testbit f (7 - k)) * 2 ^ 7).
    { apply Z.bits_inj'. intros n N. rewrite Z.land_spec, Z.pow2_bits_eqb by lia. destruct (Z.eqb_spec 7 n) as [<-|NE].
      - rewrite Z.shiftl_spec by lia. rewrite andb_true_r. rewrite Z.mul_pow2_bits by lia. rewrite Z.sub_diag, Z.b2z_bit0. reflexivity.
      - rewrite andb_false_r. symmetry. destruct (Z.lt_ge_cases n 7) as [L|L]; [apply Z.mul_pow2_bits_low; exact L|]. rewrite Z.mul_pow2_bits by lia. destruct (Z.testbit f (7 - k)); cbn [Z.b2z]; [|apply Z.bits_0]. change 1 with (2 ^ 0). rewrite Z.pow2_bits_eqb by lia. apply Z.eqb_neq. lia. }
    rewrite E. destruct (Z.testbit f (7 - k)); reflexivity.
  Qed.
  Lemma block_step f n : forall k p o, 0 <= p -> (k + n = 8)%nat -> zlen o < total ->
    settles (lz10_block n d (Z.shiftl f (Z.of_nat k)) (st p o)) p [] (unpacks p (map (fun i => Z.testbit f (7 - Z.of_nat i)) (seq k n)) o).
  Proof.
    induction n as [|n IH]; intros k p o P K F; cbn [lz10_block seq map].
    - exists p, o. split; [reflexivity|]. split; [exact F|]. split; [lia|]. intros r. reflexivity.
    - rewrite top_bit by lia. set (bs := map (fun i => Z.testbit f (7 - Z.of_nat i)) (seq (S k) n)) in *. destruct (Z.testbit f (7 - Z.of_nat k)).
      + cbn [st inPos out outPos left]. destruct (Z.le_gt_cases (p + 2) (zlen d)) as [L|L].
        * assert (U : unpack_e BE 2 d p = Ok (byte d p * 256 + byte d (p + 1))).
          { unfold unpack_e. rewrite rd_in by lia. cbn [bind]. unfold part. change (Z.to_nat (Z.of_nat 2)) with 2%nat. rewrite skipn_byte by lia. replace (S (Z.to_nat p)) with (Z.to_nat (p + 1)) by lia. rewrite skipn_byte by lia. cbn [firstn dec]. unfold unbe. cbn [rev app unle]. f_equal. lia. }
          rewrite U. cbn [bind]. pose proof (byte_range d p B ltac:(lia)) as R1. pose proof (byte_range d (p + 1) B ltac:(lia)) as R2.
          set (v := byte d p * 256 + byte d (p + 1)). assert (V1 : Z.shiftr v 12 + 3 = byte d p / 16 + 3) by (unfold v; rewrite Z.shiftr_div_pow2 by lia; change (2 ^ 12) with (256 * 16); rewrite <- Z.div_div by lia; rewrite Z.div_add_l by lia; rewrite (Z.div_small (byte d (p + 1))) by lia; rewrite Z.add_0_r; reflexivity).
          assert (V2 : Z.land v 0xFFF = byte d p mod 16 * 256 + byte d (p + 1)).
          { change 0xFFF with (Z.ones 12). rewrite Z.land_ones by lia. unfold v. change (2 ^ 12) with 4096. rewrite (Z.div_mod (byte d p) 16) at 1 by lia. replace ((16 * (byte d p / 16) + byte d p mod 16) * 256 + byte d (p + 1)) with (byte d p mod 16 * 256 + byte d (p + 1) + (byte d p / 16) * 4096) by lia. rewrite Z.mod_add by lia. apply Z.mod_small. pose proof (Z.mod_pos_bound (byte d p) 16 ltac:(lia)). lia. }
          rewrite V1, V2. set (len := byte d p / 16 + 3). set (f12 := byte d p mod 16 * 256 + byte d (p + 1)). assert (F12 : 0 <= f12) by (unfold f12; pose proof (Z.mod_pos_bound (byte d p) 16 ltac:(lia)); lia).
          assert (LEN : 3 <= len) by (unfold len; pose proof (Z.div_pos (byte d p) 16 ltac:(lia) ltac:(lia)); lia).
          replace (zlen o - f12 - 1) with (zlen o - (f12 + 1)) by lia. change {| inPos := p + 2; out := o ++ zeros (total - zlen o); outPos := zlen o; left := total - zlen o |} with (st (p + 2) o).
          destruct (Z.le_gt_cases (f12 + 1) (total + zlen o)) as [W|W].
          -- destruct (copy_step (Z.to_nat len) (p + 2) (f12 + 1) o ltac:(lia) F W) as (x & -> & X). cbn [bind].
             assert (RF : forall r, unpacks p (true :: bs) o r <-> unpacks (p + 2) bs (again total (Z.to_nat len) (f12 + 1) o) r).
             { intros r. rewrite reference_iff by exact F. fold len f12. split; [intros (_ & o' & (_ & ->) & H); exact H|]. intros H. split; [exact L|]. exists (again total (Z.to_nat len) (f12 + 1) o). split; [split; [exact W|reflexivity]|exact H]. }
             destruct x as [s|r0].
             ++ destruct X as (-> & F'). rewrite Z.shiftl_shiftl by lia. replace (Z.of_nat k + 1) with (Z.of_nat (S k)) by lia. specialize (IH (S k) (p + 2) _ ltac:(lia) ltac:(lia) F'). fold bs in IH.
                destruct (lz10_block n d (Z.shiftl f (Z.of_nat (S k))) (st (p + 2) (again total (Z.to_nat len) (f12 + 1) o))) as [[s|r0]|e]; cbn [settles] in *.
                ** destruct IH as (p' & o' & -> & F'' & PP & Q). exists p', o'. split; [reflexivity|]. split; [exact F''|]. split; [lia|]. intros r. rewrite RF. apply Q.
                ** intros r. rewrite RF. apply IH.
                ** intros r. rewrite RF. apply IH.
             ++ destruct X as (-> & F'). cbn [settles]. intros r. rewrite RF. apply full_iff. exact F'.
          -- replace (Z.to_nat len) with (S (Z.to_nat (len - 1))) by lia. cbn [lz10_copy st out]. unfold get at 1. assert (ZT : zlen (o ++ zeros (total - zlen o)) = total) by (rewrite zlen_app, zlen_zeros by lia; lia). rewrite ZT.
             pose proof (zlen_nonneg o). rewrite (proj2 (Z.ltb_lt (zlen o - (f12 + 1)) 0)) by lia. rewrite (proj2 (Z.ltb_lt (zlen o - (f12 + 1) + total) 0)) by lia. cbn [bind settles]. intros r H0. apply reference_iff in H0; [|exact F]. destruct H0 as (_ & o' & (C & _) & _). fold f12 in C. lia.
        * destruct (unpack_e BE 2 d p) as [v|x] eqn:U; [unfold unpack_e in U; apply bind_ok in U as (b & R & _); apply rd_inv in R as (R & _); lia|]. cbn [bind settles]. intros r H. apply reference_iff in H; [lia|exact F].
      + pose proof (lit_step p bs o P F) as LS. destruct (lz10_lit d (st p o)) as [[s|r0]|e]; cbn [settles bind] in *.
        * destruct LS as (p' & o' & -> & F' & PP & Q). rewrite Z.shiftl_shiftl by lia. replace (Z.of_nat k + 1) with (Z.of_nat (S k)) by lia. specialize (IH (S k) p' o' ltac:(lia) ltac:(lia) F'). fold bs in IH.
          destruct (lz10_block n d (Z.shiftl f (Z.of_nat (S k))) (st p' o')) as [[s|r0]|e]; cbn [settles] in *.
          -- destruct IH as (p'' & o'' & -> & F'' & PP' & Q'). exists p'', o''. split; [reflexivity|]. split; [exact F''|]. split; [lia|]. intros r. rewrite Q. apply Q'.
          -- intros r. rewrite Q. apply IH.
          -- intros r. rewrite Q. apply IH.
        * exact LS.
        * exact LS.
  Qed.
  Lemma raw_step n : forall p o, 0 <= p -> zlen o < total -> settles (lz10_raw n d (st p o)) p [] (unpacks p (repeat false n) o).
  Proof.
    induction n as [|n IH]; intros p o P F; cbn [lz10_raw repeat].
    - exists p, o. split; [reflexivity|]. split; [exact F|]. split; [lia|]. intros r. reflexivity.
    - pose proof (lit_step p (repeat false n) o P F) as LS. destruct (lz10_lit d (st p o)) as [[s|r0]|e]; cbn [settles bind] in *; [|exact LS|exact LS].
      destruct LS as (p' & o' & -> & F' & PP & Q). specialize (IH p' o' ltac:(lia) F'). destruct (lz10_raw n d (st p' o')) as [[s|r0]|e]; cbn [settles] in *.
      + destruct IH as (p'' & o'' & -> & F'' & PP' & Q'). exists p'', o''. split; [reflexivity|]. split; [exact F''|]. split; [lia|]. intros r. rewrite Q. apply Q'.
      + intros r. rewrite Q. apply IH.
      + intros r. rewrite Q. apply IH.
  Qed.
  Lemma loop_iff fuel : forall p o r, 0 <= p -> zlen o <= total -> zlen d - p < Z.of_nat fuel -> (0 < fuel)%nat -> lz10_loop fuel d (st p o) = Ok r <-> unpacks p [] o r.
  Proof.
    induction fuel as [|fuel IH]; intros p o r P F L0 FU; [lia|]. cbn [lz10_loop]. cbn [st inPos out outPos left]. destruct (0 <? total - zlen o) eqn:E.
    - assert (F' : zlen o < total) by lia. rewrite flags_iff by exact F'. destruct (Z.le_gt_cases (zlen d) p) as [L|L]; [rewrite get_ge by exact L; cbn [bind]; split; [discriminate|intros (A & _); lia]|]. rewrite get_byte by lia. cbn [bind].
      change {| inPos := p + 1; out := o ++ zeros (total - zlen o); outPos := zlen o; left := total - zlen o |} with (st (p + 1) o).
      assert (SB : settles (if negb (byte d p =? 0) then lz10_block 8 d (byte d p) (st (p + 1) o) else lz10_raw 8 d (st (p + 1) o)) (p + 1) [] (unpacks (p + 1) (bits (byte d p)) o)).
      { destruct (byte d p =? 0) eqn:Z0; cbn [negb].
        - apply Z.eqb_eq in Z0. rewrite Z0. change (bits 0) with (repeat false 8). apply raw_step; lia.
        - pose proof (block_step (byte d p) 8 0 (p + 1) o ltac:(lia) eq_refl F') as BS. rewrite Z.shiftl_0_r in BS. exact BS. }
      destruct (if negb (byte d p =? 0) then lz10_block 8 d (byte d p) (st (p + 1) o) else lz10_raw 8 d (st (p + 1) o)) as [[s|r0]|e]; cbn [settles bind] in *.
      + destruct SB as (p' & o' & -> & F'' & PP & Q). destruct fuel as [|fuel]; [lia|]. rewrite IH by lia. rewrite Q. split; [intros H; split; [lia|exact H]|intros (_ & H); exact H].
      + rewrite SB. split; [intros H; apply SeqRead.ok_inj in H; split; [lia|symmetry; exact H]|intros (_ & H); rewrite H; reflexivity].
      + split; [discriminate|]. intros (_ & H). destruct (SB r H).
    - assert (F' : zlen o = total) by lia. rewrite (full_iff _ _ _ _ _ _ _ F'). rewrite F', Z.sub_diag. change (zeros 0) with (@nil Z). rewrite app_nil_r. split; [intros H; apply SeqRead.ok_inj in H; symmetry; exact H|intros ->; reflexivity].
  Qed.
End Lz10.
Theorem lz10_iff d r : is_bytes d -> lz10_decompress d = Ok r <-> lz10_means d r.
Proof.
  intros B. unfold lz10_decompress, lz10_means. destruct (Z.le_gt_cases 1 (zlen d)) as [L1|L1]; [|rewrite get_ge by lia; cbn [bind]; split; [discriminate|intros (A & _); lia]].
  rewrite get_byte by lia. cbn [bind]. destruct (byte d 0 =? 16) eqn:E; cbn [negb]; [|split; [discriminate|intros (_ & A & _); lia]]. destruct (Z.le_gt_cases 4 (zlen d)) as [L|L].
  - rewrite unpack_word by lia. cbn [bind]. assert (T : Z.shiftr (word d 0) 8 = unle (part d 1 3)).
    { rewrite Z.shiftr_div_pow2 by lia. rewrite word_part by lia. unfold part. change (Z.to_nat 4) with 4%nat. change (Z.to_nat 3) with 3%nat. change (Z.to_nat 0) with 0%nat. change (Z.to_nat 1) with 1%nat. destruct d as [|a d]; [discriminate|]. cbn [skipn firstn unle]. inversion B as [|? ? BA BD]. unfold is_byte in BA. change (2 ^ 8) with 256. rewrite Z.add_comm, Z.mul_comm, Z.div_add_l by lia. rewrite Z.div_small by lia. rewrite Z.add_0_r. reflexivity. }
    rewrite T. assert (T0 : 0 <= unle (part d 1 3)) by (apply unle_range; apply is_bytes_part; exact B). pose proof (loop_iff d (unle (part d 1 3)) B (S (length d)) 4 [] r ltac:(lia) T0 ltac:(unfold zlen; lia) ltac:(lia)) as LI.
    unfold st in LI. change (zlen (@nil Z)) with 0 in LI. rewrite Z.sub_0_r in LI. cbn [app] in LI. rewrite LI. split; [intros H; split; [exact L|split; [lia|exact H]]|intros (_ & _ & H); exact H].
  - split; [|intros (A & _); lia]. intros H. apply bind_ok in H as (w & U & _). apply word_inv in U as (U & _); lia.
Qed.


(** ** compressed code *)
Lemma get_rev {A} (l : list A) i : 0 <= i -> get (rev l) (-1 - i) = get l i.
Proof.
  intros I. unfold get. rewrite (proj2 (Z.ltb_lt (-1 - i) 0)), (proj2 (Z.ltb_ge i 0)) by lia. unfold zlen. rewrite rev_length. rewrite (proj2 (Z.ltb_ge i 0)) by lia. destruct (Z.lt_ge_cases i (Z.of_nat (length l))) as [L|L].
  - rewrite (proj2 (Z.ltb_ge _ 0)) by lia. replace (nth_error (rev l) (Z.to_nat (-1 - i + Z.of_nat (length l)))) with (nth_error l (Z.to_nat i)); [reflexivity|].
    destruct (nth_error l (Z.to_nat i)) as [x|] eqn:E; [|apply nth_error_None in E; lia]. apply nth_error_split in E as (a & b & -> & LA). rewrite rev_app_distr. cbn [rev]. rewrite <- app_assoc. cbn [app]. rewrite app_length in L |- *. cbn [length] in L |- *.
    rewrite nth_error_app2 by (rewrite rev_length; lia). rewrite rev_length. replace (Z.to_nat (-1 - i + Z.of_nat (length a + S (length b))) - length b)%nat with 0%nat by lia. reflexivity.
  - rewrite (proj2 (Z.ltb_lt _ 0)) by lia. rewrite (proj2 (nth_error_None l (Z.to_nat i))) by lia. reflexivity.
Qed.
Lemma setl_rev {A} (l : list A) i x : 0 <= i -> setl (rev l) (-1 - i) x = match setl l i x with Ok r => Ok (rev r) | Err e => Err e end.
Proof.
  intros I. unfold setl. rewrite (proj2 (Z.ltb_lt (-1 - i) 0)), (proj2 (Z.ltb_ge i 0)) by lia. unfold zlen. rewrite rev_length. rewrite (proj2 (Z.ltb_ge i 0)) by lia. cbn [orb]. destruct (Z.lt_ge_cases i (Z.of_nat (length l))) as [L|L].
  - rewrite (proj2 (Z.ltb_ge _ 0)), !(proj2 (Z.leb_gt _ _)) by lia. cbn [orb]. f_equal.
    destruct (nth_error l (Z.to_nat i)) as [y|] eqn:E; [|apply nth_error_None in E; lia]. apply nth_error_split in E as (a & b & -> & LA). rewrite <- LA, upd_mid. rewrite !rev_app_distr. cbn [rev]. rewrite <- !app_assoc. cbn [app]. rewrite app_length in L |- *. cbn [length] in L |- *.
    replace (Z.to_nat (-1 - i + Z.of_nat (length a + S (length b)))) with (length (rev b)) by (rewrite rev_length; lia). apply upd_mid.
  - rewrite (proj2 (Z.ltb_lt _ 0)), (proj2 (Z.leb_le _ i)) by lia. reflexivity.
Qed.
Lemma zlen_rev {A} (l : list A) : zlen (rev l) = zlen l.
Proof. unfold zlen. rewrite rev_length. reflexivity. Qed.
Lemma rev_zeros k : rev (zeros k) = zeros k.
Proof.
  unfold zeros, rep. induction (Z.to_nat k) as [|n IH]; [reflexivity|]. cbn [repeat rev]. rewrite IH. clear. induction n as [|n IH]; [reflexivity|]. cbn [repeat app]. rewrite IH. reflexivity.
Qed.
Section CodeLoop.
  Variables (c : bytes) (total dataLen compressedLen : Z).
  Hypothesis B : is_bytes c. Hypothesis L1 : zlen c <= dataLen. Hypothesis L2 : zlen c <= compressedLen.
  Local Notation unpacks := (unpacks c total (copy_code total)).
  Definition pend (f : Z) (m : nat) : list bool := map (fun i => Z.testbit f (7 - Z.of_nat i)) (seq (8 - m) m).
  Definition cs (p : Z) (o : bytes) (f : Z) (m : nat) : cstate := {| outSize := zlen o; readBytes := p; flags := f; mask := 2 ^ Z.of_nat m; decomp := rev (o ++ zeros (total - zlen o)) |}.
  Lemma pend_S f m : (m < 8)%nat -> pend f (S m) = Z.testbit f (Z.of_nat m) :: pend f m.
  Proof. intros M. unfold pend. replace (8 - m)%nat with (S (8 - S m)) by lia. cbn [seq map]. f_equal. f_equal. lia. Qed.
  Lemma mask_bit f m : negb (Z.land f (2 ^ Z.of_nat m) =? 0) = Z.testbit f (Z.of_nat m).
  Proof.
    assert (E : Z.land f (2 ^ Z.of_nat m) = Z.b2z (Z.testbit f (Z.of_nat m)) * 2 ^ Z.of_nat m).
    { apply Z.bits_inj'. intros n N. rewrite Z.land_spec, Z.pow2_bits_eqb by lia. destruct (Z.lt_ge_cases n (Z.of_nat m)) as [L|L].
      - rewrite Z.mul_pow2_bits_low by exact L. rewrite (proj2 (Z.eqb_neq (Z.of_nat m) n)) by lia. apply andb_false_r.
      - rewrite Z.mul_pow2_bits by lia. destruct (Z.eqb_spec (Z.of_nat m) n) as [<-|NE]; [rewrite Z.sub_diag, Z.b2z_bit0; apply andb_true_r|]. rewrite andb_false_r. symmetry. destruct (Z.testbit f (Z.of_nat m)); cbn [Z.b2z]; [|apply Z.bits_0]. change 1 with (2 ^ 0). rewrite Z.pow2_bits_eqb by lia. apply Z.eqb_neq. lia. }
    rewrite E. pose proof (Z.pow_pos_nonneg 2 (Z.of_nat m) ltac:(lia) ltac:(lia)). destruct (Z.testbit f (Z.of_nat m)); cbn [Z.b2z]; [rewrite (proj2 (Z.eqb_neq _ _)) by lia|]; reflexivity.
  Qed.
  Lemma ccopy n : forall dist o, 0 < dist <= zlen o -> zlen o <= total ->
    match code_copy n (rev (o ++ zeros (total - zlen o))) (zlen o - dist) (zlen o) with
    | Ok (dd, k) => zlen o + Z.of_nat n <= total /\ k = zlen o + Z.of_nat n /\ dd = rev (again total n dist o ++ zeros (total - k))
    | Err _ => total < zlen o + Z.of_nat n
    end.
  Proof.
    induction n as [|n IH]; intros dist o D T; cbn [code_copy again].
    - change (Z.of_nat 0) with 0. rewrite Z.add_0_r. split; [exact T|]. split; reflexivity.
    - rewrite get_rev by lia. rewrite get_byte by (rewrite zlen_app, zlen_zeros by lia; lia). cbn [bind]. rewrite byte_zeros by lia. rewrite setl_rev by apply zlen_nonneg. destruct (zlen o <? total) eqn:E.
      + rewrite write by lia. cbn [bind]. cbv zeta. rewrite (proj2 (Z.ltb_ge (zlen o - dist) 0)) by lia. set (b := byte o (zlen o - dist)). assert (ZL : zlen (o ++ [b]) = zlen o + 1) by (rewrite zlen_app, zlen_cons, zlen_nil; lia).
        specialize (IH dist (o ++ [b]) ltac:(lia) ltac:(lia)). rewrite ZL in IH. replace (total - (zlen o + 1)) with (total - zlen o - 1) in IH by lia. replace (zlen o + 1 - dist) with (zlen o - dist + 1) in IH by lia.
        destruct (code_copy n (rev ((o ++ [b]) ++ zeros (total - zlen o - 1))) (zlen o - dist + 1) (zlen o + 1)) as [[dd k]|e]; [|lia]. destruct IH as (A1 & A2 & A3). split; [lia|]. split; [lia|exact A3].
      + assert (zlen o = total) as -> by lia. unfold setl. rewrite zlen_app, zlen_zeros by lia. assert (ZT : zlen o = total) by lia. rewrite ZT. rewrite (proj2 (Z.ltb_ge total 0)) by (rewrite <- ZT; apply zlen_nonneg). rewrite (proj2 (Z.ltb_ge total 0)) by (rewrite <- ZT; apply zlen_nonneg). rewrite (proj2 (Z.leb_le _ total)) by lia. cbn [orb bind]. lia.
  Qed.
  (** a token whose flag is bit [m] of [f] *)
  Lemma token_step p o f m : 0 <= p -> zlen o < total -> (m < 8)%nat ->
    match (let s1 := cs p o f m in
      if negb (Z.land (flags s1) (mask s1) =? 0) then
        if dataLen <=? readBytes s1 + 1 then Err RuntimeError
        else
          byte1 <- get (rev c) (-1 - readBytes s1) ;;
          byte2 <- get (rev c) (-1 - (readBytes s1 + 1)) ;;
          let len := Z.shiftr byte1 4 + 3 in
          let disp0 := Z.lor (Z.shiftl (Z.land byte1 0x0F) 8) byte2 + 3 in
          disp <- (if outSize s1 <? disp0 then
                     if outSize s1 <? 2 then Err RuntimeError else Ok 2
                   else Ok disp0) ;;
          '(dd, o) <- code_copy (Z.to_nat len) (decomp s1) (outSize s1 - disp) (outSize s1) ;;
          Ok {| outSize := o; readBytes := readBytes s1 + 2; flags := flags s1; mask := mask s1; decomp := dd |}
      else
        if dataLen <? readBytes s1 then Err RuntimeError
        else
          x <- get (rev c) (-1 - readBytes s1) ;;
          dd <- setl (decomp s1) (-1 - outSize s1) x ;;
          Ok {| outSize := outSize s1 + 1; readBytes := readBytes s1 + 1; flags := flags s1; mask := mask s1; decomp := dd |}) with
    | Ok s' => exists p' o', s' = cs p' o' f m /\ zlen o' <= total /\ p < p' /\ forall r, unpacks p (pend f (S m)) o r <-> unpacks p' (pend f m) o' r
    | Err _ => forall r, ~ unpacks p (pend f (S m)) o r
    end.
  Proof.
    intros P F M. cbv zeta. rewrite pend_S by exact M. cbn [cs flags mask readBytes outSize decomp]. rewrite mask_bit. pose proof (zlen_nonneg o) as ZO. destruct (Z.testbit f (Z.of_nat m)).
    - destruct (Z.le_gt_cases (p + 2) (zlen c)) as [L|L].
      + rewrite (proj2 (Z.leb_gt dataLen (p + 1))) by lia. rewrite !get_rev by lia. rewrite !get_byte by lia. cbn [bind].
        pose proof (byte_range c p B ltac:(lia)) as R1. pose proof (byte_range c (p + 1) B ltac:(lia)) as R2. pose proof (Z.mod_pos_bound (byte c p) 16 ltac:(lia)) as M16. pose proof (Z.div_pos (byte c p) 16 ltac:(lia) ltac:(lia)) as D16.
        assert (V1 : Z.shiftr (byte c p) 4 = byte c p / 16) by (rewrite Z.shiftr_div_pow2 by lia; reflexivity).
        assert (V2 : Z.lor (Z.shiftl (Z.land (byte c p) 15) 8) (byte c (p + 1)) = byte c p mod 16 * 256 + byte c (p + 1)).
        { change 15 with (Z.ones 4). rewrite Z.land_ones by lia. change (2 ^ 4) with 16. rewrite Z.lor_comm, lor_add by lia. change (2 ^ 8) with 256. lia. }
        rewrite V1, V2. set (len := byte c p / 16 + 3). set (f12 := byte c p mod 16 * 256 + byte c (p + 1)). assert (F12 : 0 <= f12) by (unfold f12; lia). assert (LEN : 3 <= len) by (unfold len; lia).
        assert (RF : forall r, unpacks p (true :: pend f m) o r <-> zlen o + len <= total /\ (zlen o < f12 + 3 -> 2 <= zlen o) /\ unpacks (p + 2) (pend f m) (again total (Z.to_nat len) (if zlen o <? f12 + 3 then 2 else f12 + 3) o) r).
        { intros r. rewrite reference_iff by exact F. fold len f12. split.
          - intros (_ & o' & (C1 & C2 & ->) & H). split; [exact C1|]. split; [exact C2|exact H].
          - intros (C1 & C2 & H). split; [exact L|]. eexists. split; [split; [exact C1|split; [exact C2|reflexivity]]|exact H]. }
        clearbody len f12. clear V1 V2 R1 R2 M16 D16.
        assert (GO : forall dist, (zlen o < f12 + 3 -> 2 <= zlen o) -> dist = (if zlen o <? f12 + 3 then 2 else f12 + 3) -> 0 < dist <= zlen o -> match ('(dd, o0) <- code_copy (Z.to_nat len) (rev (o ++ zeros (total - zlen o))) (zlen o - dist) (zlen o) ;;
              Ok {| outSize := o0; readBytes := p + 2; flags := f; mask := 2 ^ Z.of_nat m; decomp := dd |}) with
            | Ok s' => exists p' o', s' = cs p' o' f m /\ zlen o' <= total /\ p < p' /\ forall r, unpacks p (true :: pend f m) o r <-> unpacks p' (pend f m) o' r
            | Err _ => forall r, ~ unpacks p (true :: pend f m) o r
            end).
        { intros dist C2 DE DR. pose proof (ccopy (Z.to_nat len) dist o DR ltac:(lia)) as CC. destruct (code_copy (Z.to_nat len) (rev (o ++ zeros (total - zlen o))) (zlen o - dist) (zlen o)) as [[dd k]|e]; cbn [bind].
          - destruct CC as (A1 & A2 & A3). rewrite Z2Nat.id in A1, A2 by lia. exists (p + 2), (again total (Z.to_nat len) dist o). assert (AL : zlen (again total (Z.to_nat len) dist o) = zlen o + len) .
          { rewrite (again_len total (Z.to_nat len) dist o (Z.lt_le_incl _ _ F)). rewrite Z2Nat.id by lia. apply Z.min_r. exact A1. }
          
            split; [unfold cs; rewrite AL, A3, A2; reflexivity|]. split; [lia|]. split; [lia|]. intros r. rewrite RF. rewrite <- DE. split; [intros (_ & _ & H); exact H|]. intros H. split; [exact A1|]. split; [exact C2|exact H].
          - rewrite Z2Nat.id in CC by lia. intros r H. apply RF in H as (H & _). lia. }
        destruct (zlen o <? f12 + 3) eqn:E1; [destruct (zlen o <? 2) eqn:E2|]; cbn [bind].
        * intros r H. apply RF in H as (_ & H & _). lia.
        * apply GO; [lia|reflexivity|lia].
        * apply GO; [lia|reflexivity|lia].
      + assert (NO : forall r, ~ unpacks p (true :: pend f m) o r) by (intros r H; apply reference_iff in H; [lia|exact F]). destruct (dataLen <=? p + 1); [exact NO|]. rewrite !get_rev by lia. destruct (get c p) as [b1|x1]; cbn [bind]; [|exact NO]. rewrite (get_ge c (p + 1)) by lia. exact NO.
    - destruct (Z.lt_ge_cases p (zlen c)) as [L|L].
      + rewrite (proj2 (Z.ltb_ge dataLen p)) by lia. rewrite get_rev by lia. rewrite get_byte by lia. cbn [bind]. rewrite setl_rev by lia. rewrite write by lia. cbn [bind]. assert (ZL : zlen (o ++ [byte c p]) = zlen o + 1) by (rewrite zlen_app, zlen_cons, zlen_nil; lia).
        exists (p + 1), (o ++ [byte c p]). split; [unfold cs; rewrite ZL; replace (total - (zlen o + 1)) with (total - zlen o - 1) by lia; reflexivity|]. split; [lia|]. split; [lia|]. intros r. rewrite literal_iff by exact F. split; [intros (_ & H); exact H|intros H; split; [exact L|exact H]].
      + assert (NO : forall r, ~ unpacks p (false :: pend f m) o r) by (intros r H; apply literal_iff in H; [lia|exact F]). destruct (dataLen <? p); [exact NO|]. rewrite get_rev by lia. rewrite get_ge by lia. exact NO.
  Qed.
  Lemma iter_step p o f m : 0 <= p -> zlen o < total -> (m < 8)%nat ->
    match code_iter dataLen compressedLen (rev c) (cs p o f m) with
    | Ok s' => exists p' o' f' m', s' = cs p' o' f' m' /\ zlen o' <= total /\ p < p' /\ (m' < 8)%nat /\ forall r, unpacks p (pend f m) o r <-> unpacks p' (pend f' m') o' r
    | Err _ => forall r, ~ unpacks p (pend f m) o r
    end.
  Proof.
    intros P F M. unfold code_iter. cbn [cs mask readBytes outSize flags decomp]. destruct m as [|m].
    - change (2 ^ Z.of_nat 0 =? 1) with true. cbv iota. destruct (Z.lt_ge_cases p (zlen c)) as [L|L].
      + rewrite (proj2 (Z.leb_gt compressedLen p)) by lia. rewrite get_rev by lia. rewrite get_byte by lia. cbn [bind]. change {| outSize := zlen o; readBytes := p + 1; flags := byte c p; mask := 128; decomp := rev (o ++ zeros (total - zlen o)) |} with (cs (p + 1) o (byte c p) 7).
        assert (FI : forall r, unpacks p (pend f 0) o r <-> unpacks (p + 1) (pend (byte c p) 8) o r).
        { intros r. change (pend f 0) with (@nil bool). rewrite flags_iff by exact F. change (pend (byte c p) 8) with (bits (byte c p)). split; [intros (_ & H); exact H|intros H; split; [exact L|exact H]]. }
        pose proof (token_step (p + 1) o (byte c p) 7 ltac:(lia) F ltac:(lia)) as TS. cbv zeta in TS.
        match type of TS with match ?X with _ => _ end => match goal with |- match ?Y with _ => _ end => change Y with X; destruct X as [s'|e] end end.
        * destruct TS as (p' & o' & -> & Z' & PP & Q). exists p', o', (byte c p), 7%nat. split; [reflexivity|]. split; [exact Z'|]. split; [lia|]. split; [lia|]. intros r. rewrite FI. apply Q.
        * intros r. rewrite FI. apply TS.
      + assert (NO : forall r, ~ unpacks p (pend f 0) o r) by (intros r H; change (pend f 0) with (@nil bool) in H; apply flags_iff in H; [lia|exact F]). destruct (compressedLen <=? p); [exact NO|]. rewrite get_rev by lia. rewrite get_ge by lia. exact NO.
    - assert (M1 : (2 ^ Z.of_nat (S m) =? 1) = false). { apply Z.eqb_neq. pose proof (Z.pow_gt_1 2 (Z.of_nat (S m)) ltac:(lia)) as G. lia. } rewrite M1. cbn [bind].
      assert (M2 : Z.shiftr (2 ^ Z.of_nat (S m)) 1 = 2 ^ Z.of_nat m). { rewrite Z.shiftr_div_pow2 by lia. replace (Z.of_nat (S m)) with (Z.of_nat m + 1) by lia. rewrite Z.pow_add_r by lia. apply Z.div_mul. lia. } rewrite M2.
      pose proof (token_step p o f m P F ltac:(lia)) as TS. cbv zeta in TS.
      match type of TS with match ?X with _ => _ end => match goal with |- match ?Y with _ => _ end => change Y with X; destruct X as [s'|e] end end.
      + destruct TS as (p' & o' & -> & Z' & PP & Q). exists p', o', f, m. split; [reflexivity|]. split; [exact Z'|]. split; [lia|]. split; [lia|exact Q].
      + exact TS.
  Qed.
  Lemma cloop_iff fuel : forall p o f m r, 0 <= p -> zlen o <= total -> (m < 8)%nat -> zlen c - p < Z.of_nat fuel -> (0 < fuel)%nat ->
    code_loop fuel dataLen compressedLen total (rev c) (cs p o f m) = Ok r <-> exists out, r = rev out /\ unpacks p (pend f m) o out.
  Proof.
    induction fuel as [|fuel IH]; intros p o f m r P Z1 M FU FP; [lia|]. cbn [code_loop]. change (outSize (cs p o f m)) with (zlen o). change (decomp (cs p o f m)) with (rev (o ++ zeros (total - zlen o))). destruct (zlen o <? total) eqn:E.
    - pose proof (iter_step p o f m P ltac:(lia) M) as IS. destruct (code_iter dataLen compressedLen (rev c) (cs p o f m)) as [s'|e]; cbn [bind].
      + destruct IS as (p' & o' & f' & m' & -> & Z' & PP & M' & Q). destruct fuel as [|fuel].
        * cbn [code_loop]. split; [discriminate|]. intros (out0 & _ & U). exfalso. inversion U; subst; lia.
        * rewrite IH by lia. split; intros (out0 & R & U); exists out0; (split; [exact R|apply Q; exact U]).
      + split; [discriminate|]. intros (out0 & _ & U). destruct (IS _ U).
    - assert (ZT : zlen o = total) by lia. rewrite ZT, Z.sub_diag. change (zeros 0) with (@nil Z). rewrite app_nil_r. split.
      + intros H. apply SeqRead.ok_inj in H. exists o. split; [symmetry; exact H|]. constructor. exact ZT.
      + intros (out0 & -> & U). apply full_iff in U; [|exact ZT]. rewrite U. reflexivity.
  Qed.
End CodeLoop.

(** ** the end of the file *)
Lemma part_full d : part d 0 (zlen d) = d.
Proof. unfold part, zlen. change (Z.to_nat 0) with 0%nat. rewrite Nat2Z.id. apply firstn_all. Qed.
Lemma three_one d p : is_bytes d -> 0 <= p -> p + 4 <= zlen d -> Z.shiftr (word d p) 24 = byte d (p + 3) /\ Z.land (word d p) 0xFFFFFF = unle (part d p 3).
Proof.
  intros B P L. rewrite word_part by lia. unfold part. change (Z.to_nat 4) with 4%nat. change (Z.to_nat 3) with 3%nat.
  rewrite skipn_byte by lia. replace (S (Z.to_nat p)) with (Z.to_nat (p + 1)) by lia. rewrite skipn_byte by lia. replace (S (Z.to_nat (p + 1))) with (Z.to_nat (p + 2)) by lia. rewrite skipn_byte by lia. replace (S (Z.to_nat (p + 2))) with (Z.to_nat (p + 3)) by lia. rewrite skipn_byte by lia. cbn [firstn unle].
  pose proof (byte_range d p B ltac:(lia)) as R0. pose proof (byte_range d (p + 1) B ltac:(lia)) as R1. pose proof (byte_range d (p + 2) B ltac:(lia)) as R2. pose proof (byte_range d (p + 3) B ltac:(lia)) as R3.
  set (a0 := byte d p) in *. set (a1 := byte d (p + 1)) in *. set (a2 := byte d (p + 2)) in *. set (a3 := byte d (p + 3)) in *. clearbody a0 a1 a2 a3.
  replace (a0 + 256 * (a1 + 256 * (a2 + 256 * (a3 + 256 * 0)))) with (a0 + 256 * (a1 + 256 * (a2 + 256 * 0)) + a3 * 2 ^ 24) by (change (2 ^ 24) with 16777216; lia). split.
  - rewrite Z.shiftr_div_pow2 by lia. rewrite Z.div_add by (apply Z.pow_nonzero; lia). rewrite Z.div_small by (change (2 ^ 24) with 16777216; lia). lia.
  - change 0xFFFFFF with (Z.ones 24). rewrite Z.land_ones by lia. rewrite Z.mod_add by (apply Z.pow_nonzero; lia). apply Z.mod_small. change (2 ^ 24) with 16777216. lia.
Qed.
Lemma detect_one_is d a : is_bytes d -> 0 <= a ->
  match detect_one d a with
  | Ok None => a + 8 <= zlen d /\ ~ sensible d a
  | Ok (Some None) => zlen d < a + 5
  | Ok (Some (Some b)) => a + 8 <= zlen d /\ sensible d a /\ b = a
  | Err _ => a + 5 <= zlen d < a + 8
  end.
Proof.
  intros B A. unfold detect_one. destruct (Z.lt_ge_cases (zlen d) (a + 5)) as [L|L].
  - unfold get. rewrite (proj2 (Z.ltb_lt (-5 - a) 0)), (proj2 (Z.ltb_lt (-5 - a + zlen d) 0)) by lia. exact L.
  - assert (G : exists x, get d (-5 - a) = Ok x).
    { unfold get. rewrite (proj2 (Z.ltb_lt (-5 - a) 0)), (proj2 (Z.ltb_ge (-5 - a + zlen d) 0)) by lia. destruct (nth_error d (Z.to_nat (-5 - a + zlen d))) as [x|] eqn:E; [exists x; reflexivity|]. apply nth_error_None in E. unfold zlen in E, L. lia. }
    destruct G as (x & ->). destruct (Z.lt_ge_cases (zlen d) (a + 8)) as [L8|L8].
    + unfold unpack_u, unpack_e, rd, struct_off. change (Z.of_nat 4) with 4. rewrite (proj2 (Z.ltb_lt (zlen d - a - 8) 0)) by lia.
      rewrite (proj2 (Z.ltb_lt 0 (zlen d - a - 8 + 4))) by lia. cbn [orb bind]. lia.
    + rewrite unpack_word by lia. cbn [bind]. rewrite (unpack_word d (zlen d - a - 8 + 4)) by lia. cbn [bind]. destruct (three_one d (zlen d - a - 8) B ltac:(lia) ltac:(lia)) as (-> & ->). unfold sensible, end_len, comp_len.
      replace (zlen d - a - 8 + 3) with (zlen d - a - 5) by lia. destruct (byte d (zlen d - a - 5) <? 8) eqn:E1; [split; lia|]. destruct (zlen d <? unle (part d (zlen d - a - 8) 3)) eqn:E2; [split; lia|]. split; [lia|]. split; [split; lia|reflexivity].
Qed.
Fixpoint amts (a : Z) (n : nat) : list Z := match n with O => [] | S n => a :: amts (a + 4) n end.
Definition torn (d : bytes) : Prop := exists a, a mod 4 = 0 /\ 0 <= a < 32 /\ a + 5 <= zlen d < a + 8 /\ forall a', a' mod 4 = 0 -> 0 <= a' < a -> a' + 8 <= zlen d /\ ~ sensible d a'.
Lemma detect_from d n : is_bytes d -> forall a, a = 32 - 4 * Z.of_nat n -> 0 <= a -> (forall a', a' mod 4 = 0 -> 0 <= a' < a -> a' + 8 <= zlen d /\ ~ sensible d a') ->
  match detect_loop d (amts a n) with Ok (Some b) => appended d b | Ok None => plain d | Err _ => torn d end.
Proof.
  intros B. induction n as [|n IH]; intros a A A0 S; cbn [amts detect_loop].
  - exists 32. split; [reflexivity|]. split; [lia|]. split; [right; reflexivity|]. intros a' M R. apply S; lia.
  - assert (M4 : a mod 4 = 0) by (rewrite A; replace (32 - 4 * Z.of_nat (Datatypes.S n)) with ((8 - Z.of_nat (Datatypes.S n)) * 4) by lia; apply Z.mod_mul; lia).
    pose proof (detect_one_is d a B A0) as D. destruct (detect_one d a) as [[[b|]|]|e]; cbn [bind].
    + destruct D as (L & SE & ->). split; [exact M4|]. split; [lia|]. split; [exact L|]. split; [exact SE|]. intros a' M R. apply S; [exact M|lia].
    + exists a. split; [exact M4|]. split; [lia|]. split; [left; exact D|]. intros a' M R. apply S; [exact M|lia].
    + apply IH; [lia|lia|]. intros a' M R. destruct (Z.lt_ge_cases a' a) as [L|L]; [apply S; lia|]. assert (a' = a) as ->; [|exact D].
      pose proof (Z.div_mod a' 4 ltac:(lia)). pose proof (Z.div_mod a 4 ltac:(lia)). lia.
    + exists a. split; [exact M4|]. split; [lia|]. split; [exact D|]. intros a' M R. apply S; [exact M|lia].
Qed.
Lemma detect_is d : is_bytes d -> match detectAppendedData d with Ok (Some b) => appended d b | Ok None => plain d | Err _ => torn d end.
Proof. intros B. apply (detect_from d 8 B 0); [reflexivity|lia|]. intros a' M R. lia. Qed.
Lemma appended_plain d a : appended d a -> plain d -> False.
Proof. intros (M & R & L & S & _) (a' & _ & R' & E & N). destruct (N a M ltac:(lia)) as (_ & Q). apply Q. exact S. Qed.
Lemma appended_torn d a : appended d a -> torn d -> False.
Proof. intros (M & R & L & S & _) (a' & _ & R' & E & N). destruct (N a M ltac:(lia)) as (_ & Q). apply Q. exact S. Qed.
Lemma plain_torn d : plain d -> torn d -> False.
Proof. intros (a' & _ & R' & E' & N) (a & M & R & E & _). destruct (N a M ltac:(lia)) as (Q & _). lia. Qed.
Lemma appended_one d a b : appended d a -> appended d b -> a = b.
Proof. intros (M & R & _ & S & N) (M' & R' & _ & S' & N'). destruct (Z.lt_total a b) as [L|[L|L]]; [destruct (N' a M ltac:(lia) S)|exact L|destruct (N b M' ltac:(lia) S')]. Qed.
Lemma detect_none d : is_bytes d -> detectAppendedData d = Ok None <-> plain d.
Proof.
  intros B. pose proof (detect_is d B) as D. split; [intros E; rewrite E in D; exact D|]. intros P. destruct (detectAppendedData d) as [[b|]|e]; [destruct (appended_plain d b D P)|reflexivity|destruct (plain_torn d P D)].
Qed.
Lemma detect_some d a : is_bytes d -> detectAppendedData d = Ok (Some a) <-> appended d a.
Proof.
  intros B. pose proof (detect_is d B) as D. split; [intros E; rewrite E in D; exact D|]. intros P. destruct (detectAppendedData d) as [[b|]|e]; [rewrite (appended_one d a b P D); reflexivity|destruct (appended_plain d a P D)|destruct (appended_torn d a P D)].
Qed.
Lemma all_in d p n (P : Z -> bool) : 0 <= p -> 0 <= n -> p + n <= zlen d -> forallb P (part d p n) = true <-> forall i, p <= i < p + n -> P (byte d i) = true.
Proof.
  intros P0 N L. rewrite forallb_forall. pose proof (zlen_part d p n P0 N L) as ZP. split.
  - intros H i I. apply H. replace (byte d i) with (byte (part d p n) (i - p)); [unfold byte; apply nth_In; unfold zlen in ZP; lia|]. rewrite byte_in by lia. f_equal. lia.
  - intros H x X. apply (In_nth _ _ 0) in X as (k & K & E). assert (KZ : Z.of_nat k < n) by (unfold zlen in ZP; lia). specialize (H (p + Z.of_nat k) ltac:(lia)). rewrite <- (byte_in d p n) in H by lia. unfold byte in H. rewrite Nat2Z.id in H. rewrite E in H. exact H.
Qed.
Lemma slice_ends d h k : 0 < h -> 0 < k <= zlen d -> h <= zlen d -> slice d (- h) (- k) = part d (zlen d - h) (h - k).
Proof.
  intros H K L. unfold slice, clamp. rewrite (proj2 (Z.ltb_lt (- h) 0)), (proj2 (Z.ltb_lt (- k) 0)) by lia. rewrite !Z.max_r by lia. unfold part. do 2 f_equal; lia.
Qed.
Lemma slice_end d h : 0 < h <= zlen d -> slice_from d (- h) = part d (zlen d - h) h.
Proof. intros H. unfold slice_from, slice, clamp. rewrite (proj2 (Z.ltb_lt (- h) 0)) by lia. rewrite Z.max_r by lia. unfold part. rewrite (proj2 (Z.ltb_ge (zlen d) 0)) by lia. rewrite Z.min_id. do 2 f_equal; lia. Qed.
Lemma slice_front d h : 0 < h <= zlen d -> slice_to d (- h) = part d 0 (zlen d - h).
Proof. intros H. unfold slice_to, slice, clamp. rewrite (proj2 (Z.ltb_lt (- h) 0)) by lia. rewrite Z.max_r by lia. change (0 <? 0) with false. cbv iota. rewrite Z.min_l by apply zlen_nonneg. unfold part. do 2 f_equal; lia. Qed.

Definition core (data tl0 : bytes) : res bytes :=
    clhl <- unpack_u 4 data (zlen data - 8) ;;
    extraSize <- unpack_u 4 data (zlen data - 8 + 4) ;;
    let headerLen := Z.shiftr clhl 24 in
    let compressedLen0 := Z.land clhl 0xFFFFFF in
    if zlen data <? headerLen then Err ValueError else
    if zlen data <? compressedLen0 then Err ValueError else
    if negb (forallb (fun b => b =? 0xFF) (slice data (- headerLen) (-8))) then Err ValueError else
    let compressedLen := if zlen data <=? compressedLen0 then zlen data else compressedLen0 in
    let passthroughLen := zlen data - compressedLen in
    let passthroughData := slice_to data passthroughLen in
    let compData := slice data passthroughLen (passthroughLen + compressedLen - headerLen) in
    let decompLen := zlen data + extraSize - passthroughLen in
    dd <- code_loop (S (length compData)) (zlen data) compressedLen decompLen compData
            {| outSize := 0; readBytes := 0; flags := 0; mask := 1; decomp := zeros decompLen |} ;;
    Ok (passthroughData ++ dd ++ tl0).
Lemma core_iff d tl0 r : is_bytes d -> 8 <= zlen d -> 8 <= end_len d 0 -> core d tl0 = Ok r <-> exists r', code_means d r' /\ r = r' ++ tl0.
Proof.
  intros B L EL. unfold core. rewrite unpack_word by lia. cbn [bind]. rewrite (unpack_word d (zlen d - 8 + 4)) by lia. cbn [bind]. destruct (three_one d (zlen d - 8) B ltac:(lia) ltac:(lia)) as (T1 & T2). rewrite T1, T2.
  replace (byte d (zlen d - 8 + 3)) with (end_len d 0) by (unfold end_len; f_equal; lia). replace (unle (part d (zlen d - 8) 3)) with (comp_len d 0) by (unfold comp_len; f_equal; f_equal; lia). cbv zeta.
  assert (XL : word d (zlen d - 8 + 4) = extra_len d 0) by (rewrite word_part by lia; unfold extra_len; f_equal; f_equal; lia). rewrite XL.
  assert (C0 : 0 <= comp_len d 0) by (unfold comp_len; apply unle_range; apply is_bytes_part; exact B). assert (X0 : 0 <= extra_len d 0) by (unfold extra_len; apply unle_range; apply is_bytes_part; exact B). clear T1 T2 XL.
  unfold code_means. set (h := end_len d 0) in *. set (cl := comp_len d 0) in *. set (xl := extra_len d 0) in *. clearbody h cl xl.
  destruct (zlen d <? h) eqn:E1; [split; [discriminate|intros (r' & (Q & _) & _); lia]|]. destruct (zlen d <? cl) eqn:E2; [split; [discriminate|intros (r' & (_ & Q & _) & _); lia]|].
  change (-8) with (- (8)). rewrite slice_ends by lia.
  assert (FF : forallb (fun b => b =? 0xFF) (part d (zlen d - h) (h - 8)) = true <-> forall i, zlen d - h <= i < zlen d - 8 -> byte d i = 0xFF).
  { rewrite all_in by lia. split; intros H i I; specialize (H i ltac:(lia)); apply Z.eqb_eq; exact H. }
  destruct (forallb (fun b => b =? 0xFF) (part d (zlen d - h) (h - 8))); cbn [negb]; [|split; [discriminate|intros (r' & (_ & _ & Q & _) & _); apply FF in Q; discriminate]].
  assert (CE : (if zlen d <=? cl then zlen d else cl) = cl) by (destruct (zlen d <=? cl) eqn:E3; lia). rewrite CE. replace (zlen d - cl + cl - h) with (zlen d - h) by lia. replace (zlen d + xl - (zlen d - cl)) with (cl + xl) by lia.
  assert (SP : slice d (zlen d - cl) (zlen d - h) = part d (zlen d - cl) (cl - h)) by (rewrite slice_part by lia; f_equal; lia). rewrite SP. assert (ST : slice_to d (zlen d - cl) = part d 0 (zlen d - cl)) by (unfold slice_to; rewrite slice_part by lia; rewrite Z.sub_0_r; reflexivity). rewrite ST.
  set (c := part d (zlen d - cl) (cl - h)). assert (BC : is_bytes (rev c)) by (apply Forall_rev; apply is_bytes_part; exact B).
  assert (ZC : zlen (rev c) <= zlen d - (zlen d - cl)). { rewrite zlen_rev. unfold c, part, zlen. rewrite firstn_length, skipn_length. unfold zlen in *. lia. }
  pose proof (cloop_iff (rev c) (cl + xl) (zlen d) cl BC ltac:(lia) ltac:(lia) (S (length c)) 0 [] 0 0) as CI. rewrite rev_involutive in CI. unfold cs in CI. change (zlen (@nil Z)) with 0 in CI. rewrite !Z.sub_0_r in CI. cbn [app] in CI. rewrite rev_zeros in CI. change (2 ^ Z.of_nat 0) with 1 in CI.
  assert (CI' : forall dd, code_loop (S (length c)) (zlen d) cl (cl + xl) c {| outSize := 0; readBytes := 0; flags := 0; mask := 1; decomp := zeros (cl + xl) |} = Ok dd <-> exists out0, dd = rev out0 /\ unpacks (rev c) (cl + xl) (copy_code (cl + xl)) 0 [] [] out0).
  { intros dd. apply CI; [lia|lia|lia|rewrite zlen_rev; unfold zlen; lia|lia]. }
  clear CI. split.
  - intros H. apply bind_ok in H as (dd & H1 & H2). apply CI' in H1 as (out0 & -> & U). apply SeqRead.ok_inj in H2. exists (part d 0 (zlen d - cl) ++ rev out0). split; [|rewrite <- H2, app_assoc; reflexivity]. split; [lia|]. split; [lia|]. split; [apply FF; reflexivity|]. exists out0. split; [exact U|reflexivity].
  - intros (r' & (_ & _ & _ & out0 & U & ->) & ->). rewrite (proj2 (CI' (rev out0))) by (exists out0; split; [reflexivity|exact U]). cbn [bind]. rewrite app_assoc. reflexivity.
Qed.
Theorem code_iff d r : is_bytes d -> code_decompress d = Ok r <->
  (plain d /\ r = d) \/
  exists a, appended d a /\ ((extra_len d a = 0 /\ r = part d 0 (zlen d - a)) \/
    (extra_len d a <> 0 /\ exists r', code_means (part d 0 (zlen d - a)) r' /\ r = r' ++ part d (zlen d - a) a)).
Proof.
  intros B.
  assert (BODY : forall a, appended d a -> let tl0 := (if a =? 0 then [] else slice_from d (- a)) in let data := (if a =? 0 then d else slice_to d (- a)) in
    (if beq (slice_from data (-4)) [0; 0; 0; 0] then Ok data else core data tl0) = Ok r <-> (extra_len d a = 0 /\ r = part d 0 (zlen d - a)) \/
    (extra_len d a <> 0 /\ exists r', code_means (part d 0 (zlen d - a)) r' /\ r = r' ++ part d (zlen d - a) a)).
  { intros a (M & R & L & (S1 & S2) & _). cbv zeta.
    assert (E1 : (if a =? 0 then [] else slice_from d (- a)) = part d (zlen d - a) a). { destruct (Z.eqb_spec a 0) as [->|N]; [unfold part; rewrite firstn_O; reflexivity|]. apply slice_end. lia. }
    assert (E2 : (if a =? 0 then d else slice_to d (- a)) = part d 0 (zlen d - a)). { destruct (Z.eqb_spec a 0) as [->|N]; [rewrite Z.sub_0_r, part_full; reflexivity|]. apply slice_front. lia. }
    rewrite E1, E2. clear E1 E2. set (f := part d 0 (zlen d - a)). assert (ZF : zlen f = zlen d - a) by (apply zlen_part; lia). assert (BF : is_bytes f) by (apply is_bytes_part; exact B).
    assert (EE : extra_len d a = unle (part f (zlen f - 4) 4)). { rewrite ZF. unfold extra_len, f. rewrite part_part by lia. reflexivity. }
    assert (ED : end_len f 0 = end_len d a). { unfold end_len. rewrite ZF. unfold f. rewrite byte_in by lia. f_equal. lia. }
    change (-4) with (- (4)). rewrite slice_end by lia. pose proof (zlen_part f (zlen f - 4) 4 ltac:(lia) ltac:(lia) ltac:(lia)) as ZQ. assert (BQ : is_bytes (part f (zlen f - 4) 4)) by (apply is_bytes_part; exact BF).
    assert (Q0 : beq (part f (zlen f - 4) 4) [0; 0; 0; 0] = true <-> extra_len d a = 0).
    { rewrite EE. revert ZQ BQ. generalize (part f (zlen f - 4) 4) as q. intros q ZQ BQ. split; [intros H; apply beq_eq in H; rewrite H; reflexivity|]. destruct q as [|q0 [|q1 [|q2 [|q3 [|q4 q]]]]]; try discriminate ZQ; [|unfold zlen in ZQ; cbn [length] in ZQ; lia]. cbn [unle]. intros U.
      inversion BQ as [|? ? B0 BQ1]; subst. inversion BQ1 as [|? ? B1 BQ2]; subst. inversion BQ2 as [|? ? B2 BQ3]; subst. inversion BQ3 as [|? ? B3 _]; subst. unfold is_byte in *. assert (q0 = 0 /\ q1 = 0 /\ q2 = 0 /\ q3 = 0) as (-> & -> & -> & ->) by lia. reflexivity. }
    destruct (beq (part f (zlen f - 4) 4) [0; 0; 0; 0]).
    - assert (X : extra_len d a = 0) by (apply Q0; reflexivity). split; [intros H; apply SeqRead.ok_inj in H; left; split; [exact X|symmetry; exact H]|]. intros [(_ & ->)|(N & _)]; [reflexivity|destruct (N X)].
    - assert (X : extra_len d a <> 0) by (intros X; apply Q0 in X; discriminate). rewrite core_iff; [|exact BF|lia|lia]. split; [intros H; right; split; [exact X|exact H]|]. intros [(N & _)|(_ & H)]; [destruct (X N)|exact H]. }
  unfold code_decompress. split.
  - intros H. apply bind_ok in H as ([a|] & D & H).
    + apply detect_some in D; [|exact B]. right. exists a. split; [exact D|]. apply (BODY a D). exact H.
    + apply detect_none in D; [|exact B]. apply SeqRead.ok_inj in H. left. split; [exact D|symmetry; exact H].
  - intros [(P & ->)|(a & A & H)].
    + rewrite (proj2 (detect_none d B) P). reflexivity.
    + rewrite (proj2 (detect_some d a B) A). cbn [bind]. apply (BODY a A). exact H.
Qed.

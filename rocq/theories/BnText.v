(** Proofs about the drawing of the touch areas *)
From Coq Require Import String.
From Verif Require Import PyBase PyLemmas CommonModel CommonLemmas BnModel TextModel TextSpec TextLemmas SeqTextLemmas BnTextModel BnTextSpec.

(** ** One cell of the canvas *)
Definition cell (c : list text) (x y : Z) : text := nth (Z.to_nat (y * 32 + x)) c [].
Lemma put_at_len {A} (l : list A) : forall k v, length (put_at l k v) = length l.
Proof. induction l as [|x l IH]; intros [|k] v; cbn [put_at length]; try reflexivity. rewrite IH. reflexivity. Qed.
Lemma put_at_nth {A} (l : list A) d : forall k v j, (k < length l)%nat -> nth j (put_at l k v) d = if Nat.eqb j k then v else nth j l d.
Proof.
  induction l as [|x l IH]; intros [|k] v j L; cbn [length] in L; try lia; cbn [put_at]; destruct j as [|j]; try reflexivity.
  cbn [nth Nat.eqb]. apply IH. lia.
Qed.
Lemma set_len c x y s : length (setAt c x y s) = length c.
Proof. unfold setAt. destruct ((x <? 0) || (y <? 0)); [reflexivity|]. destruct ((32 <=? x) || (12 <=? y)); [reflexivity|]. apply put_at_len. Qed.
Section Cell.
Context (x y : Z) (X : 0 <= x < 32) (Y : 0 <= y < 12).
Lemma set_cell c u v s : length c = 384%nat -> cell (setAt c u v s) x y = if (x =? u) && (y =? v) then s else cell c x y.
Proof.
  intros L. unfold setAt. destruct ((u <? 0) || (v <? 0)) eqn:E1; [replace ((x =? u) && (y =? v)) with false by lia; reflexivity|].
  destruct ((32 <=? u) || (12 <=? v)) eqn:E2; [replace ((x =? u) && (y =? v)) with false by lia; reflexivity|].
  unfold cell. rewrite put_at_nth by (rewrite L; lia). destruct (Nat.eqb _ _) eqn:E3.
  - apply Nat.eqb_eq in E3. replace ((x =? u) && (y =? v)) with true by lia. reflexivity.
  - apply Nat.eqb_neq in E3. replace ((x =? u) && (y =? v)) with false; [reflexivity|]. symmetry. apply Bool.andb_false_iff. destruct (Z.eq_dec x u), (Z.eq_dec y v); subst; lia.
Qed.
Lemma rows_cell t b s js : forall c, length c = 384%nat ->
  let c' := fold_left (fun c j => setAt (setAt c j t s) j b s) js c in
  length c' = 384%nat /\ cell c' x y = if existsb (Z.eqb x) js && ((y =? t) || (y =? b)) then s else cell c x y.
Proof.
  induction js as [|j js IH]; intros c L; cbn [fold_left existsb andb]; [split; [exact L|reflexivity]|].
  destruct (IH (setAt (setAt c j t s) j b s)) as [H1 H2]; [rewrite !set_len; exact L|]. split; [exact H1|]. rewrite H2, !set_cell by (rewrite ?set_len; exact L).
  destruct (x =? j), (y =? t), (y =? b), (existsb (Z.eqb x) js); reflexivity.
Qed.
Lemma cols_cell t b s js : forall c, length c = 384%nat ->
  let c' := fold_left (fun c j => setAt (setAt c t j s) b j s) js c in
  length c' = 384%nat /\ cell c' x y = if existsb (Z.eqb y) js && ((x =? t) || (x =? b)) then s else cell c x y.
Proof.
  induction js as [|j js IH]; intros c L; cbn [fold_left existsb andb]; [split; [exact L|reflexivity]|].
  destruct (IH (setAt (setAt c t j s) b j s)) as [H1 H2]; [rewrite !set_len; exact L|]. split; [exact H1|]. rewrite H2, !set_cell by (rewrite ?set_len; exact L).
  destruct (y =? j), (x =? t), (x =? b), (existsb (Z.eqb y) js); reflexivity.
Qed.
End Cell.
Lemma between_mem v a b : existsb (Z.eqb v) (between a b) = (a <=? v) && (v <? b).
Proof.
  destruct (existsb (Z.eqb v) (between a b)) eqn:E.
  - apply existsb_exists in E as (w & I & E). unfold between in I. apply in_range_z in I. lia.
  - destruct ((a <=? v) && (v <? b)) eqn:F; [|reflexivity]. exfalso. assert (existsb (Z.eqb v) (between a b) = true); [|congruence]. apply existsb_exists. exists v. split; [apply in_range_z; lia|lia].
Qed.

Definition mark (b : box) (i x y : Z) : option text :=
  if (x =? (bLeft b + bRight b) / 2) && (y =? (bTop b + bBottom b) / 2) then Some (str_int i) else
  if ((bTop b + 1 <=? y) && (y <? bBottom b)) && ((x =? bLeft b) || (x =? bRight b)) then Some (asc "|") else
  if ((bLeft b + 1 <=? x) && (x <? bRight b)) && ((y =? bTop b) || (y =? bBottom b)) then Some (asc "-") else
  if ((x =? bLeft b) || (x =? bRight b)) && (y =? bBottom b) then Some (asc "'") else
  if ((x =? bLeft b) || (x =? bRight b)) && (y =? bTop b) then Some (asc ".") else None.
Lemma area_box_eq t : area_box t = let '(x, y) := touchArea_topLeft t in box_of x y t.
Proof. unfold area_box. destruct (touchArea_topLeft t). reflexivity. Qed.
Lemma area_len c p : length c = 384%nat -> length (draw_area c p) = 384%nat.
Proof.
  intros L. destruct p as [i t]. unfold draw_area. destruct (touchArea_topLeft t) as [px py]. cbv zeta. rewrite set_len.
  refine (proj1 (cols_cell 0 0 _ _ _ _ _ _ _ _)); try lia. refine (proj1 (rows_cell 0 0 _ _ _ _ _ _ _ _)); try lia. rewrite !set_len. exact L.
Qed.
Lemma area_cell c i t x y : 0 <= x < 32 -> 0 <= y < 12 -> length c = 384%nat ->
  cell (draw_area c (i, t)) x y = match mark (area_box t) i x y with Some s => s | None => cell c x y end.
Proof.
  intros X Y L. unfold draw_area. rewrite area_box_eq. destruct (touchArea_topLeft t) as [px py]. cbv zeta. unfold mark, box_of. cbn [bLeft bTop bRight bBottom].
  set (l := px / 8). set (r := (px + taW t) / 8). set (u := py / 16). set (d := (py + taH t) / 16). clearbody l r u d.
  set (c4 := setAt (setAt (setAt (setAt c l u (asc ".")) r u (asc ".")) l d (asc "'")) r d (asc "'")).
  assert (L4 : length c4 = 384%nat) by (unfold c4; rewrite !set_len; exact L).
  assert (C4 : cell c4 x y = if ((x =? l) || (x =? r)) && (y =? d) then asc "'" else if ((x =? l) || (x =? r)) && (y =? u) then asc "." else cell c x y).
  { unfold c4. rewrite !set_cell by (try assumption; rewrite ?set_len; exact L). destruct (x =? l), (x =? r), (y =? u), (y =? d); reflexivity. }
  clearbody c4. destruct (rows_cell x y X Y u d (asc "-") (between (l + 1) r) c4 L4) as [L5 C5]. cbv zeta in L5, C5.
  set (c5 := fold_left _ (between (l + 1) r) c4) in *. clearbody c5. destruct (cols_cell x y X Y l r (asc "|") (between (u + 1) d) c5 L5) as [L6 C6]. cbv zeta in L6, C6.
  set (c6 := fold_left _ (between (u + 1) d) c5) in *. clearbody c6. rewrite set_cell by assumption. rewrite C6, C5, C4, !between_mem.
  destruct ((x =? (l + r) / 2) && (y =? (u + d) / 2)); [reflexivity|]. destruct ((u + 1 <=? y) && (y <? d) && ((x =? l) || (x =? r))); [reflexivity|].
  destruct ((l + 1 <=? x) && (x <? r) && ((y =? u) || (y =? d))); [reflexivity|]. destruct (((x =? l) || (x =? r)) && (y =? d)); [reflexivity|]. destruct (((x =? l) || (x =? r)) && (y =? u)); reflexivity.
Qed.

(** ** Marks and glyphs *)
Lemma str_nat_clean n : 0 <= n -> hd 48 (str_nat n) <> 48 \/ str_nat n = [48].
Proof.
  intros H. destruct (Z.eq_dec n 0) as [->|N]; [right; reflexivity|]. left. unfold str_nat.
  destruct (digits_hd (S (Z.to_nat (Z.log2 n))) n) as (c & r & -> & C); [|exact C].
  split; [lia|]. pose proof (Z.log2_spec n ltac:(lia)) as [_ U]. pose proof (Z.log2_nonneg n). replace (Z.of_nat (S (Z.to_nat (Z.log2 n)))) with (Z.succ (Z.log2 n)) by lia.
  eapply Z.lt_le_trans; [exact U|]. apply Z.pow_le_mono_l. lia.
Qed.
Lemma str_int_looks i : 0 <= i -> looks i Number (str_int i).
Proof.
  intros I. unfold str_int. replace (i <? 0) with false by lia. constructor; [apply digits_chars; exact I|apply str_nat_value; exact I|apply str_nat_clean; exact I].
Qed.
Lemma mark_some b i x y s : 0 <= i -> mark b i x y = Some s -> exists g, top_glyph b x y g /\ looks i g s.
Proof.
  intros I. unfold mark. destruct b as [l u r d]. cbn [bLeft bTop bRight bBottom].
  destruct ((x =? (l + r) / 2) && (y =? (u + d) / 2)) eqn:E1.
  { intros [= <-]. exists Number. split; [|apply str_int_looks; exact I]. split; [constructor; cbn; lia|]. intros h _ [[_ H]|[_ H]]; [contradiction|discriminate]. }
  destruct (((u + 1 <=? y) && (y <? d)) && ((x =? l) || (x =? r))) eqn:E2.
  { intros [= <-]. exists Side. split; [|constructor]. split; [constructor; cbn; lia|]. intros h Hh [[-> _]|[_ H]]; [|discriminate]. inversion Hh; cbn in *; lia. }
  destruct (((l + 1 <=? x) && (x <? r)) && ((y =? u) || (y =? d))) eqn:E3.
  { intros [= <-]. exists Edge. split; [|constructor]. split; [constructor; cbn; lia|]. intros h Hh [[-> _]|[_ H]]; [|discriminate]. inversion Hh; cbn in *; lia. }
  destruct (((x =? l) || (x =? r)) && (y =? d)) eqn:E4.
  { intros [= <-]. exists LowCorner. split; [|constructor]. split; [constructor; cbn; lia|]. intros h Hh [[-> _]|[_ H]]; [|discriminate]. inversion Hh; cbn in *; lia. }
  destruct (((x =? l) || (x =? r)) && (y =? u)) eqn:E5; [|discriminate].
  intros [= <-]. exists HighCorner. split; [|constructor]. split; [constructor; cbn; lia|]. intros h Hh [[-> _]|[-> _]]; inversion Hh; cbn in *; lia.
Qed.
Lemma mark_none b i x y : mark b i x y = None -> forall h, ~ has b x y h.
Proof.
  unfold mark. destruct b as [l u r d]. cbn [bLeft bTop bRight bBottom]. intros E h Hh.
  destruct ((x =? (l + r) / 2) && (y =? (u + d) / 2)) eqn:E1; [discriminate|].
  destruct (((u + 1 <=? y) && (y <? d)) && ((x =? l) || (x =? r))) eqn:E2; [discriminate|].
  destruct (((l + 1 <=? x) && (x <? r)) && ((y =? u) || (y =? d))) eqn:E3; [discriminate|].
  destruct (((x =? l) || (x =? r)) && (y =? d)) eqn:E4; [discriminate|].
  destruct (((x =? l) || (x =? r)) && (y =? u)) eqn:E5; [discriminate|]. inversion Hh; cbn in *; lia.
Qed.

(** ** The whole canvas *)
Lemma nth_repeat_lt {A} (a d : A) n k : (k < n)%nat -> nth k (repeat a n) d = a.
Proof. revert k. induction n as [|n IH]; intros [|k] H; try lia; [reflexivity|]. cbn [repeat nth]. apply IH. lia. Qed.
Lemma firstn_nth {A} (d : A) n : forall l k, (k + n <= length l)%nat -> firstn n (skipn k l) = map (fun j => nth j l d) (seq k n).
Proof.
  induction n as [|n IH]; intros l k L; [reflexivity|]. cbn [seq map]. rewrite <- IH by lia.
  revert k L. induction l as [|x l IHl]; intros k L; [cbn [length] in L; lia|]. destruct k as [|k]; [reflexivity|]. cbn [skipn nth length] in *. rewrite (IHl k) by lia. reflexivity.
Qed.
Lemma range_seq n : forall a, range_z a n = map (fun j => a + Z.of_nat j) (seq 0 n).
Proof.
  induction n as [|n IH]; intros a; [reflexivity|]. cbn [range_z seq map]. rewrite IH, <- seq_shift, map_map. rewrite Z.add_0_r. f_equal. apply map_ext. intros j. lia.
Qed.
Lemma canvas_row c i : length c = 384%nat -> 0 <= i < 12 -> slice c (i * 32) (i * 32 + 32) = map (fun x => cell c x i) (range_z 0 32).
Proof.
  intros L I. assert (E : slice c (i * 32) (i * 32 + 32) = firstn 32 (skipn (Z.to_nat (i * 32)) c)).
  { unfold slice, clamp. assert (LZ : zlen c = 384) by (unfold zlen; lia). rewrite LZ. replace (i * 32 <? 0) with false by lia. replace (i * 32 + 32 <? 0) with false by lia. rewrite !Z.min_l by lia. f_equal. lia. }
  rewrite E, (firstn_nth (A := text) [] 32 c (Z.to_nat (i * 32))).
  2:{ rewrite L. lia. }
  rewrite range_seq, map_map. unfold cell.
  replace (seq (Z.to_nat (i * 32)) 32) with (map (fun j => (Z.to_nat (i * 32) + j)%nat) (seq 0 32)).
  - rewrite map_map. apply map_ext. intros j. f_equal. lia.
  - generalize (Z.to_nat (i * 32)). intros n. clear. assert (G : forall m k, map (fun j => (n + j)%nat) (seq k m) = seq (n + k) m); [|rewrite G, Nat.add_0_r; reflexivity]. induction m as [|m IH]; intros k; [reflexivity|]. cbn [seq map]. rewrite IH. f_equal. f_equal. lia.
Qed.

Lemma enum_snoc {A} (l : list A) t : combine (range_z 0 (length (l ++ [t]))) (l ++ [t]) = combine (range_z 0 (length l)) l ++ [(zlen l, t)].
Proof.
  unfold zlen. change (Z.of_nat (length l)) with (0 + Z.of_nat (length l)) at 1. generalize 0. induction l as [|x l IH]; intros k.
  - cbn [app length range_z combine]. rewrite Z.add_0_r. reflexivity.
  - cbn [app length range_z combine]. rewrite IH. do 2 f_equal. f_equal. f_equal. lia.
Qed.
Lemma canvas_snoc l t : draw_canvas (l ++ [t]) = draw_area (draw_canvas l) (zlen l, t).
Proof. unfold draw_canvas. rewrite enum_snoc, fold_left_app. reflexivity. Qed.
Lemma canvas_len l : length (draw_canvas l) = 384%nat.
Proof. induction l as [|t l IH] using rev_ind; [reflexivity|]. rewrite canvas_snoc. apply area_len. exact IH. Qed.
Lemma canvas_cell l x y : 0 <= x < 32 -> 0 <= y < 12 -> cell_shows (map area_box l) x y (cell (draw_canvas l) x y).
Proof.
  intros X Y. induction l as [|t l IH] using rev_ind.
  - right. split; [|intros c h []]. unfold cell, draw_canvas. cbn [length range_z combine fold_left]. apply nth_repeat_lt. lia.
  - rewrite canvas_snoc, area_cell by (try assumption; apply canvas_len). rewrite map_app. cbn [map].
    destruct (mark (area_box t) (zlen l) x y) as [s|] eqn:M.
    + left. apply mark_some in M as (g & G & S); [|apply zlen_nonneg]. exists (map area_box l), (area_box t), [], g. split; [reflexivity|]. split; [exact G|]. split; [rewrite zlen_map; exact S|intros c h []].
    + destruct IH as [(a & b & r & g & E & G & S & N)|[S N]].
      * left. exists a, b, (r ++ [area_box t]), g. split; [rewrite E, <- app_assoc; reflexivity|]. split; [exact G|]. split; [exact S|]. intros c h I. apply in_app_or in I as [I|[<-|[]]]; [apply N; exact I|exact (mark_none _ _ _ _ M h)].
      * right. split; [exact S|]. intros c h I. apply in_app_or in I as [I|[<-|[]]]; [apply N; exact I|exact (mark_none _ _ _ _ M h)].
Qed.

(** ** Lines *)
Lemma looks_width i g s : 0 <= i < 10 -> looks i g s -> zlen s = 1.
Proof.
  intros I H. destruct H as [s D U C| | | |]; try reflexivity. destruct C as [C| ->]; [|reflexivity]. destruct s as [|c [|c' s]]; [contradiction|reflexivity|]. exfalso. cbn [hd] in C.
  inversion D as [|? ? Dc D']; subst. rewrite undec_cons, zlen_cons in I. pose proof (undec_bound _ D'). pose proof (zlen_nonneg s).
  assert (10 <= 10 ^ (1 + zlen s)) by (rewrite Z.pow_add_r by lia; pose proof (Z.pow_pos_nonneg 10 (zlen s) ltac:(lia) ltac:(lia)); lia). nia.
Qed.
Lemma cell_width boxes x y s : zlen boxes <= 10 -> cell_shows boxes x y s -> zlen s = 1.
Proof.
  intros L [(a & b & r & g & -> & _ & S & _)|[-> _]]; [|reflexivity]. rewrite zlen_app, zlen_cons in L. pose proof (zlen_nonneg a). pose proof (zlen_nonneg r). apply (looks_width (zlen a) g); [lia|exact S].
Qed.
Lemma draw_rows b : draw b = [border 46] ++ map (fun y => asc "| " ++ concat (map (fun x => cell (draw_canvas (blAreas b)) x y) (range_z 0 32)) ++ asc " |") (range_z 0 12) ++ [border 39].
Proof.
  unfold draw. cbv zeta. change (asc "." ++ rep 61 34 ++ asc ".") with (border 46). change (asc "'" ++ rep 61 34 ++ asc "'") with (border 39). apply f_equal. apply (f_equal (fun l => l ++ [border 39])). apply map_ext_in. intros y I. apply in_range_z in I. rewrite canvas_row by (try apply canvas_len; lia). reflexivity.
Qed.
Lemma concat_ones (l : list text) : Forall (fun s => zlen s = 1) l -> zlen (concat l) = zlen l.
Proof. induction 1 as [|s l S _ IH]; [reflexivity|]. cbn [concat]. rewrite zlen_app, zlen_cons, IH, S. lia. Qed.

(** ** Putting the drawing beside the lines *)
Lemma beside_spec col ls ds : forall k,
  nth_error (beside col ls ds) k =
  match nth_error ls k, nth_error ds k with
  | Some l, Some d => Some (l ++ rep 32 (col - zlen l) ++ d)
  | Some l, None => Some l
  | None, Some d => Some (rep 32 col ++ d)
  | None, None => None
  end.
Proof.
  unfold text in *. revert ds. induction ls as [|l ls IH]; intros ds k.
  - destruct ds as [|d ds]; [destruct k; reflexivity|]. cbn [beside]. replace (nth_error (@nil (list Z)) k) with (@None (list Z)) by (destruct k; reflexivity). rewrite nth_error_map. destruct (nth_error (d :: ds) k); reflexivity.
  - destruct ds as [|d ds]; [cbn [beside]; destruct (nth_error (l :: ls) k); destruct k; reflexivity|]. destruct k as [|k]; [reflexivity|]. cbn [beside nth_error]. apply IH.
Qed.

Lemma beside_length col ls ds : length (beside col ls ds) = Nat.max (length ls) (length ds).
Proof.
  revert ds. induction ls as [|l ls IH]; intros [|d ds]; cbn [beside length]; try rewrite map_length; try reflexivity. rewrite IH. reflexivity.
Qed.

(** ** The text of an item tells it apart *)
Lemma cut_at {A} (P : A -> Prop) a b c d r r' : Forall P a -> Forall P b -> ~ P c -> ~ P d -> a ++ c :: r = b ++ d :: r' -> a = b /\ c = d /\ r = r'.
Proof.
  intros FA. revert b. induction FA as [|x a X FA IH]; intros b FB C D E; destruct FB as [|y b Y FB]; cbn [app] in E; injection E as E1 E2; subst.
  - auto.
  - contradiction.
  - contradiction.
  - destruct (IH b FB C D E2) as (-> & -> & ->). auto.
Qed.
Lemma cut_int n m c r r' : ~ numchar c -> str_int n ++ c :: r = str_int m ++ c :: r' -> n = m /\ r = r'.
Proof.
  intros C E. apply (cut_at numchar) in E as (E & _ & ->); try assumption; try apply str_int_chars. split; [|reflexivity].
  pose proof (number_str n) as N. rewrite E, number_str in N. congruence.
Qed.
Definition lettered (c : Z) : Prop := c <> 32.
Lemma name_lettered a : Forall lettered (getAlignmentName a).
Proof.
  unfold getAlignmentName. destruct (negb (Z.land a A_HCENTER =? 0)), (negb (Z.land a A_RIGHT =? 0)), (negb (Z.land a A_VCENTER =? 0)), (negb (Z.land a A_BOTTOM =? 0)); vm_compute; repeat constructor; discriminate.
Qed.
Lemma name_standard a b : standard a -> standard b -> getAlignmentName a = getAlignmentName b -> a = b.
Proof.
  unfold standard. cbn [In]. intros (h & v & H & V & ->) (h' & v' & H' & V' & ->).
  destruct H as [<-|[<-|[<-|[]]]], V as [<-|[<-|[<-|[]]]], H' as [<-|[<-|[<-|[]]]], V' as [<-|[<-|[<-|[]]]]; vm_compute; intros E; try reflexivity; discriminate E.
Qed.
Lemma area_text a b : touchArea_str a = touchArea_str b ->
  taX a = taX b /\ taY a = taY b /\ taW a = taW b /\ taH a = taH b /\ getAlignmentName (taAlign a) = getAlignmentName (taAlign b).
Proof.
  unfold touchArea_str. intros E. apply app_inv_head in E. texts_in E. cbn [app] in E.
  apply (cut_at lettered) in E as (E0 & _ & E); try apply name_lettered; try (unfold lettered; lia). injection E as E.
  apply cut_int in E as (E1 & E); [|unfold numchar; lia]. injection E as E. apply cut_int in E as (E2 & E); [|unfold numchar; lia]. injection E as E.
  apply cut_int in E as (E3 & E); [|unfold numchar; lia]. apply cut_int in E as (E4 & _); [|unfold numchar; lia]. auto.
Qed.
Lemma position_text a b : imagePosition_str a = imagePosition_str b ->
  ipX a = ipX b /\ ipY a = ipY b /\ ipImageID a = ipImageID b /\ getAlignmentName (ipAlign a) = getAlignmentName (ipAlign b).
Proof.
  unfold imagePosition_str. intros E. apply app_inv_head in E. texts_in E. cbn [app] in E.
  apply (cut_at lettered) in E as (E0 & _ & E); try apply name_lettered; try (unfold lettered; lia). injection E as E.
  apply cut_int in E as (E1 & E); [|unfold numchar; lia]. injection E as E. apply cut_int in E as (E2 & E); [|unfold numchar; lia]. injection E as E.
  apply cut_int in E as (E3 & E); [|unfold numchar; lia]. auto.
Qed.
Lemma unpack_standard xp yp x y al : unpackAlignmentFromPos xp yp = (x, y, al) -> standard al.
Proof.
  unfold unpackAlignmentFromPos. intros [= _ _ <-]. rewrite !land_3. pose proof (Z.mod_pos_bound (Z.shiftr xp 12) 4 ltac:(lia)) as H1. pose proof (Z.mod_pos_bound (Z.shiftr yp 12) 4 ltac:(lia)) as H2.
  do 2 eexists. split; [|split; [|reflexivity]].
  - assert (C : Z.shiftr xp 12 mod 4 = 0 \/ Z.shiftr xp 12 mod 4 = 1 \/ Z.shiftr xp 12 mod 4 = 2 \/ Z.shiftr xp 12 mod 4 = 3) by lia. destruct C as [->|[->|[->| ->]]]; cbn; auto.
  - assert (C : Z.shiftr yp 12 mod 4 = 0 \/ Z.shiftr yp 12 mod 4 = 1 \/ Z.shiftr yp 12 mod 4 = 2 \/ Z.shiftr yp 12 mod 4 = 3) by lia. destruct C as [->|[->|[->| ->]]]; cbn; auto.
Qed.

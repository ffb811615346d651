(** * Rendered tiles, tile maps and textures as images *)
From Verif Require Import PyBase PyLemmas PyTac ImageModel ImageSpec ImageLemmas.
From Verif Require Import Gfx2DModel Gfx2DLemmas.

Definition quad_ok (c : Gfx2DModel.color) : Prop := channels_ok 1 c.
Lemma clear_ok : quad_ok transparent.
Proof. unfold quad_ok, channels_ok, transparent. lia. Qed.
Lemma mapM_forall {A B} (f : A -> res B) (P : B -> Prop) l r : (forall x y, f x = Ok y -> P y) -> mapM f l = Ok r -> Forall P r.
Proof. intros H E. apply mapM_Forall2 in E. induction E; constructor; eauto. Qed.
Lemma get_forall {A} (P : A -> Prop) l i v : Forall P l -> get l i = Ok v -> P v.
Proof. intros F H. unfold get in H. cbv zeta in H. destruct (_ <? 0) eqn:E in H; [discriminate|]. destruct (nth_error l _) eqn:N; [|discriminate]. injection H as <-. rewrite Forall_forall in F. apply F. eapply nth_error_In, N. Qed.
Lemma render_channels t colors p px : Forall quad_ok colors -> itile_render t colors p = Ok px -> Forall quad_ok px.
Proof.
  intros F E. unfold itile_render in E. cbv zeta in E. revert E. apply mapM_forall. intros i c H. apply bind_ok in H as (v & _ & H). destruct (v =? 0); [injection H as <-; exact clear_ok|].
  revert H. apply get_forall. apply Forall_map. revert F. apply Forall_impl. intros [[[r g] b] a] (R & G & B & _). split; [exact R|]. split; [exact G|]. split; [exact B|]. discriminate.
Qed.
Lemma renderSingle_channels t img colors px : Forall quad_ok colors -> mtile_renderSingle t img colors = Ok px -> Forall quad_ok px.
Proof.
  intros F E. unfold mtile_renderSingle in E. apply bind_ok in E as (q & Q & E). apply render_channels in Q; [|exact F].
  destruct (mFormat t); [|injection E as <-; exact Q].
  destruct (mHFlip t && mVFlip t); [|destruct (mHFlip t); [|destruct (mVFlip t); [|injection E as <-; exact Q]]];
  (revert E; apply mapM_forall; intros i c H; revert H; apply get_forall; exact Q).
Qed.
Lemma mtile_channels t imgs colors off px : Forall quad_ok colors -> mtile_render t imgs colors off = Ok px -> Forall quad_ok px.
Proof. intros F E. unfold mtile_render in E. destruct (_ <? _); [discriminate|]. apply bind_ok in E as (i & _ & E). exact (renderSingle_channels _ _ _ _ F E). Qed.
Lemma slice_set_forall {A} (P : A -> Prop) l i j v : Forall P l -> Forall P v -> Forall P (slice_set l i j v).
Proof.
  intros L V. unfold slice_set. cbv zeta. apply Forall_app. split; [|apply Forall_app; split; [exact V|]].
  - rewrite <- (firstn_skipn (Z.to_nat (clamp (zlen l) i)) l) in L. apply Forall_app in L as [L _]. exact L.
  - match goal with |- Forall P (skipn ?n l) => rewrite <- (firstn_skipn n l) in L end. apply Forall_app in L as [_ L]. exact L.
Qed.
Lemma slice_forall {A} (P : A -> Prop) l i j : Forall P l -> Forall P (slice l i j).
Proof.
  intros L. unfold slice. cbv zeta. match goal with |- Forall P (firstn ?n (skipn ?m l)) => rewrite <- (firstn_skipn m l) in L; apply Forall_app in L as [_ L]; rewrite <- (firstn_skipn n (skipn m l)) in L; apply Forall_app in L as [L _]; exact L end.
Qed.
Lemma blit_forall P w y x px img : Forall P px -> Forall P img -> Forall P (blit w y x px img).
Proof.
  intros X. unfold blit. generalize (range_z 0 8). intros l. revert img. induction l as [|k l IH]; intros img I; [exact I|]. cbn [fold_left]. apply IH. cbv zeta. apply slice_set_forall; [exact I|apply slice_forall; exact X].
Qed.
Lemma steps_forall {T} P (r : T -> res (list Gfx2DModel.color)) w : (forall t px, r t = Ok px -> Forall P px) ->
  forall yx s s', Forall P (fst s) -> foldM (render_step r w) s yx = Ok s' -> Forall P (fst s').
Proof.
  intros R. induction yx as [|p yx IH]; intros [im ts] s' I E; cbn [foldM] in E; [injection E as <-; exact I|]. apply bind_ok in E as (s1 & E1 & E). apply (IH s1); [|exact E].
  unfold render_step in E1. cbn [fst snd] in E1. destruct ts as [|t ts]; [discriminate|]. apply bind_ok in E1 as (px & X & E1). injection E1 as <-. cbn [fst]. apply blit_forall; [exact (R _ _ X)|exact I].
Qed.
Lemma grid_forall {T} P (r : T -> res (list Gfx2DModel.color)) tiles w img : (forall t px, r t = Ok px -> Forall P px) -> P transparent -> render_grid r tiles w = Ok img -> Forall P img.
Proof.
  intros R T0 E. unfold render_grid in E. destruct (w =? 0); [discriminate|]. cbv zeta in E. apply bind_ok in E as (s & F & E). injection E as <-.
  apply (steps_forall P r w R) in F; [exact F|]. cbn [fst]. unfold rep. apply Forall_forall. intros c I. apply repeat_spec in I. subst c. exact T0.
Qed.

(** the image of some pixels *)
Lemma plain_image px w h : 0 <= w -> 0 <= h -> zlen px = w * h -> Forall quad_ok px -> exists img, colorsToImage (plain px) w h 1 = Ok img /\ sized img w h /\
  forall x y c, 0 <= x < w -> 0 <= y < h -> get px (y * w + x) = Ok c -> pixel_at img x y = shown 1 c.
Proof.
  intros W H L F. destruct (image_ok 1 px [] w h W H (or_introl eq_refl) L F) as (img & E & S & P). rewrite app_nil_r in E. exists img. split; [exact E|]. split; [exact S|].
  intros x y c X Y G. apply P; [exact X|exact Y|]. apply get_inv; [nia|exact G].
Qed.
Lemma get_some {A} (l : list A) i : 0 <= i < zlen l -> exists v, get l i = Ok v.
Proof. intros H. destruct (nth_error l (Z.to_nat i)) as [v|] eqn:N; [exists v; apply get_nth; [lia|exact N]|]. apply nth_error_None in N. unfold zlen in H. lia. Qed.

Lemma sheet_image {T} (r : T -> res (list Gfx2DModel.color)) (one : T -> res image) tiles W px pxs :
  1 <= W -> zlen tiles mod W = 0 -> (forall t q, r t = Ok q -> zlen q = 64) -> (forall t q, r t = Ok q -> Forall quad_ok q) ->
  (forall t, one t = (q <- r t ;; colorsToImage (plain q) 8 8 1)) -> render_grid r tiles W = Ok px -> mapM r tiles = Ok pxs ->
  exists img, colorsToImage (plain px) (W * 8) (sheet_height (zlen tiles) W * 8) 1 = Ok img /\ sized img (8 * W) (8 * (zlen tiles / W)) /\
    forall i t, 0 <= i -> nth_error tiles (Z.to_nat i) = Some t -> exists s, one t = Ok s /\ sized s 8 8 /\
      forall x y, 0 <= x < 8 -> 0 <= y < 8 -> pixel_at img (8 * (i mod W) + x) (8 * (i / W) + y) = pixel_at s x y.
Proof.
  intros W1 M L F O E X. destruct (sheet_complete r tiles W pxs W1 M L X) as (px' & E' & LP & G). rewrite E in E'. injection E' as <-.
  assert (SH : sheet_height (zlen tiles) W = zlen tiles / W) by (unfold sheet_height; rewrite M; cbn [Z.eqb]; lia). rewrite SH.
  assert (N : zlen tiles = W * (zlen tiles / W)) by (rewrite (Z_div_mod_eq_full (zlen tiles) W) at 1; lia). pose proof (zlen_nonneg tiles) as ZT. assert (H0 : 0 <= zlen tiles / W) by (apply Z.div_pos; lia). set (H := zlen tiles / W) in *.
  destruct (plain_image px (W * 8) (H * 8)) as (img & EI & S & P); [nia|nia|nia|exact (grid_forall quad_ok r tiles W px F clear_ok E)|].
  exists img. split; [exact EI|]. split; [replace (8 * W) with (W * 8) by lia; replace (8 * H) with (H * 8) by lia; exact S|].
  intros i t I NT. destruct (mapM_ok_nth r tiles pxs (Z.to_nat i) t X NT) as (q & NQ & Q). pose proof (L _ _ Q) as LQ. destruct (plain_image q 8 8) as (s & ES & SS & PS); [lia|lia|lia|exact (F _ _ Q)|]. exists s. split; [rewrite O, Q; exact ES|]. split; [exact SS|].
  intros x y HX HY. destruct (get_some q (8 * y + x)) as (c & GC); [lia|]. assert (IL : i < zlen tiles) by (assert (Z.to_nat i < length tiles)%nat by (apply nth_error_Some; congruence); unfold zlen; lia).
  rewrite (PS x y c) by (try lia; rewrite (Z.mul_comm y 8); exact GC). assert (IM : 0 <= i mod W < W) by (apply Z.mod_pos_bound; lia). assert (ID : 0 <= i / W < H) by (split; [apply Z.div_pos; lia|apply Z.div_lt_upper_bound; lia]).
  apply P; [lia|lia|]. replace ((8 * (i / W) + y) * (W * 8) + (8 * (i mod W) + x)) with (((i / W * 8 + y) * W + i mod W) * 8 + x) by ring. exact (eq_trans (G i q x y I NQ HX HY) GC).
Qed.

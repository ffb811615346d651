(** * Lemmas about pictures made from palette, tile and tile map files *)
From Verif Require Import PyBase PyLemmas PyTac ColorModel Gfx2DModel Gfx2DLemmas ImageModel ImageSpec ImageLemmas ImageRender RomSpec ViewSpec ViewLemmas ViewGfxSpec ViewGfx PictureSpec.

Lemma nth_error_seq_lt n : forall s i, (i < n)%nat -> nth_error (seq s n) i = Some (s + i)%nat.
Proof. induction n as [|n IH]; intros s i H; [lia|]. destruct i as [|i]; cbn [seq nth_error]; [f_equal; lia|]. rewrite IH by lia. f_equal. lia. Qed.
Lemma mapM_some {A B} (f : A -> res B) l : (exists r, mapM f l = Ok r) <-> Forall (fun a => exists b, f a = Ok b) l.
Proof.
  induction l as [|a l IH]; [split; [constructor|exists []; reflexivity]|]. cbn [mapM]. split.
  - intros (r & H). apply bind_ok in H as (b & B' & H). apply bind_ok in H as (bs & BS & _). constructor; [exists b; exact B'|]. apply IH. exists bs. exact BS.
  - intros H. inversion H as [|? ? (b & B') F]; subst. apply IH in F as (bs & BS). rewrite B', BS. eexists. reflexivity.
Qed.

Section Grid.
  Context {T : Type} (r : T -> res (list Gfx2DModel.color)) (tiles : list T) (W : Z).
  Hypothesis HW : 1 <= W.
  Hypothesis Hlen : forall t px, r t = Ok px -> zlen px = 64.
  Hypothesis Hchan : forall t px, r t = Ok px -> Forall quad_ok px.
  Definition grid_image : res image := px <- render_grid r tiles W ;; colorsToImage (plain px) (W * 8) (sheet_height (zlen tiles) W * 8) 1.

  Lemma grid_fails e : mapM r tiles = Err e -> exists e', render_grid r tiles W = Err e'.
  Proof.
    intros M. destruct (Z.eq_dec (zlen tiles mod W) 0) as [E|E]; [|pose proof (sheet_incomplete r tiles W HW E Hlen) as S; rewrite M in S; exact S].
    unfold render_grid. replace (W =? 0) with false by lia. rewrite E. cbn [Z.eqb]. rewrite Z.add_0_r, grid_coords by lia.
    pose proof (zlen_nonneg tiles) as P. pose proof (Z.div_mod (zlen tiles) W ltac:(lia)) as D. rewrite E, Z.add_0_r in D.
    assert (G : forall l s tl e, mapM r tl = Err e -> (length tl <= length l)%nat -> exists e', foldM (render_step r W) (s, tl) l = Err e').
    { induction l as [|c l IH]; intros s tl e0 Me Lt; destruct tl as [|t tl]; [discriminate|cbn in Lt; lia|discriminate|].
      cbn [foldM]. unfold render_step at 1. cbn [snd fst]. cbn [mapM] in Me. destruct (r t) as [q|e1]; cbn [bind]; [|eexists; reflexivity].
      cbn [bind] in Me. destruct (mapM r tl) as [qs|e1] eqn:E1; [discriminate|]. apply (IH _ _ _ E1). cbn in Lt. lia. }
    destruct (G (map (fun i => (i / Z.of_nat (Z.to_nat W), i mod Z.of_nat (Z.to_nat W))) (range_z 0 (Z.to_nat (zlen tiles / W) * Z.to_nat W))) (rep transparent (W * (zlen tiles / W) * 64)) tiles e M) as (e' & E').
    { rewrite map_length. pose proof (zlen_range_z 0 (Z.to_nat (zlen tiles / W) * Z.to_nat W)) as L. pose proof (Z.div_pos (zlen tiles) W P ltac:(lia)). unfold zlen in *. nia. }
    rewrite E'. exists e'. reflexivity.
  Qed.

  Lemma grid_iff : (exists img, grid_image = Ok img) <-> zlen tiles mod W = 0 /\ Forall (fun t => exists px, r t = Ok px) tiles.
  Proof.
    rewrite <- mapM_some. split.
    - intros (img & H). unfold grid_image in H. apply bind_ok in H as (px & R & _). destruct (mapM r tiles) as [pxs|e] eqn:M; [|destruct (grid_fails e M) as (e' & E'); congruence].
      split; [|exists pxs; reflexivity]. destruct (Z.eq_dec (zlen tiles mod W) 0) as [E|E]; [exact E|]. pose proof (sheet_incomplete r tiles W HW E Hlen) as S. rewrite M in S. congruence.
    - intros (E & pxs & M). destruct (sheet_complete r tiles W pxs HW E Hlen M) as (px & R & _).
      destruct (sheet_image r (fun t => q <- r t ;; colorsToImage (plain q) 8 8 1) tiles W px pxs HW E Hlen Hchan (fun t => eq_refl) R M) as (img & I & _). exists img. unfold grid_image. rewrite R. exact I.
  Qed.

  Lemma grid_pixels g : (forall i t px, nth_error tiles (Z.to_nat i) = Some t -> 0 <= i -> r t = Ok px -> forall x y, 0 <= x < 8 -> 0 <= y < 8 -> exists c, get px (8 * y + x) = Ok c /\ shown 1 c = g i x y) ->
    forall img, grid_image = Ok img -> sized img (8 * W) (8 * (zlen tiles / W)) /\ forall X Y, 0 <= X < 8 * W -> 0 <= Y < 8 * (zlen tiles / W) -> pixel_at img X Y = g (Y / 8 * W + X / 8) (X mod 8) (Y mod 8).
  Proof.
    intros HG img H. destruct (proj1 grid_iff (ex_intro _ img H)) as (E & F). apply mapM_some in F as (pxs & M).
    pose proof (zlen_nonneg tiles) as P. pose proof (Z.div_mod (zlen tiles) W ltac:(lia)) as D. rewrite E, Z.add_0_r in D. pose proof (Z.div_pos (zlen tiles) W P ltac:(lia)) as Q.
    destruct (sheet_complete r tiles W pxs HW E Hlen M) as (px & R & L & S). unfold grid_image in H. rewrite R in H. cbn [bind] in H. unfold sheet_height in H. rewrite E in H. cbn [Z.eqb] in H. rewrite Z.add_0_r in H.
    destruct (sheet_image r (fun t => q <- r t ;; colorsToImage (plain q) 8 8 1) tiles W px pxs HW E Hlen Hchan (fun t => eq_refl) R M) as (img' & I & SZ & PX). unfold sheet_height in I. rewrite E in I. cbn [Z.eqb] in I. rewrite Z.add_0_r in I.
    assert (img' = img) by congruence. subst img'. split; [exact SZ|]. intros X Y HX HY.
    assert (B1 : 0 <= X / 8 < W) by lia. assert (B2 : 0 <= Y / 8 < zlen tiles / W) by lia.
    set (i := Y / 8 * W + X / 8). assert (Hi : 0 <= i < zlen tiles) by (unfold i; nia).
    destruct (nth_error tiles (Z.to_nat i)) as [t|] eqn:N; [|apply nth_error_None in N; unfold zlen in Hi; lia].
    destruct (PX i t ltac:(lia) N) as (s & S1 & S2 & S3). specialize (S3 (X mod 8) (Y mod 8) ltac:(lia) ltac:(lia)).
    replace (i mod W) with (X / 8) in S3 by (unfold i; rewrite (Z.add_comm (_ * _)), Z.mod_add by lia; rewrite (Z.mod_small (X / 8) W); lia). replace (i / W) with (Y / 8) in S3 by (unfold i; rewrite (Z.add_comm (_ * _)), Z.div_add by lia; rewrite (Z.div_small (X / 8) W); lia).
    replace (8 * (X / 8) + X mod 8) with X in S3 by lia. replace (8 * (Y / 8) + Y mod 8) with Y in S3 by lia. rewrite S3.
    apply bind_ok in S1 as (q & RQ & CI). destruct (plain_image q 8 8) as (s' & C1 & _ & C3); [lia|lia|rewrite (Hlen _ _ RQ); reflexivity|exact (Hchan _ _ RQ)|].
    assert (s' = s) by congruence. subst s'. destruct (HG i t q N ltac:(lia) RQ (X mod 8) (Y mod 8) ltac:(lia) ltac:(lia)) as (c & G1 & G2).
    rewrite (C3 (X mod 8) (Y mod 8) c); [exact G2|lia|lia|]. rewrite (Z.mul_comm _ 8). exact G1.
  Qed.
End Grid.

(** ** tiles and colours from files *)

Section Files.
  Variable (f : imgfmt) (pal td : bytes).
  Hypothesis (BP : is_bytes pal) (BT : is_bytes td).
  Definition pals : list Gfx2DModel.color := map quad (colours pal).
  Definition tile (k : nat) : itile := {| tPixels := map (pixel f td k) (seq 0 64); tFormat := f |}.

  Lemma pals_len : zlen pals = zlen pal / 2.
  Proof. unfold pals, colours, zlen. rewrite !map_length, seq_length, Z2Nat.id; [reflexivity|]. apply Z.div_pos; lia. Qed.
  Lemma pals_at i : 0 <= i < zlen pal / 2 -> nth_error pals (Z.to_nat i) = Some (quad (colour (half pal (2 * i)))).
  Proof.
    intros H. unfold pals, colours. rewrite map_map. rewrite nth_error_map, nth_error_seq_lt by lia. cbn [option_map plus]. rewrite Z2Nat.id by lia. reflexivity.
  Qed.
  Lemma pals_ok : Forall quad_ok pals.
  Proof.
    unfold pals, colours. apply Forall_map, Forall_map, Forall_forall. intros i I. apply in_seq in I. unfold quad, colour, quad_ok, channels_ok. cbn [cr cg cb ca]. pose proof (half_range pal (2 * Z.of_nat i) BP ltac:(lia) ltac:(lia)). repeat split; try lia.
  Qed.
  Lemma byte_lt d o : is_bytes d -> 0 <= byte d o < 256.
  Proof. intros B. unfold byte. destruct (nth_in_or_default (Z.to_nat o) d 0) as [I|E]; [|rewrite E; lia]. unfold is_bytes in B. rewrite Forall_forall in B. exact (B _ I). Qed.
  Lemma pixel_pos k n : 0 <= pixel f td k n.
  Proof. unfold pixel. destruct f; [apply byte_lt; exact BT|]. pose proof (byte_lt td (32 * Z.of_nat k + Z.of_nat n / 2) BT). cbv zeta. destruct (_ =? _); lia. Qed.
  Lemma tile_pixel k i : 0 <= i < 64 -> get (tPixels (tile k)) i = Ok (pixel f td k (Z.to_nat i)).
  Proof. intros H. apply get_nth; [lia|]. unfold tile. cbn [tPixels]. rewrite nth_error_map, nth_error_seq_lt by lia. reflexivity. Qed.

  Definition shown_value (p v : Z) : Gfx2DModel.color := if v =? 0 then transparent else let '(r, g, b, _) := quad (colour (half pal (2 * (palette_size f * p + v)))) in (r, g, b, 1).
  Lemma shown_shade p v : shown 1 (shown_value p v) = shade f pal p v.
  Proof. unfold shown_value, shade. destruct (v =? 0); reflexivity. Qed.

  Lemma pixel_color p v : 0 <= p -> 0 <= v -> (if v =? 0 then Ok transparent else get (map (fun c : Gfx2DModel.color => let '(r, g, b, a) := c in (r, g, b, 1)) pals) (p * palette_size f + v)) =
    if (v =? 0) || (palette_size f * p + v <? zlen pal / 2) then Ok (shown_value p v) else Err IndexError.
  Proof.
    intros P V. unfold shown_value. destruct (v =? 0) eqn:E; [reflexivity|]. cbn [orb]. assert (0 < palette_size f) by (destruct f; reflexivity).
    destruct (palette_size f * p + v <? zlen pal / 2) eqn:B.
    - apply get_nth; [nia|]. rewrite nth_error_map. rewrite (Z.mul_comm p), pals_at by nia. reflexivity.
    - apply get_ge. rewrite zlen_map, pals_len. nia.
  Qed.
  Lemma tile_render k p : 0 <= p -> (exists px, itile_render (tile k) pals p = Ok px) <-> coloured f pal td k p.
  Proof.
    intros P. unfold itile_render. cbv zeta. cbn [tFormat tile]. change (match f with FI4 => 16 | FI8 => 256 end) with (match f with FI4 => 16 | FI8 => 256 end). rewrite mapM_some, Forall_forall. unfold coloured.
    assert (S : match f with FI8 => 256 | FI4 => 16 end = palette_size f) by (destruct f; reflexivity). split.
    - intros H n N NZ. destruct (H (Z.of_nat n)) as (c & C); [apply in_range_z; lia|]. rewrite tile_pixel in C by lia. cbn [bind] in C. rewrite Nat2Z.id in C. rewrite S, pixel_color in C by (try apply pixel_pos; lia).
      replace (pixel f td k n =? 0) with false in C by lia. cbn [orb] in C. destruct (_ <? _) eqn:L in C; [lia|discriminate].
    - intros H i I. apply in_range_z in I. rewrite tile_pixel by lia. cbn [bind]. rewrite S, pixel_color by (try apply pixel_pos; lia). specialize (H (Z.to_nat i) ltac:(lia)).
      destruct (pixel f td k (Z.to_nat i) =? 0) eqn:Z0; [eexists; reflexivity|]. cbn [orb]. replace (palette_size f * p + pixel f td k (Z.to_nat i) <? zlen pal / 2) with true by lia. eexists. reflexivity.
  Qed.
  Lemma tile_pixels k p px : 0 <= p -> itile_render (tile k) pals p = Ok px -> forall i, 0 <= i < 64 -> exists c, get px i = Ok c /\ shown 1 c = shade f pal p (pixel f td k (Z.to_nat i)).
  Proof.
    intros P H i I. exists (shown_value p (pixel f td k (Z.to_nat i))). split; [|apply shown_shade]. unfold itile_render in H. cbv zeta in H. cbn [tFormat tile] in H. apply mapM_range in H as (L & H). specialize (H i I).
    assert (S : match f with FI8 => 256 | FI4 => 16 end = palette_size f) by (destruct f; reflexivity). rewrite tile_pixel in H by lia. cbn [bind] in H. rewrite S, pixel_color in H by (try apply pixel_pos; lia).
    change (Z.of_nat 64) with 64 in L. destruct (get_some px i) as (c & C); [lia|]. rewrite C in *. destruct (_ || _); [exact (eq_sym H)|discriminate].
  Qed.
End Files.

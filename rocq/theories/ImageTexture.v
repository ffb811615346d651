(** * Rendered textures as images *)
From Verif Require Import PyBase PyLemmas PyTac ColorModel TexModel TexSpec TexRender ImageModel ImageSpec ImageLemmas.

Definition in5 (c : color) : Prop := 0 <= cr c < 32 /\ 0 <= cg c < 32 /\ 0 <= cb c < 32 /\ 0 <= ca c < 32.
Lemma rgb_in5 v a : 0 <= a < 32 -> in5 (rgb v a).
Proof. intros A. unfold in5, rgb. cbn [cr cg cb ca]. repeat split; try (apply Z.mod_pos_bound; lia); lia. Qed.
Lemma mean_in5 a b n x y : 0 <= a -> 0 <= b -> 0 < n -> a + b = n -> 0 <= x < 32 -> 0 <= y < 32 -> 0 <= (a * x + b * y) / n < 32.
Proof. intros. split; [apply Z.div_pos; nia|apply Z.div_lt_upper_bound; nia]. Qed.
Lemma mix_in5 a b n v w : 0 <= a -> 0 <= b -> 0 < n -> a + b = n -> in5 (mix a b n v w).
Proof. intros A B N S. unfold in5, mix. cbn [cr cg cb ca]. split; [|split; [|split; [|lia]]]; apply mean_in5; try assumption; apply Z.mod_pos_bound; lia. Qed.
Lemma indexed_in5 pal c0 i c : indexed pal c0 i = Ok c -> in5 c.
Proof. unfold indexed. intros H. apply bind_ok in H as (v & _ & H). injection H as <-. apply rgb_in5. destruct (_ && _); lia. Qed.
Lemma texel_in5 pal b m s c : texel_color pal b m s = Ok c -> in5 c.
Proof.
  unfold texel_color. cbv zeta. intros H.
  assert (Z0 : in5 (C4 0 0 0 0)) by (unfold in5; cbn; lia).
  assert (D : (c <- get pal (b + s) ;; Ok (rgb c 31)) = Ok c -> in5 c) by (intros E; apply bind_ok in E as (v & _ & E); injection E as <-; apply rgb_in5; lia).
  assert (X : forall x y n, 0 <= x -> 0 <= y -> 0 < n -> x + y = n -> (c0 <- get pal b ;; c1 <- get pal (b + 1) ;; Ok (mix x y n c0 c1)) = Ok c -> in5 c).
  { intros x y n A1 A2 A3 A4 E. apply bind_ok in E as (v & _ & E). apply bind_ok in E as (u & _ & E). injection E as <-. apply mix_in5; assumption. }
  repeat match type of H with
  | Ok _ = Ok _ => injection H as <-; exact Z0
  | match ?k with _ => _ end = _ => destruct k
  end; first [exact (D H)|(revert H; apply X; lia)].
Qed.
Lemma pixel_in5 fmt d1 d2 w pal c0 X Y c : is_bytes d1 -> is_bytes d2 -> pixel fmt d1 d2 w pal c0 X Y = Ok c -> in5 c.
Proof.
  intros B1 B2 H. destruct (Z_le_dec 1 fmt) as [F1|F1]; [destruct (Z_le_dec fmt 7) as [F7|F7]|].
  - assert (K : fmt = 1 \/ fmt = 2 \/ fmt = 3 \/ fmt = 4 \/ fmt = 5 \/ fmt = 6 \/ fmt = 7) by lia. destruct K as [->|[->|[->|[->|[->|[->| ->]]]]]]; cbn [pixel] in H; cbv zeta in H.
    + apply bind_ok in H as (v & V & H). apply bind_ok in H as (u & _ & H). injection H as <-. apply (get_all _ _ _ _ B1) in V. unfold is_byte in V. apply rgb_in5. lia.
    + apply bind_ok in H as (v & V & H). exact (indexed_in5 _ _ _ _ H).
    + apply bind_ok in H as (v & V & H). exact (indexed_in5 _ _ _ _ H).
    + apply bind_ok in H as (v & V & H). exact (indexed_in5 _ _ _ _ H).
    + apply bind_ok in H as (v & V & H). apply bind_ok in H as (u & U & H). apply bind_ok in H as (q & Q & H). exact (texel_in5 _ _ _ _ _ H).
    + apply bind_ok in H as (v & V & H). apply bind_ok in H as (u & _ & H). injection H as <-. apply (get_all _ _ _ _ B1) in V. unfold is_byte in V. apply rgb_in5. lia.
    + apply bind_ok in H as (v & V & H). apply bind_ok in H as (u & _ & H). injection H as <-. apply rgb_in5. destruct (_ <=? _); lia.
  - exfalso. destruct fmt as [|[[[?|?|]|[?|?|]|]|[[?|?|]|[?|?|]|]|]|]; try lia; discriminate.
  - exfalso. destruct fmt as [|p|p]; try lia; discriminate.
Qed.
Lemma quad_ok5 c : in5 c -> channels_ok 5 (quad c).
Proof. unfold in5, channels_ok, quad. tauto. Qed.

Lemma texture_image fmt d1 d2 w h pal c0 dest : 1 <= fmt <= 7 -> size_fits fmt w h -> is_bytes d1 -> is_bytes d2 -> Forall (fun v => 0 <= v < 2 ^ 16) pal ->
  renderTextureData d1 d2 fmt w h (Some (map PInt pal)) c0 = Ok dest ->
  exists img, renderTextureDataAsImage d1 d2 fmt w h (Some (map PInt pal)) c0 = Ok img /\ sized img w h /\
    forall X Y, 0 <= X < w -> 0 <= Y < h -> exists c, pixel fmt d1 d2 w pal c0 X Y = Ok c /\ pixel_at img X Y = [wide (cr c); wide (cg c); wide (cb c); wide (ca c)].
Proof.
  intros F S B1 B2 PV E. destruct (render_image fmt d1 d2 w h pal c0 F S B1 B2 PV) as [R _]. destruct (R _ E) as [L A]. destruct S as (W & H & _).
  assert (G : exists cs, dest = map Some cs /\ Forall in5 cs /\ forall p, 0 <= p < w * h -> exists c, fpix d1 d2 w pal c0 fmt p = Ok c /\ nth_error cs (Z.to_nat p) = Some c).
  { clear R E F PV. assert (ALL : forall l, (forall o, In o l -> exists c : color, o = Some c /\ in5 c) -> exists cs, l = map Some cs /\ Forall in5 cs).
    { induction l as [|o l IH]; intros Q; [exists []; split; [reflexivity|constructor]|]. destruct IH as (cs & -> & FC); [intros o' I; apply Q; right; exact I|]. destruct (Q o (or_introl eq_refl)) as (c & -> & C). exists (c :: cs). split; [reflexivity|constructor; assumption]. }
    destruct (ALL dest) as (cs & -> & FC).
    { intros o I. apply In_nth_error in I as (n & N). assert (LN : (n < length dest)%nat) by (apply nth_error_Some; congruence). destruct (A (Z.of_nat n)) as (c & E1 & E2); [unfold zlen in L; lia|].
      apply get_inv in E2; [|lia]. rewrite Nat2Z.id, N in E2. injection E2 as ->. exists c. split; [reflexivity|]. exact (pixel_in5 _ _ _ _ _ _ _ _ _ B1 B2 E1). }
    exists cs. split; [reflexivity|]. split; [exact FC|]. intros p P. destruct (A p P) as (c & E1 & E2). exists c. split; [exact E1|]. apply get_inv in E2; [|lia]. rewrite nth_error_map in E2. destruct (nth_error cs (Z.to_nat p)) as [c'|]; [|discriminate]. cbn [option_map] in E2. congruence. }
  destruct G as (cs & -> & FC & G). unfold renderTextureDataAsImage. rewrite E. cbn [bind].
  assert (M : map (option_map quad) (map Some cs) = map Some (map quad cs)) by (rewrite !map_map; reflexivity). rewrite M.
  destruct (image_ok 5 (map quad cs) [] w h W H (or_intror eq_refl)) as (img & EI & SI & P).
  { unfold zlen in *. rewrite map_length in *. exact L. } { apply Forall_map. revert FC. apply Forall_impl. exact quad_ok5. }
  rewrite app_nil_r in EI. exists img. split; [exact EI|]. split; [exact SI|]. intros X Y HX HY. destruct (G (Y * w + X)) as (c & E1 & E2); [nia|]. exists c.
  split; [unfold fpix in E1; rewrite (Z.add_comm (Y * w)), Z.mod_add, Z.div_add in E1 by lia; rewrite Z.mod_small, Z.div_small, Z.add_0_l in E1 by lia; exact E1|].
  rewrite (P X Y (quad c) HX HY); [reflexivity|]. rewrite nth_error_map, E2. reflexivity.
Qed.

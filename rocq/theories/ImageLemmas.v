(** * Lemmas about images *)
From Verif Require Import PyBase PyLemmas PyTac LzLemmas ImageModel ImageSpec.

Fixpoint draw (a : Z) (n : nat) (it : list (option rgba)) : res (list Z * list (option rgba)) :=
  match n with
  | O => Ok ([], it)
  | S k => match it with
           | [] => Err StopIteration
           | None :: _ => Err TypeError
           | Some c :: r => p <- draw a k r ;; Ok (color_word a c :: fst p, snd p)
           end
  end.
Lemma draw_add a n m it : draw a (n + m) it = (p <- draw a n it ;; q <- draw a m (snd p) ;; Ok (fst p ++ fst q, snd q)).
Proof.
  revert it. induction n as [|n IH]; intros it; cbn [draw Nat.add]; [cbn [bind fst snd app]; destruct (draw a m it) as [[u v]|]; reflexivity|].
  destruct it as [|[c|] r]; [reflexivity| |reflexivity]. rewrite IH. destruct (draw a n r) as [[ws it']|]; [|reflexivity]. cbn [bind fst snd].
  destruct (draw a m it') as [[u v]|]; reflexivity.
Qed.
Lemma draw_row a w y k : forall x0 done m it, zlen done = y * w + x0 -> (k <= m)%nat ->
  foldM (pixel_step a w y) (done ++ repeat 0 m, it) (range_z x0 k) = (p <- draw a k it ;; Ok (done ++ fst p ++ repeat 0 (m - k), snd p)).
Proof.
  induction k as [|k IH]; intros x0 done m it L K; cbn [range_z foldM draw]; [cbn [bind fst snd app]; rewrite Nat.sub_0_r; reflexivity|].
  destruct m as [|m]; [lia|]. cbn [repeat pixel_step]. destruct it as [|[c|] r]; [reflexivity| |reflexivity].
  rewrite setl_mid by (symmetry; exact L). cbn [bind]. replace (done ++ color_word a c :: repeat 0 m) with ((done ++ [color_word a c]) ++ repeat 0 m) by (rewrite <- app_assoc; reflexivity).
  rewrite IH by (rewrite ?zlen_app, ?zlen_cons, ?zlen_nil; lia). destruct (draw a k r) as [[ws it']|]; [|reflexivity]. cbn [bind fst snd]. rewrite <- !app_assoc. reflexivity.
Qed.
Lemma draw_rows a w h : 0 <= w -> forall y0 done m it, 0 <= y0 -> zlen done = y0 * w -> (h * Z.to_nat w <= m)%nat ->
  foldM (fun st y => foldM (pixel_step a w y) st (range_z 0 (Z.to_nat w))) (done ++ repeat 0 m, it) (range_z y0 h) =
  (p <- draw a (h * Z.to_nat w) it ;; Ok (done ++ fst p ++ repeat 0 (m - h * Z.to_nat w), snd p)).
Proof.
  intros W. induction h as [|h IH]; intros y0 done m it Y L K; cbn [range_z foldM draw Nat.mul]; [cbn [bind fst snd app]; rewrite Nat.sub_0_r; reflexivity|].
  rewrite draw_row by lia. rewrite draw_add. destruct (draw a (Z.to_nat w) it) as [[ws it']|] eqn:D; [|reflexivity]. cbn [bind fst snd].
  assert (LW : zlen ws = w). { assert (G : forall n i p, draw a n i = Ok p -> length (fst p) = n). { clear. induction n as [|n IH]; intros [|[c|] r] p E; cbn [draw] in E; try discriminate; try (injection E as <-; reflexivity). destruct (draw a n r) as [[u v]|] eqn:F; [|discriminate]. injection E as <-. cbn [fst length bind]. f_equal. exact (IH _ _ F). }
    apply G in D. cbn [fst] in D. unfold zlen. lia. }
  rewrite app_assoc. rewrite IH; [|lia|rewrite zlen_app; lia|cbn [Nat.mul] in K; lia]. destruct (draw a (h * Z.to_nat w) it') as [[u v]|]; [|reflexivity]. cbn [bind fst snd]. rewrite <- !app_assoc. do 3 f_equal. f_equal. f_equal. f_equal. lia.
Qed.
Lemma colorsToImage_draw colors w h a : 0 <= w -> 0 <= h -> a = 1 \/ a = 5 ->
  colorsToImage colors w h a = (p <- draw a (Z.to_nat (w * h)) colors ;; bs <- mapM (pack_u 4) (fst p) ;; Ok {| iWidth := w; iHeight := h; iData := concat bs |}).
Proof.
  intros W H A. unfold colorsToImage. replace (negb _) with false by (destruct A as [->| ->]; reflexivity).
  assert (N : Z.to_nat (w * h) = (Z.to_nat h * Z.to_nat w)%nat) by (rewrite Z2Nat.inj_mul by lia; lia).
  unfold rep. rewrite N. pose proof (draw_rows a w (Z.to_nat h) W 0 [] (Z.to_nat h * Z.to_nat w) colors ltac:(lia) ltac:(reflexivity) ltac:(lia)) as R. cbn [app] in R. rewrite R.
  destruct (draw a _ colors) as [[ws it]|]; [|reflexivity]. cbn [bind fst snd]. rewrite Nat.sub_diag. cbn [repeat]. rewrite app_nil_r. reflexivity.
Qed.
Lemma draw_ok a cs rest : draw a (length cs) (map Some cs ++ rest) = Ok (map (color_word a) cs, rest).
Proof. induction cs as [|c cs IH]; [reflexivity|]. cbn [length map app draw]. rewrite IH. reflexivity. Qed.
Lemma draw_short a n cs : (length cs < n)%nat -> draw a n (map Some cs) = Err StopIteration.
Proof. revert n. induction cs as [|c cs IH]; intros [|n] L; cbn [length] in L; try lia; cbn [map draw]; [reflexivity|]. rewrite IH by lia. reflexivity. Qed.
Lemma draw_none a n cs rest : (length cs < n)%nat -> draw a n (map Some cs ++ None :: rest) = Err TypeError.
Proof. revert n. induction cs as [|c cs IH]; intros [|n] L; cbn [length] in L; try lia; cbn [map draw app]; [reflexivity|]. rewrite IH by lia. reflexivity. Qed.

Lemma wide_lor v : 0 <= v < 32 -> Z.lor (Z.shiftl v 3) (Z.shiftr v 2) = wide v.
Proof. intros H. apply Z.eqb_eq. revert v H. apply (sweep 32 (fun v => Z.lor (Z.shiftl v 3) (Z.shiftr v 2) =? wide v)). vm_compute. reflexivity. Qed.
Lemma wide_range v : 0 <= v < 32 -> 0 <= wide v < 256.
Proof. unfold wide. lia. Qed.
Lemma word_value r g b a : 0 <= r < 256 -> 0 <= g < 256 -> 0 <= b < 256 -> 0 <= a < 256 ->
  Z.lor (Z.lor (Z.lor (Z.shiftl a 24) (Z.shiftl b 16)) (Z.shiftl g 8)) r = r + 256 * (g + 256 * (b + 256 * a)).
Proof.
  intros R G B A. assert (S1 : Z.shiftl a 24 = Z.shiftl (256 * a) 16) by (rewrite !Z.shiftl_mul_pow2 by lia; change (2 ^ 24) with (256 * 2 ^ 16); lia).
  assert (S2 : Z.lor (Z.shiftl (256 * a) 16) (Z.shiftl b 16) = Z.shiftl (256 * (b + 256 * a)) 8).
  { rewrite <- Z.shiftl_lor. replace (Z.lor (256 * a) b) with (b + 256 * a); [rewrite !Z.shiftl_mul_pow2 by lia; change (2 ^ 16) with (256 * 2 ^ 8); lia|].
    rewrite Z.lor_comm. replace (256 * a) with (Z.shiftl a 8) by (rewrite Z.shiftl_mul_pow2 by lia; change (2 ^ 8) with 256; lia). rewrite (lor_add b a 8) by (change (2 ^ 8) with 256; lia). change (2 ^ 8) with 256. rewrite Z.shiftl_mul_pow2 by lia. change (2 ^ 8) with 256. lia. }
  rewrite S1, S2, <- Z.shiftl_lor. set (x := b + 256 * a) in *. replace (Z.lor (256 * x) g) with (g + 256 * x).
  - rewrite lor_shiftl_add by (try lia; change (2 ^ 8) with 256; lia). change (2 ^ 8) with 256. lia.
  - rewrite Z.lor_comm. replace (256 * x) with (Z.shiftl x 8) at 2 by (rewrite Z.shiftl_mul_pow2 by lia; change (2 ^ 8) with 256; lia). rewrite (lor_add g x 8) by (change (2 ^ 8) with 256; lia). change (2 ^ 8) with 256. lia.
Qed.
Lemma alpha_range aBits a : (aBits = 5 -> 0 <= a < 32) -> aBits = 1 \/ aBits = 5 -> 0 <= (if aBits =? 1 then if a =? 0 then 0 else 255 else wide a) < 256.
Proof. intros A [->| ->]; cbn [Z.eqb Pos.eqb]; [destruct (a =? 0); lia|apply wide_range; lia]. Qed.
Lemma color_word_ok aBits c : aBits = 1 \/ aBits = 5 -> channels_ok aBits c -> pack_u 4 (color_word aBits c) = Ok (shown aBits c).
Proof.
  destruct c as [[[r g] b] a]. intros B (R & G & Bl & A). unfold color_word, shown. rewrite (wide_lor r), (wide_lor g), (wide_lor b) by assumption.
  replace (if aBits =? 1 then if a =? 0 then 0 else 255 else Z.lor (Z.shiftl a 3) (Z.shiftr a 2)) with (if aBits =? 1 then if a =? 0 then 0 else 255 else wide a) by (destruct (Z.eqb_spec aBits 1); [reflexivity|rewrite wide_lor; [reflexivity|apply A; lia]]).
  pose proof (alpha_range aBits a A B) as AR. pose proof (wide_range r R). pose proof (wide_range g G). pose proof (wide_range b Bl).
  set (a' := if aBits =? 1 then _ else _) in *. clearbody a'. rewrite word_value by lia. set (r' := wide r) in *. set (g' := wide g) in *. set (b' := wide b) in *. clearbody r' g' b'.
  rewrite pack_u_ok by (change (256 ^ Z.of_nat 4) with 4294967296; lia). cbn [le]. f_equal.
  f_equal; [rewrite Z.mul_comm, Z.mod_add, Z.mod_small by lia; reflexivity|]. replace ((r' + 256 * (g' + 256 * (b' + 256 * a'))) / 256) with (g' + 256 * (b' + 256 * a')) by (apply Z.div_unique with r'; lia).
  f_equal; [rewrite Z.mul_comm, Z.mod_add, Z.mod_small by lia; reflexivity|]. replace ((g' + 256 * (b' + 256 * a')) / 256) with (b' + 256 * a') by (apply Z.div_unique with g'; lia).
  f_equal; [rewrite Z.mul_comm, Z.mod_add, Z.mod_small by lia; reflexivity|]. replace ((b' + 256 * a') / 256) with a' by (apply Z.div_unique with b'; lia).
  f_equal. apply Z.mod_small. lia.
Qed.
Lemma shown_len a c : zlen (shown a c) = 4.
Proof. destruct c as [[[r g] b] x]. reflexivity. Qed.
Lemma words_ok aBits cs : aBits = 1 \/ aBits = 5 -> Forall (channels_ok aBits) cs -> mapM (pack_u 4) (map (color_word aBits) cs) = Ok (map (shown aBits) cs).
Proof. intros B F. induction F as [|c cs C F IH]; [reflexivity|]. cbn [map mapM]. rewrite color_word_ok, IH by assumption. reflexivity. Qed.
Lemma shown_at a cs i c : nth_error cs i = Some c -> slice (concat (map (shown a) cs)) (4 * Z.of_nat i) (4 * Z.of_nat i + 4) = shown a c.
Proof.
  intros N. apply nth_error_split in N as (l1 & l2 & -> & <-). rewrite map_app, concat_app. cbn [map concat].
  assert (L : zlen (concat (map (shown a) l1)) = 4 * Z.of_nat (length l1)). { clear. induction l1 as [|c l IH]; [reflexivity|]. cbn [map concat length]. rewrite zlen_app, shown_len, IH. lia. }
  rewrite <- L. apply slice_mid; [reflexivity|rewrite shown_len; reflexivity].
Qed.
Lemma shown_total a cs : zlen (concat (map (shown a) cs)) = 4 * zlen cs.
Proof. induction cs as [|c l IH]; [reflexivity|]. cbn [map concat]. rewrite zlen_app, shown_len, zlen_cons, IH. lia. Qed.
Lemma image_ok aBits cs rest w h : 0 <= w -> 0 <= h -> aBits = 1 \/ aBits = 5 -> zlen cs = w * h -> Forall (channels_ok aBits) cs ->
  exists img, colorsToImage (map Some cs ++ rest) w h aBits = Ok img /\ sized img w h /\
    forall x y c, 0 <= x < w -> 0 <= y < h -> nth_error cs (Z.to_nat (y * w + x)) = Some c -> pixel_at img x y = shown aBits c.
Proof.
  intros W H B L F. rewrite colorsToImage_draw by assumption. rewrite <- L. unfold zlen at 1. rewrite Nat2Z.id, draw_ok. cbn [bind fst]. rewrite words_ok by assumption. cbn [bind].
  eexists. split; [reflexivity|]. split; [split; [reflexivity|]; split; [reflexivity|]; cbn [iData]; rewrite shown_total; lia|].
  intros x y c X Y N. unfold pixel_at. cbn [iData iWidth]. replace (4 * (y * w + x)) with (4 * Z.of_nat (Z.to_nat (y * w + x))) by nia. apply shown_at. exact N.
Qed.

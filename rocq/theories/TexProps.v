(** * Textures *)
From Coq Require Import String.
From Verif Require Import PyBase PyLemmas ColorModel ColorLemmas AtLemmas PyTac WaveModel WaveLemmas TexModel TexSpec TexLemmas TexBlock TexRender.

(** ** C33: the parameter word *)

(** the fields sit at fixed bit positions, and reading the word gives them back *)
Theorem C33_params_roundtrip : forall u0 u2 rs rt ms mt a b f c0 mode u4 d1 d2,
  0 <= a <= 7 -> 0 <= b <= 7 -> 0 <= f <= 7 -> 0 <= mode <= 3 ->
  let t := tex_fromFlags u0 u2 rs rt ms mt (8 * 2 ^ a) (8 * 2 ^ b) f c0 mode u4 d1 d2 in
  exists word, tex_save t = Ok (u0, u2, word, u4, d1, d2) /\
    word = Z.b2z rs + 2 * Z.b2z rt + 4 * Z.b2z ms + 8 * Z.b2z mt + 16 * a + 128 * b + 1024 * f + 8192 * Z.b2z c0 + 16384 * mode /\
    tex_new u0 u2 word u4 d1 d2 = t.
Proof.
  intros u0 u2 rs rt ms mt a b f c0 mode u4 d1 d2 Ha Hb Hf Hm. cbv zeta.
  destruct (params_ok_all u0 u2 rs rt ms mt a b f c0 mode u4 d1 d2 ltac:(lia) ltac:(lia) ltac:(lia) ltac:(lia)) as [P N].
  exists (word_of rs rt ms mt a b f c0 mode). unfold tex_save. rewrite P. split; [reflexivity|]. split; [|exact N].
  unfold word_of, zb. destruct rs, rt, ms, mt, c0; cbn [Z.b2z]; lia.
Qed.
Print Assumptions C33_params_roundtrip.
Theorem C33_word_roundtrip : forall u0 u2 word u4 d1 d2, 0 <= word < 2 ^ 16 ->
  tex_save (tex_new u0 u2 word u4 d1 d2) = Ok (u0, u2, word, u4, d1, d2).
Proof. intros. unfold tex_save. rewrite params_word_all by assumption. reflexivity. Qed.
Print Assumptions C33_word_roundtrip.
Theorem C33_bad_size : forall t, (~ exists a, 0 <= a <= 7 /\ txW t = 8 * 2 ^ a) \/ (~ exists a, 0 <= a <= 7 /\ txH t = 8 * 2 ^ a) ->
  tex_save t = Err ValueError.
Proof.
  intros t H. unfold tex_save. rewrite params_bad; [reflexivity|].
  destruct H as [H|H]; [left; destruct (size_code (txW t)) as [a|] eqn:E|right; destruct (size_code (txH t)) as [a|] eqn:E]; try reflexivity;
    exfalso; apply H; exists a; apply size_code_some in E as [? ?]; split; (lia || assumption).
Qed.
Print Assumptions C33_bad_size.
Definition demo_tex : texture := tex_fromFlags 1 2 true false false true 64 8 3 true 1 0x80000000 (rep 0x21 256) [].
Example C33_ex : (exists word, tex_save demo_tex = Ok (1, 2, word, 0x80000000, rep 0x21 256, []) /\ word = 27705 /\ tex_new 1 2 word 0x80000000 (rep 0x21 256) [] = demo_tex) /\
  tex_save (tex_fromFlags 1 2 true false false true 63 8 3 true 1 0 [] []) = Err ValueError /\
  tex_save (tex_fromFlags 1 2 true false false true 8 2048 3 true 1 0 [] []) = Err ValueError.
Proof. split; [|split; vm_compute; reflexivity]. exists 27705. split; [vm_compute; reflexivity|]. split; [reflexivity|vm_compute; reflexivity]. Qed.

(** ** C55: NSBTX files *)

(** a name the 16-byte field of the file can hold *)
Definition storable_name {A} (p : option bytes * A) : Prop := zlen (named p) <= 16 /\ (named p = [] \/ last (named p) 0 <> 0).
(** a texture whose data is as long as its size and format ask for *)
Definition storable_texture (t : texture) : Prop :=
  0 <= txFmt t <= 7 /\ 0 <= txMode t <= 3 /\
  8 * zlen (txD1 t) = txW t * txH t * nth (Z.to_nat (txFmt t)) [0; 8; 2; 4; 8; 2; 8; 16] 0 /\
  8 * zlen (txD2 t) = txW t * txH t * nth (Z.to_nat (txFmt t)) [0; 0; 0; 0; 0; 1; 0; 0] 0.
Definition storable_palette (p : palette) : Prop := Forall valid51 (plColors p).
(** what tells two palettes apart when a file is read *)
Definition palette_key (p : option bytes * palette) : bytes * Z * Z * Z := (named p, pl00 (snd p), pl02 (snd p), plH02 (snd p)).
(** an unnamed texture or palette is read back with an empty name *)
Definition with_name {A} (p : option bytes * A) : option bytes * A := (Some (named p), snd p).

Lemma storable_good : forall x,
  Forall (fun p => storable_name p /\ storable_texture (snd p)) (xTextures x) ->
  Forall (fun p => storable_name p /\ storable_palette (snd p)) (xPalettes x) ->
  NoDup (map palette_key (xPalettes x)) ->
  (forall l1 p l2 q, xPalettes x = l1 ++ p :: l2 -> plColors (snd p) = [] -> In q l2 -> plColors (snd q) = []) -> tex0_good x.
Proof.
  intros x HT HP ND EL. unfold tex0_good. repeat apply conj.
  - eapply Forall_impl; [|exact HT]. cbv beta. intros p [N (F & M & L1 & L2)]. split; [|exact N]. unfold tex_good. repeat apply conj; try lia.
    + assert (E : bpp1 (txFmt (snd p)) = nth (Z.to_nat (txFmt (snd p))) [0; 8; 2; 4; 8; 2; 8; 16] 0).
      { assert (K : txFmt (snd p) = 0 \/ txFmt (snd p) = 1 \/ txFmt (snd p) = 2 \/ txFmt (snd p) = 3 \/ txFmt (snd p) = 4 \/ txFmt (snd p) = 5 \/ txFmt (snd p) = 6 \/ txFmt (snd p) = 7) by lia.
        destruct K as [->|[->|[->|[->|[->|[->|[->| ->]]]]]]]; reflexivity. }
      rewrite E, <- L1, Z.mul_comm, Z.div_mul by lia. reflexivity.
    + assert (E : bpp2 (txFmt (snd p)) = nth (Z.to_nat (txFmt (snd p))) [0; 0; 0; 0; 0; 1; 0; 0] 0).
      { assert (K : txFmt (snd p) = 0 \/ txFmt (snd p) = 1 \/ txFmt (snd p) = 2 \/ txFmt (snd p) = 3 \/ txFmt (snd p) = 4 \/ txFmt (snd p) = 5 \/ txFmt (snd p) = 6 \/ txFmt (snd p) = 7) by lia.
        destruct K as [->|[->|[->|[->|[->|[->|[->| ->]]]]]]]; reflexivity. }
      rewrite E, <- L2, Z.mul_comm, Z.div_mul by lia. reflexivity.
  - eapply Forall_impl; [|exact HP]. cbv beta. intros p [N C]. split; assumption.
  - apply NoDup_map_inv with (f := fun k => match k with (Some n, a, b, c) => (n, a, b, c) | (None, a, b, c) => ([], a, b, c) end). rewrite map_map. exact ND.
  - intros l1 p l2 E C. apply Forall_forall. intros q Hq. exact (EL l1 p l2 q E C Hq).
Qed.
Theorem C55_nsbtx_roundtrip : forall x f post,
  Forall (fun p => storable_name p /\ storable_texture (snd p)) (xTextures x) ->
  Forall (fun p => storable_name p /\ storable_palette (snd p)) (xPalettes x) ->
  NoDup (map palette_key (xPalettes x)) ->
  (forall l1 p l2 q, xPalettes x = l1 ++ p :: l2 -> plColors (snd p) = [] -> In q l2 -> plColors (snd q) = []) ->
  nsbtx_save x = Ok f ->
  nsbtx_load (f ++ post) = Ok {| x08 := x08 x; x10 := x10 x; x18 := x18 x; x20 := x20 x; x2C := x2C x; x32 := x32 x;
                                 xTextures := map with_name (xTextures x); xPalettes := map with_name (xPalettes x) |}.
Proof.
  intros x f post HT HP ND EL H. exact (nsbtx_roundtrip x f post (storable_good x HT HP ND EL) H).
Qed.
Print Assumptions C55_nsbtx_roundtrip.
Definition demo_pal (u : Z) (l : list color) : palette := {| pl00 := 0; pl02 := 0; plH02 := u; plColors := l |}.
Definition demo_tex5 : texture := tex_fromFlags 3 4 false true false false 8 16 5 false 0 7 (map (fun i => i mod 256) (range_z 0 32)) (map (fun i => 16 * i) (range_z 0 16)).
Definition demo_nsbtx (ps : list (option bytes * palette)) : tex0 :=
  {| x08 := 1; x10 := 2; x18 := 3; x20 := 4; x2C := 5; x32 := 6;
     xTextures := [(Some (asc "grass"), demo_tex); (None, demo_tex5); (Some (asc "grass"), demo_tex)]; xPalettes := ps |}.
Example C55_ex : exists f, nsbtx_save (demo_nsbtx [(Some (asc "p"), demo_pal 0 (rep (C4 1 2 3 1) 16)); (Some (asc "q"), demo_pal 0 (rep (C4 31 0 3 0) 4)); (Some (asc "r"), demo_pal 0 [])]) = Ok f /\
  nsbtx_load (f ++ [7; 7]) = Ok {| x08 := 1; x10 := 2; x18 := 3; x20 := 4; x2C := 5; x32 := 6;
    xTextures := [(Some (asc "grass"), demo_tex); (Some [], demo_tex5); (Some (asc "grass"), demo_tex)];
    xPalettes := [(Some (asc "p"), demo_pal 0 (rep (C4 1 2 3 1) 16)); (Some (asc "q"), demo_pal 0 (rep (C4 31 0 3 0) 4)); (Some (asc "r"), demo_pal 0 [])] |}.
Proof. eexists. split; [vm_compute; reflexivity|]. vm_compute. reflexivity. Qed.

(** the two conditions on palettes are needed: of two palettes with the same name
    and unknown values, both are read as the second; and a palette after an empty
    one is read as empty *)
Theorem C55_equal_keys_clash : exists x f y, nsbtx_save x = Ok f /\ nsbtx_load f = Ok y /\
  map (fun p => plColors (snd p)) (xPalettes x) = [rep (C4 1 1 1 1) 4; rep (C4 2 2 2 1) 4] /\
  map (fun p => plColors (snd p)) (xPalettes y) = [rep (C4 2 2 2 1) 4; rep (C4 2 2 2 1) 4].
Proof.
  exists (demo_nsbtx [(Some (asc "p"), demo_pal 0 (rep (C4 1 1 1 1) 4)); (Some (asc "p"), demo_pal 0 (rep (C4 2 2 2 1) 4))]).
  eexists. eexists. split; [vm_compute; reflexivity|]. split; [vm_compute; reflexivity|]. split; vm_compute; reflexivity.
Qed.
Print Assumptions C55_equal_keys_clash.
Theorem C55_empty_palette_clash : exists x f y, nsbtx_save x = Ok f /\ nsbtx_load f = Ok y /\
  map (fun p => plColors (snd p)) (xPalettes x) = [[]; rep (C4 2 2 2 1) 4] /\
  map (fun p => plColors (snd p)) (xPalettes y) = [[]; []].
Proof.
  exists (demo_nsbtx [(Some (asc "p"), demo_pal 0 []); (Some (asc "q"), demo_pal 0 (rep (C4 2 2 2 1) 4))]).
  eexists. eexists. split; [vm_compute; reflexivity|]. split; [vm_compute; reflexivity|]. split; vm_compute; reflexivity.
Qed.
Print Assumptions C55_empty_palette_clash.
(** where the parts are: the header of the block gives the places of the texture data
    (all but texel textures, in order), of both regions of the texel textures, and of
    the colours, which end the file; and their lengths in units of eight bytes *)
Definition number_at (f : bytes) (n o : Z) : Z := unle (slice f o (o + n)).
Definition found_at (f : bytes) (o : Z) (d : bytes) : Prop := 0 <= o /\ slice f o (o + zlen d) = d.
Theorem C55_layout : forall x f, nsbtx_save x = Ok f ->
  let t := skipn 20 f in
  let texels (p : option bytes * texture) := txFmt (snd p) =? 5 in
  let T := concat (map (fun p => txD1 (snd p)) (filter (fun p => negb (texels p)) (xTextures x))) in
  let C1 := concat (map (fun p => txD1 (snd p)) (filter texels (xTextures x))) in
  let C2 := concat (map (fun p => txD2 (snd p)) (filter texels (xTextures x))) in
  exists ds, Forall2 (fun p d => savePalette (plColors (snd p)) = Ok d) (xPalettes x) ds /\
  found_at f 0 (asc "BTX0") /\ number_at f 4 8 = zlen f /\ number_at f 4 16 = 20 /\ found_at t 0 (asc "TEX0") /\ number_at t 4 4 = zlen t /\
  found_at t (number_at t 4 0x14) T /\ number_at t 2 0x0C = zlen T / 8 /\
  found_at t (number_at t 4 0x24) C1 /\ number_at t 2 0x1C = zlen C1 / 8 /\
  found_at t (number_at t 4 0x28) C2 /\
  found_at t (number_at t 4 0x38) (concat ds) /\ 8 * number_at t 2 0x30 = zlen (concat ds) /\ number_at t 4 0x38 + zlen (concat ds) = zlen t.
Proof.
  intros x f H. cbv zeta. unfold nsbtx_save in H. apply bind_ok in H as (t & Ht & H). apply bind_ok in H as (h & Hh & H). injection H as H.
  apply std_pack_inv in Hh as (V1 & V2 & V3 & ->). destruct (tex0_layout x t Ht) as (A1 & A2 & A3 & A4 & A5 & A6 & A7 & A8 & A9 & A10 & A11).
  assert (SK : skipn 20 f = t) by (rewrite <- H; reflexivity).
  assert (LF : zlen f = 20 + zlen t) by (rewrite <- H; rewrite zlen_app, zlen_std; change (20 :: 0 :: 0 :: 0 :: t) with ([20; 0; 0; 0] ++ t); rewrite zlen_app; change (zlen (asc "BTX0")) with 4; change (zlen [20; 0; 0; 0]) with 4; lia). rewrite SK.
  assert (AL : forall (g : texture -> bytes) (c : texture -> bool) l, concat (map (fun p : option bytes * texture => g (snd p)) (filter (fun p => c (snd p)) l)) = all (fun t => if c t then g t else []) l).
  { intros g c l. induction l as [|p l IH]; [reflexivity|]. unfold all in *. cbn [filter map concat]. destruct (c (snd p)); cbn [map concat]; rewrite IH; reflexivity. }
  assert (E1 : concat (map (fun p => txD1 (snd p)) (filter (fun p => negb (txFmt (snd p) =? 5)) (xTextures x))) = all plain (xTextures x)).
  { rewrite (AL txD1 (fun t => negb (txFmt t =? 5))). unfold all. f_equal. apply map_ext. intros p. unfold plain. destruct (txFmt (snd p) =? 5); reflexivity. }
  rewrite E1, (AL txD1 (fun t => txFmt t =? 5)), (AL txD2 (fun t => txFmt t =? 5)). exists (map (fun p => pbytes (snd p)) (xPalettes x)).
  assert (FA : forall g o d, at_ g o d -> found_at g o d) by (intros g o d G; split; [apply G|]; apply at_slice; [exact G|reflexivity]).
  split; [clear - A11; induction A11; constructor; assumption|].
  assert (F0 : at_ f 0 (asc "BTX0")).
  { rewrite <- H. unfold std_bytes. rewrite <- !app_assoc. apply at_whole. }
  assert (F8 : slice f 8 12 = le 4 (20 + zlen t)).
  { rewrite <- H. unfold std_bytes. rewrite <- !app_assoc, (app_assoc (asc "BTX0")), (app_assoc (asc "BTX0" ++ _)). apply slice_mid; reflexivity. }
  assert (F16 : slice f 16 20 = [0x14; 0; 0; 0]) by (rewrite <- H; apply (slice_mid _ [20; 0; 0; 0] t); [rewrite zlen_std; reflexivity|reflexivity]).
  split; [apply FA, F0|]. split; [unfold number_at; change (8 + 4) with 12; rewrite F8, LF; apply unle_le_id; p256; lia|].
  split; [unfold number_at; change (16 + 4) with 20; rewrite F16; reflexivity|].
  split; [apply FA, A1|]. split; [exact A2|]. split; [apply FA, A3|]. split; [exact A4|]. split; [apply FA, A5|]. split; [exact A6|]. split; [apply FA, A7|]. split; [apply FA, A8|]. split; [exact A9|exact A10].
Qed.
Print Assumptions C55_layout.
Example C55_layout_ex : exists f, nsbtx_save (demo_nsbtx [(Some (asc "p"), demo_pal 0 (rep (C4 1 2 3 1) 16)); (Some (asc "q"), demo_pal 0 (rep (C4 31 0 3 0) 4))]) = Ok f /\
  let t := skipn 20 f in zlen (concat (map (fun p => txD1 (snd p)) (xTextures (demo_nsbtx [])))) > 0 /\ number_at t 2 0x30 = 5 /\ zlen t = number_at t 4 0x38 + 40.
Proof. eexists. split; [vm_compute; reflexivity|]. vm_compute. repeat split. Qed.
(** saving refuses a palette that is not a multiple of four colours long, and block
    textures whose second data is not half as long as the first *)
Theorem C55_bad_palette : forall x p, In p (xPalettes x) -> Forall valid51 (plColors (snd p)) -> zlen (plColors (snd p)) mod 4 <> 0 ->
  forall f, nsbtx_save x <> Ok f.
Proof.
  intros x p I V N f H. unfold nsbtx_save in H. apply bind_ok in H as (t & H & _). unfold saveTEX0 in H. apply bind_ok in H as ([[[es td] c1] c2] & _ & H). apply bind_ok in H as (tb & _ & H).
  apply bind_ok in H as (pp & HP & _). apply save_palettes_inv in HP as [F _]. rewrite Forall_forall in F. rewrite <- (pents_fst (xPalettes x) (zlen (@nil Z))) in I. apply in_map_iff in I as (q & <- & Hq). apply F in Hq as (_ & _ & E & M).
  destruct (palette_load_save _ V) as (d & E' & _ & L). rewrite E in E'. injection E' as E'. rewrite E', L in M. lia.
Qed.
Print Assumptions C55_bad_palette.
Example C55_bad_ex : nsbtx_save (demo_nsbtx [(Some (asc "p"), demo_pal 0 (rep (C4 1 1 1 1) 3))]) = Err ValueError /\
  nsbtx_load (asc "BTX0" ++ rep 0 100) = Err ValueError /\ nsbtx_load (asc "NARC" ++ rep 0 100) = Err ValueError.
Proof. vm_compute. auto. Qed.

(** ** C56: rendering *)

(** with the palette given as 16-bit integers, every format renders each pixel to the
    colour given by [pixel], and rendering succeeds when all of these exist *)
Theorem C56_render_pixels : forall fmt d1 d2 w h pal c0 dest,
  1 <= fmt <= 7 -> size_fits fmt w h -> is_bytes d1 -> is_bytes d2 -> Forall (fun v => 0 <= v < 2 ^ 16) pal ->
  renderTextureData d1 d2 fmt w h (Some (map PInt pal)) c0 = Ok dest ->
  zlen dest = w * h /\
  forall X Y, 0 <= X < w -> 0 <= Y < h -> exists c, pixel fmt d1 d2 w pal c0 X Y = Ok c /\ get dest (Y * w + X) = Ok (Some c).
Proof.
  intros fmt d1 d2 w h pal c0 dest F S B1 B2 PV H. destruct (render_image fmt d1 d2 w h pal c0 F S B1 B2 PV) as [R _]. apply R in H as [L A]. split; [exact L|].
  intros X Y HX HY. destruct (A (Y * w + X)) as (c & E1 & E2); [nia|]. exists c. split; [|exact E2]. unfold fpix in E1.
  rewrite (Z.add_comm (Y * w)), Z.mod_add, Z.div_add in E1 by lia. rewrite Z.mod_small, Z.div_small, Z.add_0_l in E1 by lia. exact E1.
Qed.
Print Assumptions C56_render_pixels.
Theorem C56_render_succeeds : forall fmt d1 d2 w h pal c0,
  1 <= fmt <= 7 -> size_fits fmt w h -> is_bytes d1 -> is_bytes d2 -> Forall (fun v => 0 <= v < 2 ^ 16) pal ->
  (forall X Y, 0 <= X < w -> 0 <= Y < h -> exists c, pixel fmt d1 d2 w pal c0 X Y = Ok c) ->
  exists dest, renderTextureData d1 d2 fmt w h (Some (map PInt pal)) c0 = Ok dest.
Proof.
  intros fmt d1 d2 w h pal c0 F S B1 B2 PV H. destruct (render_image fmt d1 d2 w h pal c0 F S B1 B2 PV) as [_ R]. apply R. intros p Hp. destruct S as (W & HH & _).
  destruct (Z.eq_dec w 0) as [->|NW]; [lia|]. apply H; [apply Z.mod_pos_bound; lia|]. split; [apply Z.div_pos; lia|apply Z.div_lt_upper_bound; lia].
Qed.
Print Assumptions C56_render_succeeds.
(** enough data and colours are enough *)
Theorem C56_enough_data : forall fmt d1 d2 w h pal c0,
  1 <= fmt <= 7 -> size_fits fmt w h -> is_bytes d1 -> is_bytes d2 -> Forall (fun v => 0 <= v < 2 ^ 16) pal ->
  w * h * nth (Z.to_nat fmt) [0; 8; 2; 4; 8; 2; 8; 16] 0 <= 8 * zlen d1 ->
  w * h * nth (Z.to_nat fmt) [0; 0; 0; 0; 0; 1; 0; 0] 0 <= 8 * zlen d2 ->
  nth (Z.to_nat fmt) [0; 32; 4; 16; 256; 32770; 8; 0] 0 <= zlen pal ->
  exists dest, renderTextureData d1 d2 fmt w h (Some (map PInt pal)) c0 = Ok dest.
Proof.
  intros fmt d1 d2 w h pal c0 F S B1 B2 PV L1 L2 L3. apply C56_render_succeeds; try assumption. intros X Y HX HY.
  assert (GET : forall {A} (P : A -> Prop) (l : list A) i, Forall P l -> 0 <= i < zlen l -> exists v, get l i = Ok v /\ P v).
  { intros A P l i FP Hi. destruct (get l i) as [v|e] eqn:E; [exists v; split; [reflexivity|exact (get_all P l i v FP E)]|]. exfalso. unfold get in E. replace (i <? 0) with false in E by lia. cbv zeta in E. replace (i <? 0) with false in E by lia.
    destruct (nth_error l (Z.to_nat i)) eqn:N; [discriminate|]. apply nth_error_None in N. unfold zlen in Hi. lia. }
  assert (PP : 0 <= Y * w + X < w * h) by nia. assert (IX : forall i, 0 <= i < zlen pal -> exists c, indexed pal c0 i = Ok c).
  { intros i Hi. destruct (GET _ _ pal i PV Hi) as (v & E & _). unfold indexed. rewrite E. cbn [bind]. eauto. }
  destruct S as (_ & _ & S).
  assert (K : fmt = 1 \/ fmt = 2 \/ fmt = 3 \/ fmt = 4 \/ fmt = 5 \/ fmt = 6 \/ fmt = 7) by lia. destruct K as [->|[->|[->|[->|[->|[->| ->]]]]]]; cbn [pixel] in *; repeat match goal with H : context [Z.to_nat ?k] |- _ => let n := eval vm_compute in (Z.to_nat k) in change (Z.to_nat k) with n in H end; cbn [nth] in *; cbv zeta.
  - destruct (GET _ _ d1 (Y * w + X) B1 ltac:(lia)) as (v & E & V). rewrite E. cbn [bind]. destruct (GET _ _ pal (v mod 32) PV ltac:(lia)) as (c & EC & _). rewrite EC. cbn [bind]. eauto.
  - destruct (GET _ _ d1 ((Y * w + X) / 4) B1 ltac:(lia)) as (v & E & V). rewrite E. cbn [bind]. apply IX. pose proof (Z.mod_pos_bound (v / 4 ^ (X mod 4)) 4). lia.
  - destruct (GET _ _ d1 ((Y * w + X) / 2) B1 ltac:(lia)) as (v & E & V). rewrite E. cbn [bind]. apply IX. pose proof (Z.mod_pos_bound (v / 16 ^ (X mod 2)) 16). lia.
  - destruct (GET _ _ d1 (Y * w + X) B1 ltac:(lia)) as (v & E & V). rewrite E. cbn [bind]. apply IX. unfold is_byte in V. lia.
  - destruct S as [S1 S2]. assert (BL : 0 <= Y / 4 * (w / 4) + X / 4 /\ 16 * (Y / 4 * (w / 4) + X / 4 + 1) <= w * h).
    { apply Z.mod_divide in S1 as [q ->]; [|lia]. apply Z.mod_divide in S2 as [g ->]; [|lia]. rewrite Z.div_mul by lia. assert (0 <= Y / 4 < g) by lia. assert (0 <= X / 4 < q) by lia. nia. }
    set (bl := Y / 4 * (w / 4) + X / 4) in *. clearbody bl.
    destruct (GET _ _ d2 (2 * bl) B2 ltac:(lia)) as (lo & E1 & V1). destruct (GET _ _ d2 (2 * bl + 1) B2 ltac:(lia)) as (hi & E2 & V2). destruct (GET _ _ d1 (4 * bl + Y mod 4) B1 ltac:(lia)) as (v & E3 & V3).
    rewrite E1, E2, E3. cbn [bind]. pose proof (Z.mod_pos_bound (lo + 256 * hi) 16384 ltac:(lia)) as MB. pose proof (Z.mod_pos_bound (v / 4 ^ (X mod 4)) 4 ltac:(lia)) as SB.
    set (base := (lo + 256 * hi) mod 16384) in *. set (sub := v / 4 ^ (X mod 4) mod 4) in *. clearbody base sub. unfold is_byte in V2.
    destruct (GET _ _ pal (2 * base + sub) PV ltac:(lia)) as (c & EC & _). destruct (GET _ _ pal (2 * base) PV ltac:(lia)) as (ca & EA & _). destruct (GET _ _ pal (2 * base + 1) PV ltac:(lia)) as (cb & EB & _).
    assert (KS : sub = 0 \/ sub = 1 \/ sub = 2 \/ sub = 3) by lia. assert (KM : hi / 64 = 0 \/ hi / 64 = 1 \/ hi / 64 = 2 \/ hi / 64 = 3) by lia. generalize (hi / 64) KM. intros md KM2. unfold texel_color. rewrite EC, EA, EB. cbn [bind].
    destruct KS as [->|[->|[->| ->]]], KM2 as [->|[->|[->| ->]]]; eauto.
  - destruct (GET _ _ d1 (Y * w + X) B1 ltac:(lia)) as (v & E & V). rewrite E. cbn [bind]. destruct (GET _ _ pal (v mod 8) PV ltac:(lia)) as (c & EC & _). rewrite EC. cbn [bind]. eauto.
  - destruct (GET _ _ d1 (2 * (Y * w + X)) B1 ltac:(lia)) as (lo & E1 & _). destruct (GET _ _ d1 (2 * (Y * w + X) + 1) B1 ltac:(lia)) as (hi & E2 & _). rewrite E1, E2. cbn [bind]. eauto.
Qed.
Print Assumptions C56_enough_data.
Example C56_ex : renderTextureData [0xE1; 0x20; 0x5F; 0] [] 1 2 2 (Some (map PInt (0x7FFF :: 0x001F :: rep 0x03E0 30))) true =
    Ok [Some (C4 31 0 0 31); Some (C4 31 31 31 4); Some (C4 0 31 0 9); Some (C4 31 31 31 0)] /\
  renderTextureData [0xE4; 0x1B; 0; 0xFF] [1; 0xC0] 5 4 4 (Some (map PInt [0; 0; 0x7C00; 0x001F])) false =
    Ok [Some (C4 0 0 31 31); Some (C4 31 0 0 31); Some (C4 11 0 19 31); Some (C4 19 0 11 31);
        Some (C4 19 0 11 31); Some (C4 11 0 19 31); Some (C4 31 0 0 31); Some (C4 0 0 31 31);
        Some (C4 0 0 31 31); Some (C4 0 0 31 31); Some (C4 0 0 31 31); Some (C4 0 0 31 31);
        Some (C4 19 0 11 31); Some (C4 19 0 11 31); Some (C4 19 0 11 31); Some (C4 19 0 11 31)].
Proof. split; vm_compute; reflexivity. Qed.

(** no other format number renders *)
Theorem C56_bad_format : forall fmt d1 d2 w h colors c0, ~ 1 <= fmt <= 7 -> renderTextureData d1 d2 fmt w h colors c0 = Err ValueError.
Proof.
  intros fmt d1 d2 w h colors c0 H. unfold renderTextureData. cbv zeta. replace (fmt =? 1) with false by lia. replace (fmt =? 2) with false by lia. replace (fmt =? 3) with false by lia. replace (fmt =? 4) with false by lia.
  replace (fmt =? 5) with false by lia. replace (fmt =? 6) with false by lia. replace (fmt =? 7) with false by lia. reflexivity.
Qed.
Print Assumptions C56_bad_format.
(** [Texture.render] with a [Palette], as its documentation asks, fails for all the
    formats with a palette: a [Palette] holds tuples where integers are expected *)
Theorem C56_render_with_palette_refuted : forall fmt, 1 <= fmt <= 6 ->
  exists p, length (plColors p) = 256%nat /\ tex_render (tex_fromFlags 0 0 false false false false 8 8 fmt false 0 0 (rep 0 64) (rep 0 64)) (Some p) = Err TypeError.
Proof.
  intros fmt H. exists (demo_pal 0 (rep (C4 1 2 3 0) 256)). split; [reflexivity|].
  assert (K : fmt = 1 \/ fmt = 2 \/ fmt = 3 \/ fmt = 4 \/ fmt = 5 \/ fmt = 6) by lia. destruct K as [->|[->|[->|[->|[->| ->]]]]]; vm_compute; reflexivity.
Qed.
Print Assumptions C56_render_with_palette_refuted.
(** more exactly: as soon as there is a pixel that needs a colour, there is enough
    data and there are enough colours, the first such pixel raises TypeError; so does
    rendering without a palette *)
Theorem C56_palette_object : forall fmt d1 d2 w h cs c0 v r1,
  1 <= fmt <= 6 -> 0 < w -> 0 < h -> d1 = v :: r1 -> is_bytes d1 ->
  nth (Z.to_nat fmt) [0; 32; 4; 16; 256; 32770; 8] 0 <= zlen cs ->
  (fmt = 5 -> exists lo hi r2, d2 = lo :: hi :: r2 /\ is_bytes d2 /\ (v mod 4 < 3 \/ 128 <= hi)) ->
  renderTextureData d1 d2 fmt w h (Some (map PTup cs)) c0 = Err TypeError /\ renderTextureData d1 d2 fmt w h None c0 = Err TypeError.
Proof.
  intros fmt d1 d2 w h cs c0 v r1 F W HH -> B1 L T. apply Forall_cons_iff in B1 as [Bv _]. unfold is_byte in *.
  assert (G : forall a b, 0 < a -> 0 < b -> exists r, grid h a w b = (0, 0) :: r).
  { intros a b A B. assert (S : forall n s, 0 < n -> 0 < s -> exists r, steps n s = 0 :: r).
    { intros n s N S. unfold steps. assert (K : 1 <= (n + s - 1) / s) by (apply Z.div_le_lower_bound; lia). destruct (Z.to_nat ((n + s - 1) / s)) as [|k] eqn:E; [lia|]. cbn [range_z map]. eexists. reflexivity. }
    unfold grid. destruct (S h a HH A) as (r & ->). destruct (S w b W B) as (q & ->). cbn [flat_map map app]. eexists. reflexivity. }
  assert (PG : forall i, 0 <= i < zlen cs -> exists c, get (map PTup cs) i = Ok (PTup c)).
  { intros i Hi. destruct (nth_error cs (Z.to_nat i)) as [c|] eqn:E; [|apply nth_error_None in E; unfold zlen in Hi; lia]. exists c. apply get_nth; [lia|]. apply map_nth_error. exact E. }
  assert (PI : forall i d pos a0, 0 <= i < zlen cs -> put_index (Some (map PTup cs)) a0 d pos i = Err TypeError) by (intros i d pos a0 Hi; unfold put_index, pal_get; destruct (PG i Hi) as (c & ->); reflexivity).
  assert (K : fmt = 1 \/ fmt = 2 \/ fmt = 3 \/ fmt = 4 \/ fmt = 5 \/ fmt = 6) by lia. destruct K as [->|[->|[->|[->|[->| ->]]]]]; repeat match goal with H : context [Z.to_nat ?k] |- _ => let n := eval vm_compute in (Z.to_nat k) in change (Z.to_nat k) with n in H end; cbn [nth] in L; unfold renderTextureData; cbv zeta; cbn [Z.eqb Pos.eqb].
  - destruct (G 1 1 ltac:(lia) ltac:(lia)) as (r & ->). cbn [foldM]. unfold step_alpha at 1 3, next_. cbn [snd bind pal_get]. destruct (PG (Z.land v 31)) as (c & ->); [change 31 with (Z.ones 5); rewrite Z.land_ones by lia; pose proof (Z.mod_pos_bound v (2 ^ 5) ltac:(lia)); lia|]. split; reflexivity.
  - destruct (G 1 4 ltac:(lia) ltac:(lia)) as (r & ->). cbn [foldM]. unfold step_i2 at 1 3, next_. cbn [snd bind fst]. rewrite PI; [split; reflexivity|]. change 3 with (Z.ones 2); rewrite Z.land_ones by lia; pose proof (Z.mod_pos_bound v (2 ^ 2) ltac:(lia)); lia.
  - destruct (G 1 2 ltac:(lia) ltac:(lia)) as (r & ->). cbn [foldM]. unfold step_i4 at 1 3, next_. cbn [snd bind fst]. rewrite PI; [split; reflexivity|]. change 15 with (Z.ones 4); rewrite Z.land_ones by lia; pose proof (Z.mod_pos_bound v (2 ^ 4) ltac:(lia)); lia.
  - destruct (G 1 1 ltac:(lia) ltac:(lia)) as (r & ->). cbn [foldM]. unfold step_i8 at 1 3. cbn [snd fst]. rewrite Z.mul_0_l. change (get (v :: r1) (0 + 0)) with (@Ok Z v). cbn [bind]. rewrite PI by lia. split; reflexivity.
  - destruct (T eq_refl) as (lo & hi & r2 & -> & B2 & T'). clear T. rename T' into T. apply Forall_cons_iff in B2 as [Bl B2]. apply Forall_cons_iff in B2 as [Bh _]. unfold is_byte in *.
    destruct (G 4 4 ltac:(lia) ltac:(lia)) as (r & ->). cbn [foldM]. unfold step_texblock at 1 3, next_. cbn [bind]. set (v2 := Z.lor lo (Z.shiftl hi 8)).
    assert (E2 : v2 = lo + 256 * hi).
    { unfold v2. rewrite lor_add by lia. reflexivity. }
    assert (M2 : 0 <= Z.land v2 0x3FFF * 2 <= 32766) by (change 0x3FFF with (Z.ones 14); rewrite Z.land_ones by lia; pose proof (Z.mod_pos_bound v2 (2 ^ 14) ltac:(lia)); lia).
    set (po := Z.land v2 0x3FFF * 2) in *. assert (IM : Z.shiftr v2 14 = hi / 64) by (rewrite Z.shiftr_div_pow2, E2 by lia; change (2 ^ 14) with (256 * 64); rewrite <- Z.div_div by lia; f_equal; rewrite (Z.mul_comm 256), Z.div_add by lia; rewrite Z.div_small by lia; reflexivity).
    change (range_z 0 4) with [0; 1; 2; 3]. cbn [foldM]. unfold step_texrow at 1 5, next_. cbn [bind snd fst]. change (range_z 0 4) with [0; 1; 2; 3]. cbn [foldM]. change (2 * 0) with 0. rewrite Z.shiftr_0_r.
    assert (SV : Z.land v 3 = v mod 4) by (change 3 with (Z.ones 2); rewrite Z.land_ones by lia; reflexivity). rewrite SV. pose proof (Z.mod_pos_bound v 4 ltac:(lia)) as SB. clearbody po.
    assert (X : forall colors d pos, (forall i, 0 <= i < 32770 -> (exists c, pal_get colors i = Ok (PTup c)) \/ pal_get colors i = Err TypeError) -> put_texel colors po (Z.shiftr v2 14) d pos (v mod 4) = Err TypeError).
    { intros colors d pos GG. assert (BO : forall a b s, blend_of colors po a b s = Err TypeError) by (intros a b s; unfold blend_of; destruct (GG po ltac:(lia)) as [(c & ->)| ->]; [cbn [bind]|reflexivity]; destruct (GG (po + 1) ltac:(lia)) as [(c' & ->)| ->]; reflexivity).
      assert (DI : forall i, 0 <= i < 4 -> (o <- (c <- pal_get colors (po + i) ;; Ok (Some c)) ;; match o with None => plot d pos (C4 0 0 0 0) 0 | Some color => c <- lut_get color ;; plot d pos c 31 end) = Err TypeError) by (intros i Hi; destruct (GG (po + i) ltac:(lia)) as [(c & ->)| ->]; reflexivity).
      unfold put_texel, texel. rewrite IM. assert (KS : v mod 4 = 0 \/ v mod 4 = 1 \/ v mod 4 = 2 \/ v mod 4 = 3) by lia. assert (KM : hi / 64 = 0 \/ hi / 64 = 1 \/ hi / 64 = 2 \/ hi / 64 = 3) by lia.
      destruct KS as [S0|[S0|[S0|S0]]]; rewrite S0; cbn [Z.ltb Z.compare Pos.compare Pos.compare_cont Z.eqb Pos.eqb]; [apply (DI 0); lia|apply (DI 1); lia| |].
      - destruct KM as [-> |[-> |[-> | ->]]]; cbn [Z.ltb Z.compare Pos.compare Pos.compare_cont Z.eqb Pos.eqb]; rewrite ?BO; first [reflexivity|apply (DI 2); lia].
      - assert (KM2 : hi / 64 = 2 \/ hi / 64 = 3) by lia. destruct KM2 as [-> | ->]; cbn [Z.ltb Z.compare Pos.compare Pos.compare_cont Z.eqb Pos.eqb]; rewrite ?BO; first [reflexivity|apply (DI 3); lia]. }
    rewrite !X; [split; reflexivity|intros i Hi; right; reflexivity|intros i Hi; left; destruct (PG i ltac:(lia)) as (c & E); exists c; exact E].
  - destruct (G 1 1 ltac:(lia) ltac:(lia)) as (r & ->). cbn [foldM]. unfold step_alpha at 1 3, next_. cbn [snd bind pal_get]. destruct (PG (Z.land v 7)) as (c & ->); [change 7 with (Z.ones 3); rewrite Z.land_ones by lia; pose proof (Z.mod_pos_bound v (2 ^ 3) ltac:(lia)); lia|]. split; reflexivity.
Qed.
Print Assumptions C56_palette_object.
Example C56_ex_object : renderTextureData [0x1B; 0; 0; 0] [0; 0x40] 5 4 4 (Some (map PTup (rep (C4 1 2 3 0) 32770))) false = Err TypeError /\ 0x1B mod 4 = 3 /\
  renderTextureData [0x1A; 0; 0; 0] [0; 0x40] 5 4 4 None false = Err TypeError /\ renderTextureData [0xFF; 0xFF; 0xFF; 0xFF] [0; 0x40] 5 4 4 None false = Ok (rep (Some (C4 0 0 0 0)) 16).
Proof. repeat split; vm_compute; reflexivity. Qed.

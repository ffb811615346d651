(** * C111: what arbitrary texture files are read as *)
From Coq Require Import String.
From Verif Require Import PyBase PyLemmas PyTac ColorModel TexModel RomSpec ViewSpec ViewLemmas ViewTexSpec ViewTex.

Ltac all_bytes := apply Forall_forall; intros ? I; match goal with |- is_byte ?x => match type of I with In x ?d =>
  let Q := fresh in pose proof (proj1 (forallb_forall (fun b => (0 <=? b) && (b <? 256)) d) ltac:(vm_compute; reflexivity) x I) as Q; cbv beta in Q; unfold is_byte; lia end end.

Theorem C111_read : forall f x, is_bytes f -> nsbtx_load f = Ok x <-> nsbtx_shape f /\ tex0_view (nsbtx_block f) x.
Proof. exact nsbtx_iff. Qed.
Print Assumptions C111_read.
(** the same of the texture block of a model file *)
Theorem C111_block : forall d x, is_bytes d -> readTEX0 d = Ok x <-> tex0_shape d /\ tex0_view d x.
Proof. exact tex0_iff. Qed.
Print Assumptions C111_block.
(** a file of the right shape is accepted exactly if no palette starts, alone, at the
    last of the places *)
Theorem C111_accepted : forall f, is_bytes f -> (exists x, nsbtx_load f = Ok x) <-> nsbtx_shape f /\
  forall i s, (i < pal_count (nsbtx_block f))%nat -> pal_start (nsbtx_block f) i s ->
    (2 <= count_occ Z.eq_dec (pal_places (nsbtx_block f)) s)%nat \/ exists y, In y (pal_places (nsbtx_block f)) /\ s < y.
Proof.
  intros f B. split.
  - intros (x & H). apply nsbtx_iff in H as (S & V); [|exact B]. split; [exact S|]. intros i s I P. destruct (palette_stops _ _ i V I) as (s' & e & P' & St).
    rewrite (start_fun _ _ _ _ P P'). destruct St as [(C & _)|(_ & E & L & _)]; [left; exact C|right; exists e; split; assumption].
  - intros (S & P). destruct (tex0_exists _ P) as (x & V). exists x. apply nsbtx_iff; [exact B|]. split; assumption.
Qed.
Print Assumptions C111_accepted.
(** palettes with equal names and equal unknown values get the same colours *)
Theorem C111_twins : forall f x i j p q, is_bytes f -> nsbtx_load f = Ok x -> nth_error (xPalettes x) i = Some p -> nth_error (xPalettes x) j = Some q ->
  fst p = fst q -> pl00 (snd p) = pl00 (snd q) -> pl02 (snd p) = pl02 (snd q) -> plH02 (snd p) = plH02 (snd q) -> p = q.
Proof.
  intros f x i j [n p] [m q] B H I J E1 E2 E3 E4. apply nsbtx_iff in H as (_ & [_ _ (_ & V)]); [|exact B]. cbn [fst snd] in *.
  destruct (V _ _ _ I) as (N1 & s & e & P & St & ->). destruct (V _ _ _ J) as (N2 & s' & e' & P' & St' & ->). cbn [pl00 pl02 plH02] in *.
  assert (K : pal_key (nsbtx_block f) i = pal_key (nsbtx_block f) j) by (unfold pal_key; congruence). rewrite (start_key _ _ _ s K) in P. pose proof (start_fun _ _ _ _ P P') as Es. subst s'. rewrite (stop_fun _ _ _ _ St St').
  f_equal; [exact E1|]. rewrite E2, E3, E4. reflexivity.
Qed.
Print Assumptions C111_twins.

(** one 8 by 8 texture of format 3 and two palettes of four colours each *)
Definition entry_names (l : list string) : bytes := concat (map (fun s => asc s ++ repeat 0 (16 - String.length s)) l).
Definition two_palettes (first second : string) : bytes := asc "BTX0" ++ [0xFF; 0xFE] ++ le 2 1 ++ le 4 236 ++ le 2 16 ++ le 2 1 ++ le 4 20 ++
  asc "TEX0" ++ le 4 216 ++ le 4 5 ++ le 2 4 ++ le 2 0x3C ++ le 4 6 ++ le 4 0xA8 ++ le 4 7 ++ le 2 0 ++ le 2 0x3C ++ le 4 8 ++ le 4 0xC8 ++ le 4 0xC8 ++ le 4 9 ++ le 2 2 ++ le 2 10 ++ le 4 0x68 ++ le 4 0xC8 ++
  [0; 1] ++ le 2 44 ++ le 2 8 ++ le 2 16 ++ le 4 0x17F ++ le 2 11 ++ le 2 12 ++ le 2 8 ++ le 2 12 ++ le 2 0 ++ le 2 (0x2C05 + 0x4000) ++ le 4 13 ++ entry_names ["tex"%string] ++
  [0; 2] ++ le 2 64 ++ le 2 8 ++ le 2 20 ++ le 4 0x17F ++ le 2 1 ++ le 2 2 ++ le 2 1 ++ le 2 2 ++ le 2 4 ++ le 2 12 ++ le 2 0 ++ le 2 3 ++ le 2 1 ++ le 2 3 ++ entry_names [first; second] ++
  repeat 0x21 32 ++ le 2 31 ++ le 2 992 ++ le 2 31744 ++ le 2 32768 ++ le 2 1 ++ le 2 2 ++ le 2 3 ++ le 2 4.
Example C111_ex : is_bytes (two_palettes "p" "q") /\ exists x, nsbtx_load (two_palettes "p" "q") = Ok x /\
  map (fun p => (fst p, plColors (snd p))) (xPalettes x) = [(Some (asc "p"), [C4 31 0 0 0; C4 0 31 0 0; C4 0 0 31 0; C4 0 0 0 1]); (Some (asc "q"), [C4 1 0 0 0; C4 2 0 0 0; C4 3 0 0 0; C4 4 0 0 0])] /\
  map (fun t => (fst t, (txW (snd t), txH (snd t), txFmt (snd t), txC0 (snd t), txMode (snd t)), txD1 (snd t))) (xTextures x) = [(Some (asc "tex"), (8, 8, 3, true, 1), repeat 0x21 32)].
Proof. split; [all_bytes|]. eexists. split; [vm_compute; reflexivity|]. split; vm_compute; reflexivity. Qed.
Example C111_twins_ex : is_bytes (two_palettes "p" "p") /\ exists x p, nsbtx_load (two_palettes "p" "p") = Ok x /\ xPalettes x = [p; p] /\ plColors (snd p) = [C4 1 0 0 0; C4 2 0 0 0; C4 3 0 0 0; C4 4 0 0 0].
Proof. split; [all_bytes|]. eexists. eexists. split; [vm_compute; reflexivity|]. split; vm_compute; reflexivity. Qed.
(** so a palette need not have the colours at the place its entry tells *)
Theorem C111_place_refuted : ~ (forall f x i p, is_bytes f -> nsbtx_load f = Ok x -> nth_error (xPalettes x) i = Some p ->
  exists n, plColors (snd p) = colours (part (nsbtx_block f) (pal_place (nsbtx_block f) i) n)).
Proof.
  intros H. destruct C111_twins_ex as (B & x & p & E & P & C). destruct (H _ x 0%nat p B E ltac:(rewrite P; reflexivity)) as (n & Q). rewrite C in Q.
  set (b := part (nsbtx_block (two_palettes "p" "p")) (pal_place (nsbtx_block (two_palettes "p" "p")) 0) n) in Q.
  assert (F : firstn 2 b = [] \/ firstn 1 b = [31]) by (unfold b; destruct (Z.to_nat n) as [|k] eqn:N; [left; unfold part; rewrite N; reflexivity|right; unfold part; rewrite N; vm_compute; reflexivity]).
  clearbody b. clear H E P B. unfold colours in Q. destruct F as [F|F]; destruct b as [|b0 b]; try discriminate. injection F as ->.
  destruct (Z.to_nat (zlen (31 :: b) / 2)) as [|m] eqn:M; [discriminate|]. cbn [seq map] in Q. injection Q as Q _. destruct b as [|b1 b]; [vm_compute in Q; discriminate Q|].
  change (2 * Z.of_nat 0) with 0 in Q. rewrite half_part in Q by lia. change (part (31 :: b1 :: b) 0 2) with [31; b1] in Q. cbn [unle] in Q. lia.
Qed.
Print Assumptions C111_place_refuted.
(** nor are all bytes of a texture there: the file may end before *)
Theorem C111_data_refuted : ~ (forall f x t, is_bytes f -> nsbtx_load f = Ok x -> In t (xTextures x) -> zlen (txD1 (snd t)) = txW (snd t) * txH (snd t) * texel_bits (txFmt (snd t)) / 8).
Proof.
  intros H. set (f := firstn 190 (two_palettes "p" "q")). assert (B : is_bytes f) by all_bytes. destruct (nsbtx_load f) as [x|] eqn:E; [|vm_compute in E; discriminate E].
  assert (I : exists t, In t (xTextures x) /\ txD1 (snd t) = [33; 33] /\ txW (snd t) * txH (snd t) * texel_bits (txFmt (snd t)) / 8 = 32).
  { vm_compute in E. apply SeqRead.ok_inj in E. subst x. eexists. split; [left; reflexivity|]. split; vm_compute; reflexivity. }
  destruct I as (t & T & D & L). specialize (H f x t B E T). rewrite D, L in H. vm_compute in H. discriminate H.
Qed.
Print Assumptions C111_data_refuted.

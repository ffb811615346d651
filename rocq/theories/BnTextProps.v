(** C99: the text and the drawing of button and position files *)
From Coq Require Import String.
From Verif Require Import PyBase PyLemmas CommonModel BnModel TextModel TextSpec TextLemmas BnTextModel BnTextSpec BnText.

(** the drawing: 12 rows of 32 cells; each cell shows the last touch area that has
    something there *)
Theorem C99_drawing : forall b, exists cells : Z -> Z -> text,
  (forall x y, 0 <= x < 32 -> 0 <= y < 12 -> cell_shows (map area_box (blAreas b)) x y (cells x y)) /\
  draw b = [border 46] ++ map (fun y => asc "| " ++ concat (map (fun x => cells x y) (range_z 0 32)) ++ asc " |") (range_z 0 12) ++ [border 39].
Proof.
  intros b. exists (fun x y => cell (draw_canvas (blAreas b)) x y). split; [|apply draw_rows]. intros x y X Y. apply canvas_cell; assumption.
Qed.
Print Assumptions C99_drawing.
Definition ex_bnbl : bnbl := {| blUnk04 := 0; blAreas := [{| taX := 16; taY := 16; taW := 64; taH := 64; taAlign := 0x11 |}; {| taX := 250; taY := 0; taW := 100; taH := 16; taAlign := 0x11 |}] |}.
Example C99_drawing_ex : nth 2 (draw ex_bnbl) [] = asc "|   .-------.                    ' |" /\ nth 4 (draw ex_bnbl) [] = asc "|   |   0   |                      |" /\
  cell_shows (map area_box (blAreas ex_bnbl)) 6 3 (asc "0").
Proof.
  split; [vm_compute; reflexivity|]. split; [vm_compute; reflexivity|]. left. exists [], (area_box (hd {| taX := 0; taY := 0; taW := 0; taH := 0; taAlign := 0 |} (blAreas ex_bnbl))), (map area_box (tl (blAreas ex_bnbl))), Number.
  split; [reflexivity|]. split; [|split].
  - split; [constructor; vm_compute; reflexivity|]. intros h _ [[_ H]|[_ H]]; [contradiction|discriminate].
  - change (asc "0") with [48]. apply looks_number; [constructor; [lia|constructor]|reflexivity|right; reflexivity].
  - intros c h [<-|[]] H. vm_compute in H. inversion H; cbn in *; lia.
Qed.

(** with at most ten touch areas all lines are of the same width *)
Theorem C99_width : forall b l, zlen (blAreas b) <= 10 -> In l (draw b) -> zlen l = 36.
Proof.
  intros b l L I. rewrite draw_rows in I. apply in_app_or in I as [[<-|[]]|I]; [reflexivity|]. apply in_app_or in I as [I|[<-|[]]]; [|reflexivity].
  apply in_map_iff in I as (y & <- & Y). apply in_range_z in Y. rewrite !zlen_app, concat_ones; [rewrite zlen_map; reflexivity|].
  apply Forall_forall. intros s S. apply in_map_iff in S as (x & <- & X). apply in_range_z in X. apply (cell_width (map area_box (blAreas b)) x y); [rewrite zlen_map; exact L|]. apply canvas_cell; lia.
Qed.
Print Assumptions C99_width.
Theorem C99_width_refuted : exists b l, zlen (blAreas b) = 11 /\ In l (draw b) /\ zlen l = 37.
Proof.
  exists {| blUnk04 := 0; blAreas := repeat {| taX := 0; taY := 0; taW := 64; taH := 64; taAlign := 0x11 |} 11 |}.
  eexists (nth 3 (draw {| blUnk04 := 0; blAreas := repeat {| taX := 0; taY := 0; taW := 64; taH := 64; taAlign := 0x11 |} 11 |}) []). split; [reflexivity|]. split; [apply nth_In; apply Nat.ltb_lt|]; vm_compute; reflexivity.
Qed.
Print Assumptions C99_width_refuted.

(** the whole text: the header and the numbered touch areas; the drawing begins four
    places to the right of the longest of these lines, and goes on below them *)
Theorem C99_text : forall b, exists lines col S,
  bnbl_str b = join_lines (S ++ [asc ">"]) /\
  lines = (if blUnk04 b =? 0 then asc "<bnbl" else asc "<bnbl unk04=" ++ str_int (blUnk04 b)) :: enumeratedListOfStrs (map touchArea_str (blAreas b)) 4 /\
  (forall l, In l lines -> zlen l + 4 <= col) /\ (exists l, In l lines /\ zlen l + 4 = col) /\
  (forall k l d, nth_error lines k = Some l -> nth_error (draw b) k = Some d -> nth_error S k = Some (l ++ spaces (col - zlen l) ++ d)) /\
  (forall k d, zlen lines <= Z.of_nat k -> nth_error (draw b) k = Some d -> nth_error S k = Some (spaces col ++ d)) /\
  (forall k l, 14 <= Z.of_nat k -> nth_error lines k = Some l -> nth_error S k = Some l) /\
  zlen S = Z.max (zlen lines) 14.
Proof.
  intros b. exists (bnbl_lines b), (fold_right Z.max 0 (map zlen (bnbl_lines b)) + 4), (beside (fold_right Z.max 0 (map zlen (bnbl_lines b)) + 4) (bnbl_lines b) (draw b)).
  split; [reflexivity|]. split; [reflexivity|]. assert (LD : length (draw b) = 14%nat) by (rewrite draw_rows; reflexivity). split; [|split; [|split; [|split; [|split]]]].
  - intros l I. pose proof (max_ge (map zlen (bnbl_lines b)) (zlen l) (in_map zlen _ _ I)). lia.
  - pose proof (max_hit (map zlen (bnbl_lines b))) as H. destruct (proj1 (in_map_iff _ _ _) (H ltac:(apply Forall_forall; intros z Z; apply in_map_iff in Z as (x & <- & _); apply zlen_nonneg) ltac:(discriminate))) as (l & E & I). exists l. split; [exact I|lia].
  - intros k l d H1 H2. etransitivity; [apply beside_spec|]. unfold text in *. rewrite H1, H2. reflexivity.
  - intros k d H1 H2. etransitivity; [apply beside_spec|]. unfold text in *. rewrite H2. assert (N : nth_error (bnbl_lines b) k = None) by (apply nth_error_None; unfold zlen, text in *; lia). unfold text in *. rewrite N. reflexivity.
  - intros k l H1 H2. etransitivity; [apply beside_spec|]. unfold text in *. rewrite H2. assert (N : nth_error (draw b) k = None) by (apply nth_error_None; unfold text in *; lia). unfold text in *. rewrite N. reflexivity.
  - unfold zlen. rewrite (beside_length _ (bnbl_lines b) (draw b)), LD. unfold text in *. lia.
Qed.
Print Assumptions C99_text.
Example C99_text_ex : bnbl_str ex_bnbl = join_lines (
  [asc "<bnbl                                                           .==================================.";
   asc "    [0] <bnbl touch area: top-left at (16, 16), size 64x64>     |                                . |";
   asc "    [1] <bnbl touch area: top-left at (250, 0), size 100x16>    |   .-------.                    ' |"]
  ++ skipn 3 (map (fun d => spaces 64 ++ d) (draw ex_bnbl)) ++ [asc ">"]).
Proof. vm_compute. reflexivity. Qed.

(** the text of an entry tells everything about it *)
Theorem C99_area_tells : forall a b, standard (taAlign a) -> standard (taAlign b) -> touchArea_str a = touchArea_str b -> a = b.
Proof.
  intros [x y w h al] [x' y' w' h' al'] SA SB E. apply area_text in E as (E1 & E2 & E3 & E4 & E5). cbn [taX taY taW taH taAlign] in *. apply name_standard in E5; [|assumption..]. congruence.
Qed.
Print Assumptions C99_area_tells.
Theorem C99_position_tells : forall a b, standard (ipAlign a) -> standard (ipAlign b) -> imagePosition_str a = imagePosition_str b -> a = b.
Proof.
  intros [x y al i] [x' y' al' i'] SA SB E. apply position_text in E as (E1 & E2 & E3 & E4). cbn [ipX ipY ipAlign ipImageID] in *. apply name_standard in E4; [|assumption..]. congruence.
Qed.
Print Assumptions C99_position_tells.
(** entries read from a file are of that kind *)
Theorem C99_loaded_standard : forall data t, touchArea_fromData data = Ok t -> standard (taAlign t).
Proof.
  intros data t H. unfold touchArea_fromData in H. apply bind_ok in H as (xp & X & H). apply bind_ok in H as (yp & Y & H). apply bind_ok in H as (w & W & H). apply bind_ok in H as (h & Hh & H).
  destruct (unpackAlignmentFromPos xp yp) as [[x y] al] eqn:U. injection H as <-. cbn [taAlign]. eapply unpack_standard. exact U.
Qed.
Print Assumptions C99_loaded_standard.
Theorem C99_position_text : forall b, exists lines, bncl_str b = join_lines lines /\ zlen lines = zlen (clPositions b) + 2 /\
  nth_error lines 0 = Some (if clUnk04 b =? 0 then asc "<bncl" else asc "<bncl unk04=" ++ str_int (clUnk04 b)) /\
  forall k p, nth_error (clPositions b) k = Some p -> exists pre, nth_error lines (S k) = Some (pre ++ imagePosition_str p) /\ zlen pre = 7 + zlen (str_int (zlen (clPositions b) - 1)).
Proof.
  intros b. exists (bncl_lines b). split; [reflexivity|]. split; [|split; [reflexivity|]].
  - unfold bncl_lines. rewrite zlen_cons, zlen_app. unfold enumeratedListOfStrs. rewrite zlen_map. unfold zlen. rewrite combine_range_len, map_length. cbn [length]. lia.
  - intros k p P. destruct (enumerated (map imagePosition_str (clPositions b)) 4 k (imagePosition_str p) ltac:(lia)) as (pad & d & E & D & U & PD & W); [apply map_nth_error; exact P|].
    rewrite zlen_map in W. exists (spaces 4 ++ [91] ++ spaces pad ++ d ++ [93; 32]). split.
    + unfold bncl_lines. cbn [nth_error]. rewrite nth_error_app1; [rewrite E, <- !app_assoc; reflexivity|]. apply nth_error_Some. congruence.
    + rewrite !zlen_app. unfold spaces, rep in *. assert (L : forall n, 0 <= n -> zlen (repeat 32 (Z.to_nat n)) = n) by (intros n N; unfold zlen; rewrite repeat_length; lia). rewrite !L by lia. change (zlen [91]) with 1. change (zlen [93; 32]) with 2.
      unfold str_int. assert (K : (k < length (clPositions b))%nat) by (apply nth_error_Some; congruence). replace (zlen (clPositions b) - 1 <? 0) with false by (unfold zlen; lia). lia.
Qed.
Print Assumptions C99_position_text.
Example C99_position_ex : standard 0x44 /\ bncl_str {| clUnk04 := 3; clPositions := [{| ipX := 8; ipY := -2; ipAlign := 0x44; ipImageID := 7 |}] |} =
  join_lines [asc "<bncl unk04=3"; asc "    [0] <bncl image position: center of image 7 at (8, -2)>"; asc ">"].
Proof. split; [exists 4, 0x40; cbn; auto 8|vm_compute; reflexivity]. Qed.

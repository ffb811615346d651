(** C99: what the texts of touch areas and image positions say *)
From Coq Require Import String.
From Verif Require CommonProps.
From Verif Require Import PyBase PyLemmas CommonModel CommonLemmas BnModel TextModel TextSpec SeqTextSpec StrSpec StrLemmas BnTextModel.

Lemma name_plain a : forallb (fun c => negb (digit c)) (getAlignmentName a) = true.
Proof. unfold getAlignmentName. destruct (Z.land a A_HCENTER =? 0), (Z.land a A_RIGHT =? 0), (Z.land a A_VCENTER =? 0), (Z.land a A_BOTTOM =? 0); reflexivity. Qed.
(** position and size, in this order *)
Theorem C99_area_numbers : forall t, 0 <= taX t -> 0 <= taY t -> 0 <= taW t -> 0 <= taH t ->
  numbers (touchArea_str t) = [taX t; taY t; taW t; taH t] /\ mentions (getAlignmentName (taAlign t)) (touchArea_str t).
Proof.
  intros t X Y W H. split; [|eexists _, _; reflexivity]. unfold numbers, touchArea_str. rewrite numbers_none by reflexivity. rewrite numbers_none by apply name_plain.
  rewrite numbers_none by reflexivity. rewrite numbers_int by (assumption || reflexivity). rewrite numbers_none by reflexivity. rewrite numbers_int by (assumption || reflexivity).
  rewrite numbers_none by reflexivity. rewrite numbers_int by (assumption || reflexivity). rewrite numbers_none by reflexivity. rewrite numbers_int by (assumption || reflexivity). reflexivity.
Qed.
Print Assumptions C99_area_numbers.
(** the image, then the position *)
Theorem C99_position_numbers : forall p, 0 <= ipX p -> 0 <= ipY p -> 0 <= ipImageID p ->
  numbers (imagePosition_str p) = [ipImageID p; ipX p; ipY p] /\ mentions (getAlignmentName (ipAlign p)) (imagePosition_str p).
Proof.
  intros t X Y W. split; [|eexists _, _; reflexivity]. unfold numbers, imagePosition_str. rewrite numbers_none by reflexivity. rewrite numbers_none by apply name_plain.
  rewrite numbers_none by reflexivity. rewrite numbers_int by (assumption || reflexivity). rewrite numbers_none by reflexivity. rewrite numbers_int by (assumption || reflexivity).
  rewrite numbers_none by reflexivity. rewrite numbers_int by (assumption || reflexivity). reflexivity.
Qed.
Print Assumptions C99_position_numbers.
(** the words for the alignment say where the point lies in the rectangle *)
Theorem C99_alignment_words : forall a, exists h v x y, getTopLeftOfAlignedRect 0 0 2 2 a = (x, y) /\
  In (x, h) [(0, asc "left"); (-1, asc "center"); (-2, asc "right")] /\ In (y, v) [(0, asc "top"); (-1, asc "center"); (-2, asc "bottom")] /\
  (h = v -> getAlignmentName a = h) /\ (h <> v -> getAlignmentName a = v ++ asc "-" ++ h).
Proof.
  intros a. unfold getAlignmentName, getTopLeftOfAlignedRect.
  exists (if negb (Z.land a A_HCENTER =? 0) then asc "center" else if negb (Z.land a A_RIGHT =? 0) then asc "right" else asc "left"),
    (if negb (Z.land a A_VCENTER =? 0) then asc "center" else if negb (Z.land a A_BOTTOM =? 0) then asc "bottom" else asc "top").
  destruct (Z.land a A_HCENTER =? 0), (Z.land a A_RIGHT =? 0), (Z.land a A_VCENTER =? 0), (Z.land a A_BOTTOM =? 0); cbn [negb]; eexists _, _; (split; [reflexivity|]);
  (split; [vm_compute; tauto|]); (split; [vm_compute; tauto|]); (split; [intro E; first [discriminate E|reflexivity]|intro E; first [reflexivity|contradiction E; reflexivity]]).
Qed.
Print Assumptions C99_alignment_words.
Example C99_ex_numbers : numbers (touchArea_str {| taX := 250; taY := 7; taW := 100; taH := 16; taAlign := 0x21 |}) = [250; 7; 100; 16] /\
  touchArea_str {| taX := 250; taY := 7; taW := 100; taH := 16; taAlign := 0x21 |} = asc "<bnbl touch area: bottom-left at (250, 7), size 100x16>" /\
  getTopLeftOfAlignedRect 0 0 2 2 0x21 = (0, -2).
Proof. vm_compute. auto. Qed.
(** the corner of the box that is drawn for a touch area: with the point on its left or right
    side or in the middle, across its width, and the same across its height *)
Theorem C99_area_corner : forall t, In (taAlign t) valid_alignments -> 0 <= taW t -> 0 <= taH t -> exists l u, touchArea_topLeft t = (l, u) /\
  (Z.testbit (taAlign t) 0 = true -> l = taX t) /\ (Z.testbit (taAlign t) 1 = true -> l + taW t = taX t) /\ (Z.testbit (taAlign t) 2 = true -> -1 <= (l - taX t) + (l + taW t - taX t) <= 0) /\
  (Z.testbit (taAlign t) 4 = true -> u = taY t) /\ (Z.testbit (taAlign t) 5 = true -> u + taH t = taY t) /\ (Z.testbit (taAlign t) 6 = true -> -1 <= (u - taY t) + (u + taH t - taY t) <= 0).
Proof.
  intros t A W H. pose proof (CommonProps.C24_top_left (taX t) (taY t) (taW t) (taH t) (taAlign t) A W H) as C. unfold touchArea_topLeft.
  destruct (getTopLeftOfAlignedRect _ _ _ _ _) as [l u]. exists l, u. split; [reflexivity|exact C].
Qed.
Print Assumptions C99_area_corner.
Example C99_area_corner_ex : In 0x42 valid_alignments /\ touchArea_topLeft {| taX := 200; taY := 100; taW := 30; taH := 16; taAlign := 0x42 |} = (170, 92).
Proof. vm_compute. tauto. Qed.

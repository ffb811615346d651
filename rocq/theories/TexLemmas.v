From Coq Require Import String Sorted.
From Verif Require Import PyBase PyLemmas PyTac CodeLemmas AtLemmas CommonModel InfoBlockLemmas ColorModel ColorLemmas Gfx2DLemmas WaveModel WaveLemmas SeqTotal SbnkModel SbnkBank TexModel.

(** ** parameter words *)
Definition zb (b : bool) : Z := if b then 1 else 0.
Definition word_of (rs rt ms mt : bool) (a b f : Z) (c0 : bool) (mode : Z) : Z :=
  zb rs + 2 * zb rt + 4 * zb ms + 8 * zb mt + 16 * a + 128 * b + 1024 * f + 8192 * zb c0 + 16384 * mode.
Definition tex_eqb (x y : texture) : bool :=
  (tx00 x =? tx00 y) && (tx02 x =? tx02 y) && Bool.eqb (txRepS x) (txRepS y) && Bool.eqb (txRepT x) (txRepT y) && Bool.eqb (txMirS x) (txMirS y) &&
  Bool.eqb (txMirT x) (txMirT y) && (txW x =? txW y) && (txH x =? txH y) && (txFmt x =? txFmt y) && Bool.eqb (txC0 x) (txC0 y) && (txMode x =? txMode y) && (tx04 x =? tx04 y) && beq (txD1 x) (txD1 y) && beq (txD2 x) (txD2 y).
Lemma tex_eqb_eq x y : tex_eqb x y = true -> x = y.
Proof.
  unfold tex_eqb. intros H. repeat (apply andb_prop in H as [H ?]). destruct x, y; cbn in *. repeat match goal with H : (_ =? _) = true |- _ => apply Z.eqb_eq in H | H : Bool.eqb _ _ = true |- _ => apply Bool.eqb_prop in H | H : beq _ _ = true |- _ => apply beq_eq in H end.
  subst. reflexivity.
Qed.
Lemma tex_fields x y : x = y -> txRepS x = txRepS y /\ txRepT x = txRepT y /\ txMirS x = txMirS y /\ txMirT x = txMirT y /\ txW x = txW y /\ txH x = txH y /\ txFmt x = txFmt y /\ txC0 x = txC0 y /\ txMode x = txMode y.
Proof. intros ->. repeat split. Qed.
Definition resZ_eqb (r : res Z) (v : Z) : bool := match r with Ok x => x =? v | Err _ => false end.
Lemma resZ_eqb_eq r v : resZ_eqb r v = true -> r = Ok v.
Proof. destruct r; cbn; [|discriminate]. intros H. apply Z.eqb_eq in H. congruence. Qed.
Definition r8 : list Z := range_z 0 8.
Definition param_check : bool :=
  forallb (fun rs => forallb (fun rt => forallb (fun ms => forallb (fun mt => forallb (fun a => forallb (fun b => forallb (fun f => forallb (fun c0 => forallb (fun mode =>
    let t := tex_fromFlags 0 0 rs rt ms mt (8 * 2 ^ a) (8 * 2 ^ b) f c0 mode 0 [] [] in
    resZ_eqb (tex_params t) (word_of rs rt ms mt a b f c0 mode) && tex_eqb (tex_new 0 0 (word_of rs rt ms mt a b f c0 mode) 0 [] []) t)
  (range_z 0 4)) [true; false]) r8) r8) r8) [true; false]) [true; false]) [true; false]) [true; false].
Lemma param_check_ok : param_check = true.
Proof. vm_compute. reflexivity. Qed.
Lemma params_ok_all u0 u2 rs rt ms mt a b f c0 mode u4 d1 d2 : 0 <= a < 8 -> 0 <= b < 8 -> 0 <= f < 8 -> 0 <= mode < 4 ->
  let t := tex_fromFlags u0 u2 rs rt ms mt (8 * 2 ^ a) (8 * 2 ^ b) f c0 mode u4 d1 d2 in
  tex_params t = Ok (word_of rs rt ms mt a b f c0 mode) /\ tex_new u0 u2 (word_of rs rt ms mt a b f c0 mode) u4 d1 d2 = t.
Proof.
  intros Ha Hb Hf Hm. pose proof param_check_ok as C. unfold param_check in C.
  assert (B : forall x : bool, In x [true; false]) by (intros [|]; cbn; tauto).
  rewrite forallb_forall in C. specialize (C rs (B rs)). rewrite forallb_forall in C. specialize (C rt (B rt)). rewrite forallb_forall in C. specialize (C ms (B ms)).
  rewrite forallb_forall in C. specialize (C mt (B mt)). rewrite forallb_forall in C. specialize (C a ltac:(apply in_range_z; lia)). rewrite forallb_forall in C. specialize (C b ltac:(apply in_range_z; lia)).
  rewrite forallb_forall in C. specialize (C f ltac:(apply in_range_z; lia)). rewrite forallb_forall in C. specialize (C c0 (B c0)). rewrite forallb_forall in C. specialize (C mode ltac:(apply in_range_z; lia)).
  cbv zeta in C. apply andb_prop in C as [C1 C2]. apply tex_eqb_eq in C2. cbv zeta. split.
  - apply resZ_eqb_eq in C1. exact C1.
  - unfold tex_new, tex_fromFlags in *. apply tex_fields in C2 as (E1 & E2 & E3 & E4 & E5 & E6 & E7 & E8 & E9). cbn [txW txH txRepS txRepT txMirS txMirT txFmt txC0 txMode] in *. rewrite E1, E2, E3, E4, E5, E6, E7, E8, E9. reflexivity.
Qed.
Lemma params_word_all u0 u2 p u4 d1 d2 : 0 <= p < 65536 -> tex_params (tex_new u0 u2 p u4 d1 d2) = Ok p.
Proof.
  intros H. pose proof (sweep 65536 (fun p => resZ_eqb (tex_params (tex_new 0 0 p 0 [] [])) p)) as S.
  assert (E : resZ_eqb (tex_params (tex_new 0 0 p 0 [] [])) p = true) by (apply S; [vm_compute; reflexivity|exact H]).
  apply resZ_eqb_eq in E. exact E.
Qed.
Lemma size_code_some v a : size_code v = Some a <-> 0 <= a < 8 /\ v = 8 * 2 ^ a.
Proof.
  unfold size_code. split.
  - repeat match goal with |- context [v =? ?k] => destruct (Z.eqb_spec v k) as [->|]; [intros [= <-]; split; [lia|reflexivity]|] end. discriminate.
  - intros [H ->]. assert (C : a = 0 \/ a = 1 \/ a = 2 \/ a = 3 \/ a = 4 \/ a = 5 \/ a = 6 \/ a = 7) by lia. destruct C as [->|[->|[->|[->|[->|[->|[->| ->]]]]]]]; reflexivity.
Qed.
Lemma params_inv t p : tex_params t = Ok p -> exists a b, 0 <= a < 8 /\ 0 <= b < 8 /\ txW t = 8 * 2 ^ a /\ txH t = 8 * 2 ^ b.
Proof.
  unfold tex_params. destruct (size_code (txW t)) as [a|] eqn:Ea; [|discriminate]. destruct (size_code (txH t)) as [b|] eqn:Eb; [|discriminate]. intros _.
  apply size_code_some in Ea as [? ?]. apply size_code_some in Eb as [? ?]. exists a, b. auto.
Qed.
Lemma params_bad t : size_code (txW t) = None \/ size_code (txH t) = None -> tex_params t = Err ValueError.
Proof. unfold tex_params. intros [->| ->]; [reflexivity|]. destruct (size_code (txW t)); reflexivity. Qed.

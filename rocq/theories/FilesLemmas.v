(** * Proofs about reading and writing files *)
From Coq Require Import String.
From Verif Require Import PyBase PyLemmas LzModel FilesModel FilesSpec.

Lemma beq_true a b : beq a b = true <-> a = b.
Proof.
  revert b. induction a as [|x a IH]; intros [|y b]; cbn [beq list_eqb]; try (split; [discriminate|discriminate]); [tauto|].
  unfold beq in IH. rewrite andb_true_iff, Z.eqb_eq, IH. split; [intros [-> ->]; reflexivity|intros [= -> ->]; tauto].
Qed.
Lemma path_eqb_eq p q : path_eqb p q = true <-> p = q.
Proof.
  unfold path_eqb. rewrite andb_true_iff, !beq_true. destruct p, q; cbn. split; [intros [-> ->]; reflexivity|intros [= -> ->]; tauto].
Qed.
Lemma path_dec (p q : path) : p = q \/ p <> q.
Proof. destruct (path_eqb p q) eqn:E; [left; apply path_eqb_eq, E|right; intros ->]. assert (path_eqb q q = true) by (apply path_eqb_eq; reflexivity). congruence. Qed.

Lemma write_file_writes p b : writes (write_file p b) p (Ok (b, tt)).
Proof.
  intros d. unfold write_file. destruct (writable d p); [|reflexivity]. eexists. split; [reflexivity|].
  unfold replaced. cbn. split.
  - destruct (path_eqb p p) eqn:E; [reflexivity|]. assert (path_eqb p p = true) by (apply path_eqb_eq; reflexivity). congruence.
  - split; [|reflexivity]. intros q N. destruct (path_eqb q p) eqn:E; [apply path_eqb_eq in E; contradiction|reflexivity].
Qed.

Lemma pure_reads {A} p (f : bytes -> res A) : reads (io_bind (read_file p) (fun b => pure (f b))) p f.
Proof. intros d. unfold io_bind, read_file, pure. destruct (contents d p); reflexivity. Qed.

(** compute, write, return *)
Lemma save_writes {A} (r : res A) (g : A -> bytes) p :
  writes (io_bind (pure r) (fun s => write_file p (g s))) p (res_map (fun s => (g s, tt)) r).
Proof.
  intros d. unfold io_bind, pure. destruct r as [a|e]; cbn [res_map]; [|reflexivity]. exact (write_file_writes p (g a) d).
Qed.
Lemma save_writes_ret {A B} (r : res A) (g : A -> bytes) (h : A -> B) p :
  writes (io_bind (pure r) (fun s => io_bind (write_file p (g s)) (fun _ => io_ret (h s)))) p (res_map (fun s => (g s, h s)) r).
Proof.
  intros d. unfold io_bind at 1, pure. destruct r as [a|e]; cbn [res_map]; [|reflexivity].
  unfold io_bind. pose proof (write_file_writes p (g a) d) as W. cbn beta iota in W.
  destruct (writable d p).
  - destruct W as (d' & -> & R). exists d'. split; [reflexivity|exact R].
  - rewrite W. reflexivity.
Qed.

(** saving, then loading *)
Lemma save_load {A B} (w : io A) (l : io B) p r f b a x d :
  writes w p r -> reads l p f -> r = Ok (b, a) -> f b = Ok x -> writable d p = true ->
  exists d', w d = (Done a, d') /\ replaced p b d d' /\ l d' = (Done x, d').
Proof.
  intros W L -> F P. specialize (W d). cbn beta iota in W. rewrite P in W. destruct W as (d' & E & R).
  exists d'. split; [exact E|]. split; [exact R|]. rewrite L. destruct R as (-> & _). rewrite F. reflexivity.
Qed.

(** ** suffixes *)
Lemma prefix_dot l : prefixb (asc ".") l = match l with x :: _ => x =? dot | [] => false end.
Proof. change (asc ".") with [dot]. destruct l as [|x l]; [reflexivity|]. cbn [prefixb]. rewrite andb_true_r. apply Z.eqb_sym. Qed.

Lemma rfind_dot l : forall pos n, n = length l -> 0 <= pos ->
  (rfind_from (asc ".") l pos n = -1 /\ ~ In dot l) \/
  (exists a b, l = a ++ dot :: b /\ ~ In dot b /\ rfind_from (asc ".") l pos n = pos + zlen a).
Proof.
  induction l as [|x l IH]; intros pos n -> P; [left; cbn; tauto|]. cbn [length rfind_from tl].
  destruct (IH (pos + 1) (length l) eq_refl ltac:(lia)) as [[E N]|(a & b & -> & N & E)]; rewrite E.
  - cbn [Z.eqb]. replace (-1 =? -1) with true by reflexivity. rewrite prefix_dot. destruct (Z.eqb_spec x dot) as [->|D].
    + right. exists [], l. split; [reflexivity|]. split; [exact N|]. unfold zlen. cbn. lia.
    + left. split; [reflexivity|]. intros [H|H]; contradiction.
  - pose proof (zlen_nonneg a). destruct (Z.eqb_spec (pos + 1 + zlen a) (-1)); [lia|]. right. exists (x :: a), b.
    split; [reflexivity|]. split; [exact N|]. unfold zlen. cbn [length]. lia.
Qed.

Lemma last_dot a b a' b' : a ++ dot :: b = a' ++ dot :: b' -> ~ In dot b -> ~ In dot b' -> a = a' /\ b = b'.
Proof.
  revert a'. induction a as [|x a IH]; intros [|y a'] E N N'; cbn [app] in E.
  - injection E as ->. tauto.
  - injection E as E1 E2. exfalso. apply N. rewrite E2. apply in_or_app. right. left. reflexivity.
  - injection E as E1 E2. exfalso. apply N'. rewrite <- E2. apply in_or_app. right. left. reflexivity.
  - injection E as -> E. destruct (IH _ E N N') as [-> ->]. tauto.
Qed.

Lemma with_suffix_spec p s : suffixed p s (with_suffix p s).
Proof.
  unfold suffixed, with_suffix, suffix_at, rfind_in. cbn [pDir pName]. split; [reflexivity|].
  set (l := pName p). assert (C0 : clamp (zlen l) 0 = 0) by (unfold clamp; pose proof (zlen_nonneg l); destruct (Z.ltb_spec 0 0); lia).
  assert (CL : clamp (zlen l) (zlen l) = zlen l) by (unfold clamp; pose proof (zlen_nonneg l); destruct (Z.ltb_spec (zlen l) 0); lia).
  rewrite C0, CL. change (Z.to_nat 0) with 0%nat. cbn [skipn]. change (zlen (asc ".")) with 1.
  replace (Z.to_nat (zlen l - 1 - 0 + 1)) with (length l) by (unfold zlen; lia).
  destruct (rfind_dot l 0 (length l) eq_refl ltac:(lia)) as [[E N]|(a & b & EL & N & E)]; rewrite E.
  - cbn [Z.ltb andb]. right. split; [|reflexivity]. intros st ext H. exfalso. apply N. rewrite H. apply in_or_app. right. left. reflexivity.
  - rewrite Z.add_0_l. assert (ZL : zlen l = zlen a + 1 + zlen b) by (rewrite EL; unfold zlen; rewrite app_length; cbn [length]; lia).
    destruct (Z.ltb_spec 0 (zlen a)) as [P|P]; cbn [andb]; [destruct (Z.ltb_spec (zlen a) (zlen l - 1)) as [Q|Q]|].
    + left. exists a, b. split; [exact EL|]. split; [intros ->; change (zlen (@nil Z)) with 0 in P; lia|]. split; [intros ->; change (zlen (@nil Z)) with 0 in ZL; lia|].
      split; [exact N|]. f_equal. unfold slice_to. rewrite EL. apply slice_hit; reflexivity.
    + right. split; [|reflexivity]. intros st ext H N'. rewrite EL in H. destruct (last_dot _ _ _ _ H N N') as [<- <-].
      right. destruct b; [reflexivity|]. unfold zlen in *. cbn [length] in *. lia.
    + right. split; [|reflexivity]. intros st ext H N'. rewrite EL in H. destruct (last_dot _ _ _ _ H N N') as [<- <-].
      left. destruct a; [reflexivity|]. unfold zlen in *. cbn [length] in *. lia.
Qed.

Lemma suffixed_unique p s q q' : suffixed p s q -> suffixed p s q' -> q = q'.
Proof.
  intros [D H] [D' H']. destruct q as [dq nq], q' as [dq' nq']. cbn in D, D', H, H'. rewrite D, D'. f_equal.
  destruct H as [(a & b & E & A & B & N & ->)|[H ->]], H' as [(a' & b' & E' & A' & B' & N' & ->)|[H' ->]].
  - rewrite E in E'. destruct (last_dot _ _ _ _ E' N N') as [-> _]. reflexivity.
  - destruct (H' _ _ E N); contradiction.
  - destruct (H _ _ E' N'); contradiction.
  - reflexivity.
Qed.

Lemma converts_write f p q : converts (io_bind (read_file p) (fun x => io_bind (pure (f x)) (fun b => write_file q b))) f p q.
Proof.
  intros d. pose proof (fun b => write_file_writes q b d) as W. unfold io_bind, read_file, pure.
  destruct (contents d p) as [x|]; [|reflexivity]. destruct (f x) as [b|e]; [exact (W b)|reflexivity].
Qed.
Lemma converts_then f p q : converts (io_bind (io_bind (read_file p) (fun x => pure (f x))) (fun b => write_file q b)) f p q.
Proof.
  intros d. pose proof (fun b => write_file_writes q b d) as W. unfold io_bind, read_file, pure.
  destruct (contents d p) as [x|]; [|reflexivity]. destruct (f x) as [b|e]; [exact (W b)|reflexivity].
Qed.
Lemma target_eq p out s q : target p out s q -> q = match out with Some o => o | None => with_suffix p s end.
Proof. destruct out; cbn [target]; [tauto|]. intros H. exact (suffixed_unique p s _ _ H (with_suffix_spec p s)). Qed.
Lemma target_ok p out s : target p out s (match out with Some o => o | None => with_suffix p s end).
Proof. destruct out; [reflexivity|apply with_suffix_spec]. Qed.

(** one conversion after another *)
Lemma convert_twice w1 w2 f1 f2 p q1 q2 x b d : converts w1 f1 p q1 -> converts w2 f2 q1 q2 ->
  contents d p = Some x -> f1 x = Ok b -> f2 b = Ok x -> writable d q1 = true -> writable d q2 = true ->
  exists d1 d2, w1 d = (Done tt, d1) /\ w2 d1 = (Done tt, d2) /\ contents d1 q1 = Some b /\ contents d2 q2 = Some x /\
    (forall q, q <> q1 -> q <> q2 -> contents d2 q = contents d q).
Proof.
  intros W1 W2 C E1 E2 P1 P2. specialize (W1 d). rewrite C, E1, P1 in W1. destruct W1 as (d1 & E & R1).
  destruct R1 as (C1 & O1 & WR). specialize (W2 d1). rewrite C1, E2, WR, P2 in W2. destruct W2 as (d2 & E' & C2 & O2 & _).
  exists d1, d2. split; [exact E|]. split; [exact E'|]. split; [exact C1|]. split; [exact C2|].
  intros q N1 N2. rewrite O2 by exact N2. apply O1, N1.
Qed.

Lemma suffixed_self p s : suffixed p s p -> s <> [] -> exists stem, pName p = stem ++ s.
Proof.
  intros [_ [(a & b & E & _ & _ & _ & E')|[_ E]]] N; [exists a; exact E'|].
  exfalso. apply N. rewrite <- (app_nil_r (pName p)) in E at 1. apply app_inv_head in E. symmetry. exact E.
Qed.

(** * C47, continued: finding a value in a list *)
From Verif Require Import PyBase PyLemmas CommonModel.

Lemma index_from x l : forall p, 0 <= p -> (index_of x l p = -1 <-> ~ In x l) /\ (In x l -> exists a b, l = a ++ x :: b /\ ~ In x a /\ index_of x l p = p + zlen a).
Proof.
  induction l as [|y l IH]; intros p H; cbn [index_of In]; [split; [tauto|intros []]|]. destruct (Z.eqb_spec y x) as [->|N].
  - split; [split; [lia|intros X; exfalso; tauto]|]. intros _. exists [], l. split; [reflexivity|]. split; [intros []|]. change (zlen []) with 0. lia.
  - destruct (IH (p + 1) ltac:(lia)) as [A B]. split; [rewrite A; tauto|]. intros [E|I]; [congruence|]. destruct (B I) as (a & b & E & NA & V). exists (y :: a), b. rewrite E. split; [reflexivity|]. split; [intros [Q|Q]; [congruence|tauto]|]. rewrite <- E, V, zlen_cons. lia.
Qed.
(** listFind gives the place of the first occurrence, and -1 exactly if there is none *)
Theorem C47_find : forall x l, (index_of x l 0 = -1 <-> ~ In x l) /\ (forall a b, l = a ++ x :: b -> ~ In x a -> index_of x l 0 = zlen a).
Proof.
  intros x l. destruct (index_from x l 0 ltac:(lia)) as [A B]. split; [exact A|]. intros a b E N. destruct (B ltac:(rewrite E; apply in_or_app; right; left; reflexivity)) as (a' & b' & E' & N' & V). rewrite V.
  assert (Q : a = a'); [|rewrite Q; lia]. rewrite E in E'. clear - E' N N'. revert a' E' N'. induction a as [|y a IH]; intros [|z a'] E' N'; cbn [app] in E'; [reflexivity| | |].
  - injection E' as <- _. exfalso. apply N'. left. reflexivity.
  - injection E' as -> _. exfalso. apply N. left. reflexivity.
  - injection E' as -> E'. f_equal. apply IH; [intro I; apply N; right; exact I|exact E'|intro I; apply N'; right; exact I].
Qed.
Print Assumptions C47_find.
Example C47_find_ex : index_of 7 [5; 6; 7; 8; 7] 0 = 2 /\ index_of 9 [5; 6; 7; 8; 7] 0 = -1.
Proof. split; reflexivity. Qed.

(** * Proofs about minification *)
From Coq Require Import Lia Sorting.Sorted Sorting.Permutation.
From Verif Require Import PyBase PyLemmas PyTac SeqModel SeqParse SeqSave SsarModel SbnkModel SbnkBank MusicModel MusicSpec MusicLemmas MusicEdit MusicTrack MusicSseq MinifyModel MinifySpec.

(** ** The notes played *)
Lemma force_app a : forall c b, in_force_from c (a ++ b) = in_force_from (in_force_from c a) b.
Proof. induction a as [|(n & e) a IH]; intros c b; [reflexivity|]. cbn [app in_force_from]. destruct e; apply IH. Qed.
Lemma snoc_inv {A} (a : list A) x b l y : l ++ [y] = a ++ x :: b -> (b = [] /\ x = y /\ a = l) \/ exists b', b = b' ++ [y] /\ l = a ++ x :: b'.
Proof.
  intros H. destruct b as [|z b] using rev_ind.
  - apply app_inj_tail in H as (-> & ->). auto.
  - right. rewrite app_comm_cons, app_assoc in H. apply app_inj_tail in H as (-> & ->). eauto.
Qed.
Lemma plays_snoc l n e i p : plays (l ++ [(n, e)]) i p <-> plays l i p \/ ((exists v u d, e = Note p v u d) /\ in_force l = Some i).
Proof.
  split.
  - intros (a & m & v & u & d & b & H & F). apply snoc_inv in H as [(-> & H & ->)|(b' & -> & ->)].
    + injection H as <- <-. right. split; [eauto|exact F].
    + left. exists a, m, v, u, d, b'. auto.
  - intros [(a & m & v & u & d & b & -> & F)|((v & u & d & ->) & F)].
    + exists a, m, v, u, d, (b ++ [(n, e)]). split; [rewrite <- app_assoc; reflexivity|exact F].
    + exists l, n, v, u, d, []. auto.
Qed.
Lemma switched_snoc l n e i : switched (l ++ [(n, e)]) i <-> switched l i \/ exists b, e = Instr b i.
Proof.
  split.
  - intros (m & b & H). apply in_app_iff in H as [H|[H|[]]]; [left; exists m, b; exact H|]. injection H as -> ->. right. exists b. reflexivity.
  - intros [(m & b & H)|(b & ->)]; [exists m, b; apply in_app_iff; left; exact H|exists n, b; apply in_app_iff; right; left; reflexivity].
Qed.
Lemma force_switched l i : in_force l = Some i -> switched l i.
Proof.
  induction l as [|(n & e) l IH] using rev_ind; [discriminate|]. unfold in_force in *. rewrite force_app. intros H. apply switched_snoc. destruct e; cbn [in_force_from] in H; auto. injection H as ->. right. eexists. reflexivity.
Qed.
Lemma plays_switched l i p : plays l i p -> switched l i.
Proof. intros (a & n & v & u & d & b & -> & F). apply force_switched in F as (m & c & I). exists m, c. apply in_app_iff. left. exact I. Qed.
Lemma lookup_none {B} (d : list (Z * B)) k : lookup k d = None <-> ~ In k (map fst d).
Proof.
  unfold lookup. induction d as [|(j & v) d IH]; [cbn; tauto|]. cbn [find fst map]. destruct (Z.eqb_spec j k) as [->|N]; [split; [discriminate|intros H; exfalso; apply H; left; reflexivity]|]. rewrite IH. cbn [In]. tauto.
Qed.
Lemma in_add_z x y l : In x (add_z y l) <-> x = y \/ In x l.
Proof. unfold add_z. destruct (inb y l) eqn:E; cbn [In]; [apply inb_iff in E|]; intuition congruence. Qed.
Lemma nodup_set {B} (d : list (Z * B)) k v : NoDup (map fst d) -> NoDup (map fst (dict_set d k v)).
Proof. intros ND. destruct (keys_set d k v) as [->|(NI & ->)]; [exact ND|]. apply NoDup_app_intro_snoc || (apply (Permutation_NoDup (Permutation_cons_append _ _)); constructor; assumption). Qed.
Lemma played_inv l : let st := fold_left (fun st p => note_step st (snd p)) l (None, []) in
  fst st = in_force l /\ NoDup (map fst (snd st)) /\ (forall i, lookup i (snd st) <> None <-> switched l i) /\ (forall i ps p, lookup i (snd st) = Some ps -> (In p ps <-> plays l i p)).
Proof.
  induction l as [|(n & e) l IH] using rev_ind; cbn zeta in *.
  - split; [reflexivity|]. split; [constructor|]. split; [intros i; split; [intros H; destruct (H eq_refl)|intros (m & b & [])]|discriminate].
  - rewrite fold_left_app. cbn [fold_left snd]. destruct (fold_left _ l _) as (c & d). cbn [fst snd] in IH. destruct IH as (C & ND & S & P).
    assert (F : in_force (l ++ [(n, e)]) = match e with Instr _ i => Some i | _ => c end) by (unfold in_force; rewrite force_app; rewrite C; destruct e; reflexivity).
    assert (K : forall e0, (forall p v u q, e0 <> Note p v u q) -> (forall b i, e0 <> Instr b i) -> e = e0 -> note_step (c, d) e = (c, d) -> fst (note_step (c, d) e) = in_force (l ++ [(n, e)]) /\ NoDup (map fst (snd (note_step (c, d) e))) /\
       (forall i, lookup i (snd (note_step (c, d) e)) <> None <-> switched (l ++ [(n, e)]) i) /\ (forall i ps p, lookup i (snd (note_step (c, d) e)) = Some ps -> (In p ps <-> plays (l ++ [(n, e)]) i p))).
    { intros e0 N1 N2 -> ->. cbn [fst snd]. split; [rewrite F; destruct e0; try reflexivity; destruct (N2 _ _ eq_refl)|]. split; [exact ND|]. split.
      - intros i. rewrite S, switched_snoc. split; [auto|]. intros [H|(b & ->)]; [exact H|destruct (N2 _ _ eq_refl)].
      - intros i ps p L. rewrite (P i ps p L), plays_snoc. split; [auto|]. intros [H|((v & u & q & ->) & _)]; [exact H|destruct (N1 _ _ _ _ eq_refl)]. }
    destruct e; try (eapply K; [| |reflexivity|reflexivity]; discriminate); clear K; cbn [note_step fst snd].
    + (* Note *) split; [rewrite F; reflexivity|]. destruct c as [j|].
      * destruct (lookup j d) as [ps|] eqn:L.
        -- split; [apply nodup_set; exact ND|]. split.
           ++ intros i. rewrite lookup_set, switched_snoc. destruct (Z.eqb_spec j i) as [->|N]; [split; [intros _; left; apply S; rewrite L; discriminate|discriminate]|].
              rewrite S. split; [auto|]. intros [H|(b & H)]; [exact H|discriminate H].
           ++ intros i qs p. rewrite lookup_set, plays_snoc, <- C. destruct (Z.eqb_spec j i) as [->|N].
              ** intros E. injection E as <-. rewrite in_add_z, (P i ps p L). split; [intros [->|H]; [right; split; [eauto|reflexivity]|auto]|]. intros [H|((v & u & q & H) & _)]; [auto|injection H; auto].
              ** intros E. rewrite (P i qs p E). split; [auto|]. intros [H|(_ & H)]; [exact H|injection H as H; contradiction].
        -- exfalso. assert (Q : lookup j d <> None) by (apply S; apply force_switched; symmetry; exact C). contradiction.
      * split; [exact ND|]. split.
        -- intros i. rewrite S, switched_snoc. split; [auto|]. intros [H|(b & H)]; [exact H|discriminate H].
        -- intros i ps p E. rewrite (P i ps p E), plays_snoc, <- C. split; [auto|]. intros [H|(_ & H)]; [exact H|discriminate H].
    + (* Instr *) split; [rewrite F; reflexivity|]. rename instrumentID into j.
      assert (PL : forall i p, plays (l ++ [(n, Instr bankID j)]) i p <-> plays l i p) by (intros i p; rewrite plays_snoc; split; [intros [H|((v & u & q & H) & _)]; [exact H|discriminate H]|auto]).
      destruct (lookup j d) as [ps|] eqn:L.
      * split; [exact ND|]. split; [|intros i qs p E; rewrite PL; exact (P i qs p E)]. intros i. rewrite S, switched_snoc. split; [auto|]. intros [H|(b & H)]; [exact H|]. injection H as _ <-. apply S. rewrite L. discriminate.
      * split; [apply nodup_set; exact ND|]. split.
        -- intros i. rewrite lookup_set, switched_snoc. destruct (Z.eqb_spec j i) as [->|N]; [split; [eauto|discriminate]|]. rewrite S. split; [auto|]. intros [H|(b & H)]; [exact H|]. injection H as _ H. contradiction.
        -- intros i qs p. rewrite lookup_set, PL. destruct (Z.eqb_spec j i) as [->|N]; [|apply P]. intros E. injection E as <-. split; [intros []|]. intros H. apply plays_switched, S in H. contradiction.
Qed.
Lemma played_keys l : NoDup (map fst (playedNotes l)) /\ forall i, In i (map fst (playedNotes l)) <-> switched l i.
Proof.
  pose proof (played_inv l) as (_ & ND & S & _). split; [exact ND|]. intros i. unfold playedNotes. rewrite <- S, lookup_none. destruct (in_dec Z.eq_dec i (map fst (snd (fold_left (fun st p => note_step st (snd p)) l (None, []))))); tauto.
Qed.
Definition pitches (l : evs) (i : Z) : list Z := match lookup i (playedNotes l) with Some ps => ps | None => [] end.
Lemma pitches_iff l i p : In p (pitches l i) <-> plays l i p.
Proof.
  pose proof (played_inv l) as (_ & _ & S & P). unfold pitches, playedNotes. destruct (lookup i _) as [ps|] eqn:L; [apply P; exact L|]. split; [intros []|]. intros H. apply plays_switched, S in H. contradiction.
Qed.

(** ** Indices *)
Lemma index_by_ok {A} (eq : A -> A -> bool) (EQ : forall a b, eq a b = true <-> a = b) l x : forall s, In x l -> exists j, index_by eq l x s = Ok (s + Z.of_nat j) /\ nth_error l j = Some x.
Proof.
  induction l as [|y l IH]; intros s I; [destruct I|]. cbn [index_by]. destruct (eq y x) eqn:E.
  - apply EQ in E as ->. exists 0%nat. split; [f_equal; lia|reflexivity].
  - destruct I as [->|I]; [rewrite (proj2 (EQ x x) eq_refl) in E; discriminate E|]. destruct (IH (s + 1) I) as (j & -> & N). exists (S j). split; [f_equal; lia|exact N].
Qed.
Lemma wave_eqb_iff a b : wave_eqb a b = true <-> a = b.
Proof. destruct a as (a1 & a2), b as (b1 & b2). unfold wave_eqb. cbn [fst snd]. rewrite andb_true_iff, !Z.eqb_eq. split; [intros (-> & ->); reflexivity|intros E; injection E; auto]. Qed.
Lemma wave_in_iff w l : wave_in w l = true <-> In w l.
Proof. unfold wave_in. rewrite existsb_exists. split; [intros (x & I & E); apply wave_eqb_iff in E as ->; exact I|intros I; exists w; split; [exact I|apply wave_eqb_iff; reflexivity]]. Qed.
Lemma in_add_wave x w l : In x (add_wave w l) <-> x = w \/ In x l.
Proof. unfold add_wave. destruct (wave_in w l) eqn:E; [apply wave_in_iff in E; intuition congruence|]. rewrite in_app_iff. cbn [In]. intuition congruence. Qed.
Lemma nodup_add_wave w l : NoDup l -> NoDup (add_wave w l).
Proof. intros ND. unfold add_wave. destruct (wave_in w l) eqn:E; [exact ND|]. apply (Permutation_NoDup (Permutation_cons_append _ _)). constructor; [|exact ND]. intros I. apply wave_in_iff in I. congruence. Qed.

(** ** The waves used *)
Lemma range_waves_iff ns notes : forall k used w, In w (range_waves k ns notes used) <-> In w used \/ exists p d, In p notes /\ k <= p /\ nth_error ns (Z.to_nat (p - k)) = Some d /\ w = wave_of d.
Proof.
  induction ns as [|d ns IH]; intros k used w; cbn [range_waves].
  - split; [auto|]. intros [H|(p & d & _ & _ & N & _)]; [exact H|]. destruct (Z.to_nat (p - k)); discriminate N.
  - rewrite IH. split.
    + intros [H|(p & d' & I & L & N & ->)].
      * destruct (inb k notes) eqn:E; [|auto]. apply in_add_wave in H as [->|H]; [|auto]. right. exists k, d. apply inb_iff in E. replace (k - k) with 0 by lia. repeat split; auto; lia.
      * right. exists p, d'. repeat split; auto; [lia|]. replace (Z.to_nat (p - k)) with (S (Z.to_nat (p - (k + 1)))) by lia. exact N.
    + intros [H|(p & d' & I & L & N & ->)]; [left; destruct (inb k notes); [apply in_add_wave; auto|exact H]|]. destruct (Z.eq_dec p k) as [->|NE].
      * left. rewrite (proj2 (inb_iff k notes) I). apply in_add_wave. left. replace (Z.to_nat (k - k)) with 0%nat in N by lia. cbn in N. injection N as ->. reflexivity.
      * right. exists p, d'. repeat split; auto; [lia|]. replace (Z.to_nat (p - k)) with (S (Z.to_nat (p - (k + 1)))) in N by lia. exact N.
Qed.
Lemma range_waves_nodup ns notes : forall k used, NoDup used -> NoDup (range_waves k ns notes used).
Proof. induction ns as [|d ns IH]; intros k used ND; [exact ND|]. cbn [range_waves]. apply IH. destruct (inb k notes); [apply nodup_add_wave|]; exact ND. Qed.
Lemma in_range_z i : forall n s, In i (range_z s n) <-> s <= i < s + Z.of_nat n.
Proof. induction n as [|n IH]; intros s; cbn [range_z In]; [lia|]. rewrite IH. lia. Qed.
Lemma region_waves_iff rs notes : (forall p, In p notes -> 0 <= p) -> forall low used w, 0 <= low ->
  (In w (region_waves low rs notes used) <-> In w used \/ exists p d, In p notes /\ low <= p /\ region_for rs p = Some d /\ w = wave_of d).
Proof.
  intros NN. induction rs as [|(e & d) rs IH]; intros low used w L; cbn [region_waves].
  - split; [auto|]. intros [H|(p & d & _ & _ & N & _)]; [exact H|discriminate N].
  - destruct (existsb _ _) eqn:E.
    + apply existsb_exists in E as (q & R & Q). apply inb_iff in Q. apply in_range_z in R. rewrite IH by lia. cbn [region_for]. split.
      * intros [H|(p & d' & I & LP & N & ->)]; [apply in_add_wave in H as [->|H]; [|auto]; right; exists q, d; rewrite (proj2 (Z.leb_le q e)) by lia; repeat split; auto; lia|].
        right. exists p, d'. rewrite (proj2 (Z.leb_gt p e)) by lia. repeat split; auto. lia.
      * intros [H|(p & d' & I & LP & N & ->)]; [left; apply in_add_wave; auto|]. destruct (Z.leb_spec p e); [injection N as ->; left; apply in_add_wave; auto|]. right. exists p, d'. repeat split; auto. lia.
    + rewrite IH by lia. cbn [region_for].
      assert (O : forall p, In p notes -> low <= p -> e < p). { intros p I LP. destruct (Z.leb_spec p e) as [H|]; [|assumption]. exfalso. rewrite <- not_true_iff_false in E. apply E. apply existsb_exists. exists p. split; [apply in_range_z; lia|apply inb_iff; exact I]. }
      split; (intros [H|(p & d' & I & LP & N & ->)]; [auto|]; right; exists p, d'; pose proof (O p I LP)).
      * rewrite (proj2 (Z.leb_gt p e)) by lia. auto.
      * rewrite (proj2 (Z.leb_gt p e)) in N by lia. auto.
Qed.
Lemma region_waves_nodup rs notes : forall low used, NoDup used -> NoDup (region_waves low rs notes used).
Proof. induction rs as [|(e & d) rs IH]; intros low used ND; [exact ND|]. cbn [region_waves]. destruct (existsb _ _); apply IH; [apply nodup_add_wave|]; exact ND. Qed.

(** the waves an instrument contributes *)
Definition body_wave (b : ibody) (notes : list Z) (w : wave) : Prop :=
  (exists d, b = Single d /\ w = wave_of d) \/ exists p d, In p notes /\ definition_for b p = Some d /\ w = wave_of d.
Lemma inst_waves_iff used x notes w : (forall p, In p notes -> 0 <= p) -> (In w (inst_waves used (x, notes)) <-> In w used \/ exists i, x = Some i /\ body_wave (iBody i) notes w).
Proof.
  intros NN. unfold inst_waves. cbn [fst snd]. destruct x as [i|]; [|split; [auto|intros [H|(i & H & _)]; [exact H|discriminate H]]]. destruct (iBody i) as [d|f ns|rs] eqn:B.
  - rewrite in_add_wave. split.
    + intros [->|H]; [right; exists i; split; [reflexivity|]; left; rewrite B; eauto|auto].
    + intros [H|(j & E & [(d' & E2 & ->)|(p & d' & _ & E2 & ->)])]; [auto| |]; injection E as <-; rewrite B in E2; cbn [definition_for] in E2; injection E2 as ->; auto.
  - rewrite range_waves_iff. split.
    + intros [H|(p & d & I & L & N & ->)]; [auto|]. right. exists i. split; [reflexivity|]. right. exists p, d. rewrite B. cbn [definition_for]. rewrite (proj2 (Z.ltb_ge p f)) by lia. auto.
    + intros [H|(j & E & [(d' & E2 & ->)|(p & d' & I & E2 & ->)])]; [auto| |]; injection E as <-; rewrite B in E2; [discriminate E2|]. cbn [definition_for] in E2. destruct (Z.ltb_spec p f); [discriminate E2|]. right. exists p, d'. auto.
  - rewrite region_waves_iff by (auto; lia). split.
    + intros [H|(p & d & I & L & N & ->)]; [auto|]. right. exists i. split; [reflexivity|]. right. exists p, d. rewrite B. auto.
    + intros [H|(j & E & [(d' & E2 & ->)|(p & d' & I & E2 & ->)])]; [auto| |]; injection E as <-; rewrite B in E2; [discriminate E2|]. right. exists p, d'. auto.
Qed.
Lemma inst_waves_nodup used x : NoDup used -> NoDup (inst_waves used x).
Proof. intros ND. unfold inst_waves. destruct (fst x) as [i|]; [|exact ND]. destruct (iBody i); [apply nodup_add_wave|apply range_waves_nodup|apply region_waves_nodup]; exact ND. Qed.
Lemma used_waves_iff (l : list (option inst * list Z)) w : (forall x ns p, In (x, ns) l -> In p ns -> 0 <= p) -> forall used,
  (In w (fold_left inst_waves l used) <-> In w used \/ exists i ns, In (Some i, ns) l /\ body_wave (iBody i) ns w).
Proof.
  induction l as [|(x & ns) l IH]; intros NN used; cbn [fold_left].
  - split; [auto|]. intros [H|(i & ns & [] & _)]. exact H.
  - rewrite IH by (intros y ms p I; apply (NN y ms p); right; exact I). rewrite inst_waves_iff by (intros p; apply (NN x ns p); left; reflexivity). split.
    + intros [[H|(i & -> & B)]|(i & ms & I & B)]; [auto|right; exists i, ns; split; [left; reflexivity|exact B]|right; exists i, ms; split; [right; exact I|exact B]].
    + intros [H|(i & ms & [E|I] & B)]; [auto|injection E as -> ->; eauto|eauto].
Qed.
Lemma used_waves_nodup l : forall used, NoDup used -> NoDup (fold_left inst_waves l used).
Proof. induction l as [|x l IH]; intros used ND; [exact ND|]. cbn [fold_left]. apply IH, inst_waves_nodup, ND. Qed.

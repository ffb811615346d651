(** * Proofs about filename tables: lookups *)
From Verif Require Import PyBase PyLemmas PyTac CommonModel FntModel FntSpec.

(** nested induction *)
Section folder_ind.
  Variable P : folder -> Prop.
  Hypothesis H : forall l files i, (forall n f, In (n, f) l -> P f) -> P (Folder l files i).
  Fixpoint folder_ind' (f : folder) : P f :=
    match f with
    | Folder l files i => H l files i
        ((fix go l : forall n f, In (n, f) l -> P f :=
            match l with
            | [] => fun n f (E : In (n, f) []) => match E with end
            | (m, g) :: r => fun n f (E : In (n, f) ((m, g) :: r)) =>
                match E with
                | or_introl e => eq_ind g P (folder_ind' g) f (f_equal snd e)
                | or_intror e => go r n f e
                end
            end) l)
    end.
End folder_ind.

Lemma Fold_eta f : f = Folder (fFolders f) (fFiles f) (fFirst f).
Proof. destruct f; reflexivity. Qed.

Section below.
  Variables (r : folder) (n : list Z) (f : folder).
  Hypothesis I : In (n, f) (fFolders r).
  Lemma tree_ok_below : tree_ok r -> tree_ok f.
  Proof. intros H g Hg. apply H. econstructor; eassumption. Qed.
  Lemma files_named_below : files_named r -> files_named f.
  Proof. intros H g Hg. apply H. econstructor; eassumption. Qed.
  Lemma paths_ok_below : paths_ok r -> paths_ok f.
  Proof. intros H g Hg. apply H. econstructor; eassumption. Qed.
  Lemma names_unique_below : names_unique r -> names_unique f.
  Proof. intros H g Hg. apply H. econstructor; eassumption. Qed.
End below.

(** ** strings *)
Lemma split_noslash n : ~ In 47 n -> split_slash n = [n].
Proof.
  induction n as [|c n IH]; intros H; [reflexivity|]. cbn [split_slash].
  destruct (c =? 47) eqn:E; [apply Z.eqb_eq in E; exfalso; apply H; left; congruence|].
  rewrite IH; [reflexivity|]. intros X. apply H. right; exact X.
Qed.
Lemma split_app n s : ~ In 47 n -> split_slash (n ++ 47 :: s) = n :: split_slash s.
Proof.
  induction n as [|c n IH]; intros H; [reflexivity|]. cbn [app split_slash].
  destruct (c =? 47) eqn:E; [apply Z.eqb_eq in E; exfalso; apply H; left; congruence|].
  rewrite IH; [reflexivity|]. intros X. apply H. right; exact X.
Qed.
Lemma split_nonnil s : split_slash s <> [].
Proof. induction s as [|c s IH]; [discriminate|]. cbn [split_slash]. destruct (c =? 47); [discriminate|]. destruct (split_slash s); discriminate. Qed.
Lemma split_parts s : Forall (fun n => ~ In 47 n) (split_slash s).
Proof.
  induction s as [|c s IH]; [repeat constructor; intros []|]. cbn [split_slash]. destruct (c =? 47) eqn:E.
  - constructor; [intros []|exact IH].
  - destruct (split_slash s) as [|h t]; [repeat constructor; intros [X|[]]; apply Z.eqb_neq in E; congruence|].
    inversion IH; subst. constructor; [|assumption]. intros [X|X]; [apply Z.eqb_neq in E; congruence|contradiction].
Qed.
Lemma join_cons x l : l <> [] -> join_slash (x :: l) = x ++ 47 :: join_slash l.
Proof. destruct l; [congruence|reflexivity]. Qed.
Lemma join_split s : join_slash (split_slash s) = s.
Proof.
  induction s as [|c s IH]; [reflexivity|]. cbn [split_slash]. destruct (c =? 47) eqn:E.
  - apply Z.eqb_eq in E as ->. rewrite join_cons by apply split_nonnil. rewrite IH. reflexivity.
  - pose proof (split_nonnil s). destruct (split_slash s) as [|h t]; [congruence|].
    destruct t; cbn [join_slash] in *; rewrite <- IH; reflexivity.
Qed.
Lemma split_join l : l <> [] -> Forall (fun n => ~ In 47 n) l -> split_slash (join_slash l) = l.
Proof.
  induction l as [|x l IH]; [congruence|]. intros _ H. inversion H; subst.
  destruct l as [|y l]; [apply split_noslash; assumption|].
  rewrite join_cons by discriminate. rewrite split_app by assumption. rewrite IH; [reflexivity|discriminate|assumption].
Qed.
Lemma split_app2 a b : split_slash (a ++ 47 :: b) = split_slash a ++ split_slash b.
Proof.
  induction a as [|c a IH]; [reflexivity|]. cbn [app split_slash]. destruct (c =? 47); [rewrite IH; reflexivity|].
  rewrite IH. pose proof (split_nonnil a). destruct (split_slash a); [congruence|reflexivity].
Qed.
Lemma dropEmpty_app_nils k l : dropEmpty (repeat [] k ++ l) = dropEmpty l.
Proof. induction k; [reflexivity|exact IHk]. Qed.
Lemma dropEmpty_cons x l : x <> [] -> dropEmpty (x :: l) = Ok (x :: l).
Proof. destruct x; [congruence|reflexivity]. Qed.
Lemma dropEmpty_ok l m : dropEmpty l = Ok m -> exists k, l = repeat [] k ++ m /\ exists x r, m = x :: r /\ x <> [].
Proof.
  induction l as [|x l IH]; cbn [dropEmpty]; [discriminate|]. destruct x as [|c x].
  - intros H. apply IH in H as (k & -> & R). exists (S k). split; [reflexivity|exact R].
  - intros H. injection H as <-. exists O. split; [reflexivity|]. do 2 eexists. split; [reflexivity|discriminate].
Qed.
Lemma split_slashes_l k s : split_slash (repeat 47 k ++ s) = repeat [] k ++ split_slash s.
Proof. induction k; [reflexivity|]. cbn. rewrite IHk. reflexivity. Qed.
Lemma split_slashes_r k s : split_slash (s ++ repeat 47 k) = split_slash s ++ repeat [] k.
Proof.
  revert s. induction k as [|k IH]; intros s; [cbn [repeat]; rewrite !app_nil_r; reflexivity|]. cbn [repeat].
  change (47 :: repeat 47 k) with ([47] ++ repeat 47 k). rewrite app_assoc, IH, split_app2. cbn [split_slash].
  rewrite <- app_assoc. reflexivity.
Qed.
Lemma rev_repeat {A} (x : A) k : rev (repeat x k) = repeat x k.
Proof. induction k as [|k IH]; [reflexivity|]. cbn [repeat rev]. rewrite IH. symmetry. apply repeat_cons. Qed.
Lemma dropEmpty_app_end l k : dropEmpty (l ++ repeat [] k) = (m <- dropEmpty l ;; Ok (m ++ repeat [] k)).
Proof.
  induction l as [|x l IH]; cbn [app dropEmpty bind].
  - rewrite <- (app_nil_r (repeat [] k)), dropEmpty_app_nils. reflexivity.
  - destruct x; [exact IH|reflexivity].
Qed.
Lemma pathParts_slashes a b s : pathParts (repeat 47 a ++ s ++ repeat 47 b) = pathParts s.
Proof.
  unfold pathParts. rewrite split_slashes_l, split_slashes_r, !rev_app_distr, !rev_repeat.
  rewrite <- app_assoc, dropEmpty_app_nils, dropEmpty_app_end.
  destruct (dropEmpty (rev (split_slash s))); [|reflexivity]. cbn [bind].
  rewrite rev_app_distr, rev_repeat. apply dropEmpty_app_nils.
Qed.
Lemma pathParts_join p : p <> [] -> Forall path_name p -> pathParts (join_slash p) = Ok p.
Proof.
  intros N H. unfold pathParts. rewrite split_join; [|assumption|eapply Forall_impl; [|exact H]; intros ? []; assumption].
  assert (HR : Forall path_name (rev p)) by (apply Forall_rev; assumption).
  assert (NR : rev p <> []) by (intros X; apply N; rewrite <- (rev_involutive p), X; reflexivity).
  destruct (rev p) as [|x r] eqn:E; [congruence|]. inversion HR as [|? ? [Hx _] ?]; subst.
  rewrite dropEmpty_cons by assumption. cbn [bind].
  rewrite <- E, rev_involutive. destruct p as [|y p]; [congruence|]. inversion H as [|? ? [Hy _] ?]; subst.
  apply dropEmpty_cons; assumption.
Qed.
Lemma join_app p q : p <> [] -> q <> [] -> join_slash (p ++ q) = join_slash p ++ 47 :: join_slash q.
Proof.
  intros Hp Hq. induction p as [|x p IH]; [congruence|]. destruct p as [|y p].
  - cbn [app]. rewrite join_cons by assumption. reflexivity.
  - cbn [app]. rewrite !(join_cons x) by discriminate. change (y :: p ++ q) with ((y :: p) ++ q). rewrite IH by discriminate.
    rewrite <- app_assoc. reflexivity.
Qed.
Lemma join_nils_l k l : l <> [] -> join_slash (repeat [] k ++ l) = repeat 47 k ++ join_slash l.
Proof.
  intros H. induction k as [|k IH]; [reflexivity|]. cbn [repeat app]. rewrite join_cons; [rewrite IH; reflexivity|].
  destruct k; [assumption|discriminate].
Qed.
Lemma join_nils_r k l : l <> [] -> join_slash (l ++ repeat [] k) = join_slash l ++ repeat 47 k.
Proof.
  intros H. destruct k as [|k]; [cbn [repeat]; rewrite !app_nil_r; reflexivity|].
  rewrite join_app by (assumption || discriminate). f_equal. cbn [repeat]. clear H.
  induction k as [|k IH]; [reflexivity|]. cbn [repeat] in *. rewrite join_cons by discriminate. cbn [app] in *. rewrite IH. reflexivity.
Qed.
Lemma pathParts_ok s p : pathParts s = Ok p ->
  p <> [] /\ Forall (fun n => ~ In 47 n) p /\ exists a b, s = repeat 47 a ++ join_slash p ++ repeat 47 b.
Proof.
  unfold pathParts. intros H. apply bind_ok in H as (l & E1 & E2).
  apply dropEmpty_ok in E1 as (b & E1 & x1 & r1 & -> & N1). apply dropEmpty_ok in E2 as (a & E2 & x2 & r2 & -> & N2).
  assert (ES : split_slash s = repeat [] a ++ (x2 :: r2) ++ repeat [] b).
  { rewrite <- (rev_involutive (split_slash s)), E1, rev_app_distr, rev_repeat, E2, <- app_assoc. reflexivity. }
  split; [discriminate|]. split.
  - pose proof (split_parts s) as F. rewrite ES in F. apply Forall_app in F as [_ F]. apply Forall_app in F as [F _]. exact F.
  - exists a, b. rewrite <- (join_split s), ES. rewrite join_nils_l by discriminate. f_equal. apply join_nils_r. discriminate.
Qed.

(** ** lookups by path *)
Lemma files_index_some n l i j : files_index n l i = Some j -> exists k, nth_error l k = Some n /\ j = i + Z.of_nat k.
Proof.
  revert i. induction l as [|x l IH]; intros i; cbn [files_index]; [discriminate|]. destruct (beq x n) eqn:E; intros H.
  - injection H as <-. apply beq_eq in E as ->. exists O. split; [reflexivity|lia].
  - apply IH in H as (k & H1 & ->). exists (S k). split; [exact H1|lia].
Qed.
Lemma files_index_none n l i : files_index n l i = None -> ~ In n l.
Proof.
  revert i. induction l as [|x l IH]; intros i; cbn [files_index]; [intros _ []|]. destruct (beq x n) eqn:E; [discriminate|].
  intros H [->|X]; [rewrite beq_refl in E; discriminate|]. eapply IH; eassumption.
Qed.
Lemma files_index_nodup n l i k : NoDup l -> nth_error l k = Some n -> files_index n l i = Some (i + Z.of_nat k).
Proof.
  revert i k. induction l as [|x l IH]; intros i k ND H; [destruct k; discriminate|]. inversion ND; subst. cbn [files_index].
  destruct k as [|k]; cbn [nth_error] in H.
  - injection H as <-. rewrite beq_refl. f_equal. lia.
  - destruct (beq x n) eqn:E; [apply beq_eq in E as ->; exfalso; apply nth_error_In in H; contradiction|].
    rewrite (IH (i + 1) k) by assumption. f_equal. lia.
Qed.
Lemma folders_find_some n l f : folders_find n l = Some f -> In (n, f) l.
Proof.
  induction l as [|[m g] l IH]; cbn [folders_find]; [discriminate|]. destruct (beq m n) eqn:E; intros H.
  - injection H as <-. apply beq_eq in E as ->. left; reflexivity.
  - right. apply IH, H.
Qed.
Lemma folders_find_nodup n l f : NoDup (map fst l) -> In (n, f) l -> folders_find n l = Some f.
Proof.
  induction l as [|[m g] l IH]; intros ND H; [destruct H|]. inversion ND as [|? ? NI ND']; subst. cbn [folders_find].
  destruct H as [H|H].
  - injection H as -> ->. rewrite beq_refl. reflexivity.
  - destruct (beq m n) eqn:E; [|apply IH; assumption]. apply beq_eq in E as ->. exfalso. apply NI.
    change n with (fst (n, f)). apply in_map. exact H.
Qed.

Lemma idOf_find_sound p : forall r id, idOf_find p r = Ok (Some id) -> file_at r p id.
Proof.
  induction p as [|n p IH]; intros r id; [discriminate|]. destruct p as [|m p].
  - cbn [idOf_find]. destruct (files_index n (fFiles r) 0) as [i|] eqn:E; [|discriminate]. intros H. injection H as <-.
    apply files_index_some in E as (k & E & ->). constructor. exact E.
  - change (idOf_find (n :: m :: p) r) with (match folders_find n (fFolders r) with Some g => idOf_find (m :: p) g | None => Ok None end).
    destruct (folders_find n (fFolders r)) as [g|] eqn:E; [|discriminate]. intros H.
    econstructor; [apply folders_find_some; eassumption|]. apply IH, H.
Qed.
Lemma file_at_nonnil r p id : file_at r p id -> p <> [].
Proof. destruct 1; discriminate. Qed.
Lemma dir_at_nonnil r p g : dir_at r p g -> p <> [].
Proof. destruct 1; discriminate. Qed.
Lemma idOf_find_complete r p id : file_at r p id -> names_unique r -> idOf_find p r = Ok (Some id).
Proof.
  induction 1 as [r n i E|r n f p id I H IH]; intros U.
  - cbn [idOf_find]. rewrite (files_index_nodup n _ 0 i); [f_equal; f_equal; lia| |assumption]. apply U. constructor.
  - pose proof (file_at_nonnil _ _ _ H). destruct p as [|m p]; [congruence|].
    change (idOf_find (n :: m :: p) r) with (match folders_find n (fFolders r) with Some g => idOf_find (m :: p) g | None => Ok None end).
    rewrite (folders_find_nodup n _ f); [|apply U; constructor|assumption]. apply IH. eapply names_unique_below; eassumption.
Qed.
Lemma subfolder_find_sound p : forall r g, subfolder_find p r = Ok (Some g) -> dir_at r p g.
Proof.
  induction p as [|n p IH]; intros r g; [discriminate|]. destruct p as [|m p].
  - cbn [subfolder_find]. intros H. injection H as H. constructor. apply folders_find_some, H.
  - change (subfolder_find (n :: m :: p) r) with (match folders_find n (fFolders r) with Some g => subfolder_find (m :: p) g | None => Ok None end).
    destruct (folders_find n (fFolders r)) as [f|] eqn:E; [|discriminate]. intros H.
    econstructor; [apply folders_find_some; eassumption|]. apply IH, H.
Qed.
Lemma subfolder_find_complete r p g : dir_at r p g -> names_unique r -> subfolder_find p r = Ok (Some g).
Proof.
  induction 1 as [r n f I|r n f p g I H IH]; intros U.
  - cbn [subfolder_find]. f_equal. apply folders_find_nodup; [apply U; constructor|assumption].
  - pose proof (dir_at_nonnil _ _ _ H). destruct p as [|m p]; [congruence|].
    change (subfolder_find (n :: m :: p) r) with (match folders_find n (fFolders r) with Some g => subfolder_find (m :: p) g | None => Ok None end).
    rewrite (folders_find_nodup n _ f); [|apply U; constructor|assumption]. apply IH. eapply names_unique_below; eassumption.
Qed.
Lemma idOf_find_total p r : p <> [] -> exists o, idOf_find p r = Ok o.
Proof.
  revert r. induction p as [|n p IH]; intros r; [congruence|]. intros _. destruct p as [|m p]; [eexists; reflexivity|].
  change (idOf_find (n :: m :: p) r) with (match folders_find n (fFolders r) with Some g => idOf_find (m :: p) g | None => Ok None end).
  destruct (folders_find n (fFolders r)); [apply IH; discriminate|eexists; reflexivity].
Qed.
Lemma subfolder_find_total p r : p <> [] -> exists o, subfolder_find p r = Ok o.
Proof.
  revert r. induction p as [|n p IH]; intros r; [congruence|]. intros _. destruct p as [|m p]; [eexists; reflexivity|].
  change (subfolder_find (n :: m :: p) r) with (match folders_find n (fFolders r) with Some g => subfolder_find (m :: p) g | None => Ok None end).
  destruct (folders_find n (fFolders r)); [apply IH; discriminate|eexists; reflexivity].
Qed.

Fixpoint findGo (id : Z) (l : list (list Z * folder)) : option (list (list Z)) :=
  match l with
  | [] => None
  | (n, g) :: r => match filenameOf_find id g with Some p => Some (n :: p) | None => findGo id r end
  end.
Lemma filenameOf_find_eq id l files i : filenameOf_find id (Folder l files i) =
  if (i <=? id) && (id <? i + zlen files) then match nth_error files (Z.to_nat (id - i)) with Some n => Some [n] | None => None end
  else findGo id l.
Proof.
  cbn [filenameOf_find]. destruct ((i <=? id) && (id <? i + zlen files)); [reflexivity|].
  induction l as [|[n g] l IH]; [reflexivity|]. cbn [findGo]. destruct (filenameOf_find id g); [reflexivity|exact IH].
Qed.
Lemma filenameOf_find_sound id : forall r p, filenameOf_find id r = Some p -> file_at r p id.
Proof.
  induction r as [l files i IH] using folder_ind'. intros p. rewrite filenameOf_find_eq.
  destruct ((i <=? id) && (id <? i + zlen files)) eqn:E.
  - apply andb_prop in E as [E1 E2]. apply Z.leb_le in E1.
    destruct (nth_error files (Z.to_nat (id - i))) as [n|] eqn:EN; [|discriminate]. intros H. injection H as <-.
    replace id with (fFirst (Folder l files i) + Z.of_nat (Z.to_nat (id - i))) by (cbn [fFirst]; lia). constructor. exact EN.
  - clear E. assert (G : forall l', (forall x, In x l' -> In x l) -> findGo id l' = Some p -> file_at (Folder l files i) p id).
    { induction l' as [|[n g] l' IHl]; intros SUB; cbn [findGo]; [discriminate|].
      destruct (filenameOf_find id g) as [q|] eqn:EQ.
      - intros H. injection H as <-. assert (I : In (n, g) l) by (apply SUB; left; reflexivity).
        econstructor; [exact I|]. eapply IH; eassumption.
      - apply IHl. intros; apply SUB; right; assumption. }
    apply G. auto.
Qed.
Lemma filenameOf_find_complete r p id : file_at r p id -> exists q, filenameOf_find id r = Some q.
Proof.
  induction 1 as [r n i E|r n f p id I H [q IH]].
  - destruct r as [l files j]. cbn [fFiles fFirst] in *. rewrite filenameOf_find_eq.
    assert (i < length files)%nat by (apply nth_error_Some; congruence).
    replace ((j <=? j + Z.of_nat i) && (j + Z.of_nat i <? j + zlen files)) with true by (unfold zlen; lia).
    replace (Z.to_nat (j + Z.of_nat i - j)) with i by lia. rewrite E. eauto.
  - destruct r as [l files j]. cbn [fFolders] in I. rewrite filenameOf_find_eq.
    destruct ((j <=? id) && (id <? j + zlen files)) eqn:E.
    + destruct (nth_error files (Z.to_nat (id - j))) eqn:EN; [eauto|]. apply nth_error_None in EN.
      apply andb_prop in E as [E1 E2]. unfold zlen in E2. lia.
    + clear - I IH. induction l as [|[m g] l IHl]; [destruct I|]. cbn [findGo]. destruct (filenameOf_find id g) eqn:E; [eauto|].
      destruct I as [I|I]; [injection I as -> ->; congruence|]. apply IHl, I.
Qed.
Lemma file_at_path_names r p id : file_at r p id -> paths_ok r -> Forall path_name p.
Proof.
  induction 1 as [r n i E|r n f p id I H IH]; intros U.
  - constructor; [|constructor]. destruct (U r) as [F _]; [constructor|]. rewrite Forall_forall in F. apply F. eapply nth_error_In, E.
  - constructor; [|apply IH; eapply paths_ok_below; eassumption]. destruct (U r) as [_ F]; [constructor|].
    rewrite Forall_forall in F. apply (F _ I).
Qed.
Lemma dir_at_path_names r p id : dir_at r p id -> paths_ok r -> Forall path_name p.
Proof.
  induction 1 as [r n f I|r n f p g I H IH]; intros U.
  - constructor; [|constructor]. destruct (U r) as [_ F]; [constructor|]. rewrite Forall_forall in F. apply (F _ I).
  - constructor; [|apply IH; eapply paths_ok_below; eassumption]. destruct (U r) as [_ F]; [constructor|].
    rewrite Forall_forall in F. apply (F _ I).
Qed.

(** ** the lookup properties *)
Lemma filename_to_id r id s : paths_ok r -> names_unique r -> filenameOf r id = Some s -> idOf r s = Ok (Some id).
Proof.
  intros P U H. unfold filenameOf in H. destruct (filenameOf_find id r) as [p|] eqn:E; [|discriminate]. injection H as <-.
  apply filenameOf_find_sound in E. unfold idOf.
  rewrite pathParts_join; [|eapply file_at_nonnil; eassumption|eapply file_at_path_names; eassumption].
  apply idOf_find_complete; assumption.
Qed.
Lemma id_to_filename r id s : ids_unique r -> idOf r s = Ok (Some id) ->
  exists a b n, s = repeat 47 a ++ n ++ repeat 47 b /\ filenameOf r id = Some n.
Proof.
  intros U H. unfold idOf in H. apply bind_ok in H as (p & E & H). apply idOf_find_sound in H.
  apply pathParts_ok in E as (_ & _ & a & b & ->). exists a, b, (join_slash p). split; [reflexivity|].
  destruct (filenameOf_find_complete _ _ _ H) as [q Q]. unfold filenameOf. rewrite Q. f_equal. f_equal.
  eapply U; [apply filenameOf_find_sound, Q|exact H].
Qed.
Lemma filename_spec r id s : filenameOf r id = Some s -> exists p, file_at r p id /\ s = join_slash p.
Proof.
  unfold filenameOf. destruct (filenameOf_find id r) as [p|] eqn:E; [|discriminate]. intros H. injection H as <-.
  exists p. split; [apply filenameOf_find_sound, E|reflexivity].
Qed.
Lemma filename_none r id : filenameOf r id = None -> forall p, ~ file_at r p id.
Proof.
  intros H p F. apply filenameOf_find_complete in F as [q Q]. unfold filenameOf in H. rewrite Q in H. discriminate.
Qed.
Lemma id_spec r p id : p <> [] -> Forall path_name p -> names_unique r ->
  (idOf r (join_slash p) = Ok (Some id) <-> file_at r p id).
Proof.
  intros N P U. unfold idOf. rewrite pathParts_join by assumption. cbn [bind]. split.
  - apply idOf_find_sound.
  - intros. apply idOf_find_complete; assumption.
Qed.
Lemma subfolder_spec r p g : p <> [] -> Forall path_name p -> names_unique r ->
  (subfolder r (join_slash p) = Ok (Some g) <-> dir_at r p g).
Proof.
  intros N P U. unfold subfolder. rewrite pathParts_join by assumption. cbn [bind]. split.
  - apply subfolder_find_sound.
  - intros. apply subfolder_find_complete; assumption.
Qed.
Lemma idOf_slashes r s a b : idOf r (repeat 47 a ++ s ++ repeat 47 b) = idOf r s.
Proof. unfold idOf. rewrite pathParts_slashes. reflexivity. Qed.
Lemma subfolder_slashes r s a b : subfolder r (repeat 47 a ++ s ++ repeat 47 b) = subfolder r s.
Proof. unfold subfolder. rewrite pathParts_slashes. reflexivity. Qed.

Lemma find_compose p : forall q r g, p <> [] -> q <> [] -> subfolder_find p r = Ok (Some g) ->
  idOf_find (p ++ q) r = idOf_find q g /\ subfolder_find (p ++ q) r = subfolder_find q g.
Proof.
  induction p as [|n p IH]; intros q r g Hp Hq H; [congruence|]. destruct p as [|m p].
  - cbn [subfolder_find] in H. injection H as H. destruct q as [|x q]; [congruence|].
    cbn [app]. change (idOf_find (n :: x :: q) r) with (match folders_find n (fFolders r) with Some g => idOf_find (x :: q) g | None => Ok None end).
    change (subfolder_find (n :: x :: q) r) with (match folders_find n (fFolders r) with Some g => subfolder_find (x :: q) g | None => Ok None end).
    rewrite H. auto.
  - change (subfolder_find (n :: m :: p) r) with (match folders_find n (fFolders r) with Some g => subfolder_find (m :: p) g | None => Ok None end) in H.
    cbn [app]. change (idOf_find (n :: m :: p ++ q) r) with (match folders_find n (fFolders r) with Some g => idOf_find ((m :: p) ++ q) g | None => Ok None end).
    change (subfolder_find (n :: m :: p ++ q) r) with (match folders_find n (fFolders r) with Some g => subfolder_find ((m :: p) ++ q) g | None => Ok None end).
    destruct (folders_find n (fFolders r)) as [f|]; [|discriminate]. apply IH; [discriminate|assumption|assumption].
Qed.
Lemma lookup_compose r g p q : p <> [] -> q <> [] -> Forall path_name p -> Forall path_name q ->
  subfolder r (join_slash p) = Ok (Some g) ->
  idOf r (join_slash p ++ 47 :: join_slash q) = idOf g (join_slash q) /\
  subfolder r (join_slash p ++ 47 :: join_slash q) = subfolder g (join_slash q).
Proof.
  intros Np Nq Pp Pq H. rewrite <- join_app by assumption. unfold idOf, subfolder in *.
  assert (Npq : p ++ q <> []) by (destruct p; [congruence|discriminate]).
  assert (Ppq : Forall path_name (p ++ q)) by (apply Forall_app; split; assumption).
  rewrite pathParts_join in H by assumption. rewrite !pathParts_join by assumption.
  cbn [bind] in *. apply find_compose; assumption.
Qed.
Lemma lookup_compose_none r p q : p <> [] -> q <> [] -> Forall path_name p -> Forall path_name q ->
  subfolder r (join_slash p) = Ok None ->
  idOf r (join_slash p ++ 47 :: join_slash q) = Ok None /\ subfolder r (join_slash p ++ 47 :: join_slash q) = Ok None.
Proof.
  intros Np Nq Pp Pq H. rewrite <- join_app by assumption. unfold idOf, subfolder in *.
  assert (Npq : p ++ q <> []) by (destruct p; [congruence|discriminate]).
  assert (Ppq : Forall path_name (p ++ q)) by (apply Forall_app; split; assumption).
  rewrite pathParts_join in H by assumption. rewrite pathParts_join by assumption.
  cbn [bind] in *. clear Npq Ppq. clear Pp Pq. revert r H. induction p as [|n p IH]; intros r H; [congruence|]. destruct p as [|m p].
  - cbn [subfolder_find] in H. injection H as H. destruct q as [|x q]; [congruence|].
    cbn [app]. change (idOf_find (n :: x :: q) r) with (match folders_find n (fFolders r) with Some g => idOf_find (x :: q) g | None => Ok None end).
    change (subfolder_find (n :: x :: q) r) with (match folders_find n (fFolders r) with Some g => subfolder_find (x :: q) g | None => Ok None end).
    rewrite H. auto.
  - change (subfolder_find (n :: m :: p) r) with (match folders_find n (fFolders r) with Some g => subfolder_find (m :: p) g | None => Ok None end) in H.
    cbn [app]. change (idOf_find (n :: m :: p ++ q) r) with (match folders_find n (fFolders r) with Some g => idOf_find ((m :: p) ++ q) g | None => Ok None end).
    change (subfolder_find (n :: m :: p ++ q) r) with (match folders_find n (fFolders r) with Some g => subfolder_find ((m :: p) ++ q) g | None => Ok None end).
    destruct (folders_find n (fFolders r)) as [f|]; [|auto]. apply IH; [discriminate|assumption].
Qed.
Lemma empty_path r s : (forall c, In c s -> c = 47) -> idOf r s = Err IndexError /\ subfolder r s = Err IndexError.
Proof.
  intros H. assert (E : s = repeat 47 (length s) ++ [] ++ repeat 47 0).
  { cbn [repeat app]. rewrite app_nil_r. induction s as [|c s IH]; [reflexivity|]. cbn [length repeat].
    rewrite (H c) by (left; reflexivity). f_equal. apply IH. intros; apply H; right; assumption. }
  rewrite E, idOf_slashes, subfolder_slashes. split; reflexivity.
Qed.

(** [in] and [[...]] in terms of the tree *)
Lemma contains_int_spec r id : contains_int r id = true <-> exists p, file_at r p id.
Proof.
  unfold contains_int, getitem_int. destruct (filenameOf r id) as [s|] eqn:E; split; intros H; try discriminate; try reflexivity.
  - apply filename_spec in E as (p & F & _). eauto.
  - destruct H as [p F]. exfalso. eapply filename_none; eassumption.
Qed.
Lemma contains_str_spec r p : p <> [] -> Forall path_name p -> names_unique r ->
  (contains_str r (join_slash p) = true <-> (exists id, file_at r p id) \/ (exists g, dir_at r p g)).
Proof.
  intros N P U. unfold contains_str, getitem_str, idOf, subfolder. rewrite pathParts_join by assumption. cbn [bind].
  destruct (idOf_find_total p r N) as [o EO]. destruct (subfolder_find_total p r N) as [s ES]. rewrite EO. cbn [bind].
  destruct o as [id|].
  - split; [|reflexivity]. intros _. left. exists id. apply idOf_find_sound, EO.
  - rewrite ES. cbn [bind]. destruct s as [g|].
    + split; [|reflexivity]. intros _. right. exists g. apply subfolder_find_sound, ES.
    + split; [discriminate|]. intros [[id F]|[g F]].
      * apply idOf_find_complete in F; [|assumption]. congruence.
      * apply subfolder_find_complete in F; [|assumption]. congruence.
Qed.

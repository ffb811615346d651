(** * The INFO block of a saved sound archive *)
From Coq Require Import String.
From Verif Require Import PyBase PyLemmas PyTac AtLemmas CommonModel WaveModel SeqModel SeqLemmas SsarModel SbnkModel SdatModel.

(** ** Adding files *)
Lemma find_file_some fs f m : forall i k, find_file fs f m i = Some k -> i <= k /\ nth_error fs (Z.to_nat (k - i)) = Some (f, m).
Proof.
  induction fs as [|[f' m'] fs IH]; cbn [find_file]; intros i k; [discriminate|]. destruct (beq f' f && (m =? m')) eqn:E.
  - intros [= <-]. apply andb_true_iff in E as [E1 E2]. apply beq_eq in E1. apply Z.eqb_eq in E2. subst. rewrite Z.sub_diag. split; [lia|reflexivity].
  - intros H. apply IH in H as [H1 H2]. split; [lia|]. replace (Z.to_nat (k - i)) with (S (Z.to_nat (k - (i + 1)))) by lia. exact H2.
Qed.
Lemma find_file_none fs f m : forall i, find_file fs f m i = None -> ~ In (f, m) fs.
Proof.
  induction fs as [|[f' m'] fs IH]; cbn [find_file]; intros i H; [intros []|]. destruct (beq f' f && (m =? m')) eqn:E; [discriminate|].
  intros [I|I]; [|exact (IH _ H I)]. injection I as -> ->. rewrite beq_refl, Z.eqb_refl in E. discriminate.
Qed.
(** [b] extends [a] *)
Definition ext {A} (a b : list A) : Prop := exists c, b = a ++ c.
Lemma ext_refl {A} (a : list A) : ext a a.
Proof. exists []. symmetry. apply app_nil_r. Qed.
Lemma ext_trans {A} (a b c : list A) : ext a b -> ext b c -> ext a c.
Proof. intros (x & ->) (y & ->). exists (x ++ y). symmetry. apply app_assoc. Qed.
Lemma ext_nth {A} (a b : list A) n x : ext a b -> nth_error a n = Some x -> nth_error b n = Some x.
Proof. intros (c & ->) H. rewrite nth_error_app1; [exact H|]. apply nth_error_Some. congruence. Qed.

Lemma addFile_spec fs f m fs' i : addFile fs f m = (fs', i) ->
  0 <= i /\ nth_error fs' (Z.to_nat i) = Some (f, m) /\ ((In (f, m) fs /\ fs' = fs) \/ (~ In (f, m) fs /\ fs' = fs ++ [(f, m)])).
Proof.
  unfold addFile. destruct (find_file fs f m 0) as [k|] eqn:E; intros [= <- <-].
  - apply find_file_some in E as [E1 E2]. rewrite Z.sub_0_r in E2. split; [exact E1|]. split; [exact E2|]. left. split; [|reflexivity]. eapply nth_error_In; exact E2.
  - apply find_file_none in E. pose proof (zlen_nonneg fs). split; [lia|]. split; [|right; split; [exact E|reflexivity]].
    unfold zlen. rewrite Nat2Z.id, nth_error_app2 by lia. rewrite Nat.sub_diag. reflexivity.
Qed.

(** the files after adding [ps] in turn *)
Fixpoint adds (fs ps : files) : files :=
  match ps with
  | [] => fs
  | p :: r => adds (fst (addFile fs (fst p) (snd p))) r
  end.
Lemma adds_app ps : forall fs qs, adds fs (ps ++ qs) = adds (adds fs ps) qs.
Proof. induction ps as [|p ps IH]; intros fs qs; cbn [app adds]; [reflexivity|apply IH]. Qed.
Lemma adds_ext ps : forall fs, ext fs (adds fs ps).
Proof.
  induction ps as [|[f m] ps IH]; intros fs; cbn [adds fst snd]; [apply ext_refl|]. destruct (addFile fs f m) as [fs' i] eqn:E. cbn [fst].
  eapply ext_trans; [|apply IH]. apply addFile_spec in E as (_ & _ & [(_ & ->)|(_ & ->)]); [apply ext_refl|exists [(f, m)]; reflexivity].
Qed.
Lemma adds_nodup ps : forall fs, NoDup fs -> NoDup (adds fs ps).
Proof.
  induction ps as [|[f m] ps IH]; intros fs N; cbn [adds fst snd]; [exact N|]. apply IH. destruct (addFile fs f m) as [fs' i] eqn:E. cbn [fst].
  apply addFile_spec in E as (_ & _ & [(_ & ->)|(I & ->)]); [exact N|]. apply NoDup_app_snoc || idtac.
  clear - N I. induction fs as [|x fs IH]; cbn [app]; [repeat constructor; intros []|]. inversion N; subst. constructor.
  - rewrite in_app_iff. intros [H|[H|[]]]; [contradiction|]. subst. apply I. left. reflexivity.
  - apply IH; [assumption|]. intros H. apply I. right. exact H.
Qed.
Lemma adds_in ps p : forall fs, In p (adds fs ps) <-> In p fs \/ In p ps.
Proof.
  induction ps as [|[f m] ps IH]; intros fs; cbn [adds fst snd]; [cbn [In]; tauto|]. rewrite IH. destruct (addFile fs f m) as [fs' i] eqn:E. cbn [fst In].
  apply addFile_spec in E as (_ & _ & [(I & ->)|(I & ->)]).
  - split; [tauto|]. intros [H|[<-|H]]; [left; exact H|left; exact I|right; exact H].
  - rewrite in_app_iff. cbn [In]. tauto.
Qed.

(** ** One part *)
Definition bodies (bs : list (option bytes)) : bytes := concat (map (fun o => match o with Some b => b | None => [] end) bs).
Fixpoint offsets (pos : Z) (bs : list (option bytes)) : list Z :=
  match bs with
  | [] => []
  | None :: r => 0 :: offsets pos r
  | Some b :: r => pos :: offsets (pos + zlen b) r
  end.
Inductive run {A} (entry : files -> A -> res (bytes * files)) : files -> list (option A) -> list (option bytes) -> files -> Prop :=
| run_nil fs : run entry fs [] [] fs
| run_none fs l bs fs' : run entry fs l bs fs' -> run entry fs (None :: l) (None :: bs) fs'
| run_some fs x l b bs fs1 fs' : entry fs x = Ok (b, fs1) -> run entry fs1 l bs fs' -> run entry fs (Some x :: l) (Some b :: bs) fs'.
Lemma run_length {A} (entry : files -> A -> res (bytes * files)) fs l bs fs' : run entry fs l bs fs' -> length bs = length l.
Proof. induction 1; cbn [length]; congruence. Qed.
Lemma zlen_offsets bs : forall pos, zlen (offsets pos bs) = zlen bs.
Proof. induction bs as [|[b|] bs IH]; intros pos; cbn [offsets]; rewrite ?zlen_cons, ?IH; reflexivity. Qed.

Lemma part_fold {A} (entry : files -> A -> res (bytes * files)) l : forall pos fs o b pos' fs' o' b',
  foldM (part_step entry) (pos, fs, o, b) l = Ok (pos', fs', o', b') -> 0 <= pos ->
  exists bs, run entry fs l bs fs' /\ o' = o ++ concat (map (le 4) (offsets pos bs)) /\ b' = b ++ bodies bs /\
    Forall (fun v => 0 <= v < 2 ^ 32) (offsets pos bs).
Proof.
  induction l as [|[x|] l IH]; cbn [foldM]; intros pos fs o b pos' fs' o' b' H P.
  - injection H as <- <- <- <-. exists []. split; [constructor|]. cbn [offsets map concat]. unfold bodies. cbn [map concat]. rewrite !app_nil_r. repeat split. constructor.
  - cbn [part_step] in H. apply bind_ok in H as (st & E & H). apply bind_ok in E as ((eb & fs2) & E0 & E). apply bind_ok in E as (w & E1 & E).
    apply pack_u_inv in E1 as [B ->]. injection E as <-. pose proof (zlen_nonneg eb).
    apply IH in H as (bs & R & -> & -> & F); [|lia]. exists (Some eb :: bs). split; [econstructor; [exact E0|exact R]|]. cbn [offsets map concat]. unfold bodies. cbn [map concat].
    rewrite !app_assoc. repeat split. constructor; [p256; lia|exact F].
  - cbn [part_step bind] in H. apply IH in H as (bs & R & -> & -> & F); [|lia]. exists (None :: bs). split; [constructor; exact R|]. cbn [offsets map concat]. unfold bodies. cbn [map concat].
    rewrite app_nil_l, !app_assoc. repeat split. constructor; [lia|exact F].
Qed.
(** the bytes of a part at [pos] with the entries [bs] *)
Definition part_bytes (pos : Z) (bs : list (option bytes)) : bytes :=
  le 4 (zlen bs) ++ concat (map (le 4) (offsets (pos + 4 + 4 * zlen bs) bs)) ++ bodies bs.
Definition part_ok (pos : Z) (bs : list (option bytes)) : Prop :=
  zlen bs < 2 ^ 32 /\ Forall (fun v => 0 <= v < 2 ^ 32) (offsets (pos + 4 + 4 * zlen bs) bs).
Lemma part_inv {A} (entry : files -> A -> res (bytes * files)) pos fs l out fs' : part entry pos fs l = Ok (out, fs') -> 0 <= pos ->
  exists bs, run entry fs l bs fs' /\ out = part_bytes pos bs /\ part_ok pos bs.
Proof.
  unfold part. intros H P. apply bind_ok in H as (c & E & H). apply pack_u_inv in E as [B ->]. apply bind_ok in H as ((((p1 & fs1) & o1) & b1) & E0 & H). pose proof (zlen_nonneg l).
  apply part_fold in E0 as (bs & R & -> & -> & F); [|lia]. exists bs. pose proof (run_length _ _ _ _ _ R) as L.
  assert (zlen bs = zlen l) as L' by (unfold zlen; lia). injection H as <- <-. cbn [app].
  split; [exact R|]. unfold part_bytes, part_ok. rewrite L'. split; [reflexivity|]. split; [p256; lia|exact F].
Qed.

(** ** What an entry holds *)
Definition opt_rel {A B} (R : A -> B -> Prop) (a : option A) (b : option B) : Prop :=
  match a, b with Some x, Some y => R x y | None, None => True | _, _ => False end.
Definition somes {A} (l : list (option A)) : list A := flat_map (fun o => match o with Some x => [x] | None => [] end) l.
(** [fields] written one after the other *)
Definition les (fields : list (nat * Z)) : bytes := concat (map (fun p => le (fst p) (snd p)) fields).
Definition in_fields (fields : list (nat * Z)) : Prop := Forall (fun p => 0 <= snd p < 256 ^ Z.of_nat (fst p)) fields.
Lemma pack_us_les fields b : pack_us fields = Ok b -> b = les fields /\ in_fields fields.
Proof. intros H. apply pack_us_inv in H as [F ->]. split; [reflexivity|exact F]. Qed.
(** an entry with the file [f]: its number and [rest] *)
Definition refers (FS : files) (f : bytes) (m : Z) (rest : list (nat * Z)) (tail b : bytes) : Prop :=
  exists i, 0 <= i /\ nth_error FS (Z.to_nat i) = Some (f, m) /\ b = les ((2%nat, i) :: rest) ++ tail /\ in_fields ((2%nat, i) :: rest).

Definition seq_at (FS : files) (x : merged sseq) (b : bytes) : Prop :=
  exists f unk02 bankID volume cp pp playerID, sseq_save (snd x) = Ok (f, (unk02, bankID, volume, cp, pp, playerID)) /\
    refers FS f (fst x) [(2%nat, unk02); (2%nat, bankID); (1%nat, volume); (1%nat, cp); (1%nat, pp); (1%nat, playerID)] [0; 0] b.
Definition arch_at (FS : files) (x : merged ssar) (b : bytes) : Prop :=
  exists f unk02 names, ssar_save (snd x) = Ok (f, unk02, names) /\ refers FS f (fst x) [(2%nat, unk02)] [] b.
Definition bank_at (FS : files) (x : merged sbnk) (b : bytes) : Prop :=
  exists f unk02 wars, sbnk_save (snd x) = Ok (f, unk02, wars) /\ zlen wars <= 4 /\
    Forall (fun v => - 0x8000 <= v < 0x8000) (swar_ids wars) /\
    refers FS f (fst x) [(2%nat, unk02)] (concat (map (fun v => le 2 (v mod 65536)) (swar_ids wars))) b.
Definition war_at (FS : files) (x : merged swar) (b : bytes) : Prop :=
  exists f unk02, swar_save (snd x) = Ok (f, unk02) /\ refers FS f (fst x) [(2%nat, unk02)] [] b.
Definition strm_at (FS : files) (x : merged strm) (b : bytes) : Prop :=
  exists f unk02 volume priority playerID unk07, strm_save0 (snd x) = Ok (f, (unk02, volume, priority, playerID, unk07)) /\
    refers FS f (fst x) [(2%nat, unk02); (1%nat, volume); (1%nat, priority); (1%nat, playerID); (1%nat, unk07)] (zeros 4) b.
Definition player_at (x : player) (b : bytes) : Prop :=
  let '(maxSequences, channels, heapSize) := x in
  let fields := [(2%nat, maxSequences); (2%nat, channel_mask channels); (4%nat, heapSize)] in b = les fields /\ in_fields fields.
Definition group_fields (g : groupEntry) : list (nat * Z) :=
  let '(type, options, id) := group_save g in [(1%nat, type); (2%nat, options); (1%nat, 0); (4%nat, id)].
Definition group_at (x : list groupEntry) (b : bytes) : Prop :=
  zlen x < 2 ^ 32 /\ Forall (fun g => in_fields (group_fields g)) x /\ b = le 4 (zlen x) ++ concat (map (fun g => les (group_fields g)) x).
Definition splayer_at (x : list Z) (b : bytes) : Prop :=
  zlen x < 256 /\ is_bytes x /\ exists k, 0 <= k < 4 /\ b = [zlen x] ++ x ++ rep 0xFF (16 - zlen x) ++ zeros (4 + k) /\ zlen b mod 4 = 0.

(** the files of the objects *)
Definition seq_file (x : merged sseq) : files := match sseq_save (snd x) with Ok (f, _) => [(f, fst x)] | Err _ => [] end.
Definition arch_file (x : merged ssar) : files := match ssar_save (snd x) with Ok (f, _, _) => [(f, fst x)] | Err _ => [] end.
Definition bank_file (x : merged sbnk) : files := match sbnk_save (snd x) with Ok (f, _, _) => [(f, fst x)] | Err _ => [] end.
Definition war_file (x : merged swar) : files := match swar_save (snd x) with Ok (f, _) => [(f, fst x)] | Err _ => [] end.
Definition strm_file (x : merged strm) : files := match strm_save0 (snd x) with Ok (f, _) => [(f, fst x)] | Err _ => [] end.
Definition no_file {A} (x : A) : files := [].

Definition entry_spec {A} (entry : files -> A -> res (bytes * files)) (file : A -> files) (R : files -> A -> bytes -> Prop) : Prop :=
  forall fs x b fs1, entry fs x = Ok (b, fs1) -> fs1 = adds fs (file x) /\ forall FS, ext fs1 FS -> R FS x b.

Lemma refers_intro fs f m fs1 i rest b tail FS : addFile fs f m = (fs1, i) -> pack_us ((2%nat, i) :: rest) = Ok b -> ext fs1 FS ->
  refers FS f m rest tail (b ++ tail).
Proof.
  intros A P E. apply addFile_spec in A as (I & N & _). apply pack_us_les in P as [-> F]. exists i. split; [exact I|].
  split; [exact (ext_nth _ _ _ _ E N)|]. split; [reflexivity|exact F].
Qed.
Lemma addFile_adds fs f m fs1 i : addFile fs f m = (fs1, i) -> fs1 = adds fs [(f, m)].
Proof. cbn [adds fst snd]. intros ->. reflexivity. Qed.

Lemma seq_entry_spec : entry_spec seq_entry seq_file seq_at.
Proof.
  intros fs [m x] b fs1 H. unfold seq_entry in H. cbn [fst snd] in H. apply bind_ok in H as ((f & info) & E & H). destruct info as [[[[[u bk] v] cp] pp] pl].
  destruct (addFile fs f m) as [fs2 i] eqn:A. apply bind_ok in H as (w & P & H). injection H as <- <-.
  unfold seq_file, seq_at. cbn [fst snd]. rewrite E. split; [exact (addFile_adds _ _ _ _ _ A)|]. intros FS X.
  exists f, u, bk, v, cp, pp, pl. split; [reflexivity|]. exact (refers_intro _ _ _ _ _ _ _ _ _ A P X).
Qed.
Lemma arch_entry_spec : entry_spec arch_entry arch_file arch_at.
Proof.
  intros fs [m x] b fs1 H. unfold arch_entry in H. cbn [fst snd] in H. apply bind_ok in H as (((f & u) & names) & E & H).
  destruct (addFile fs f m) as [fs2 i] eqn:A. apply bind_ok in H as (w & P & H). injection H as <- <-.
  unfold arch_file, arch_at. cbn [fst snd]. rewrite E. split; [exact (addFile_adds _ _ _ _ _ A)|]. intros FS X.
  exists f, u, names. split; [reflexivity|]. rewrite <- (app_nil_r w). exact (refers_intro _ _ _ _ _ _ _ _ _ A P X).
Qed.
Lemma zlen_swar_ids w : zlen (swar_ids w) = Z.max 4 (zlen w).
Proof. unfold swar_ids. rewrite zlen_app, zlen_rep_max, zlen_map. pose proof (zlen_nonneg w). lia. Qed.
Lemma bank_entry_spec : entry_spec bank_entry bank_file bank_at.
Proof.
  intros fs [m x] b fs1 H. unfold bank_entry in H. cbn [fst snd] in H. apply bind_ok in H as (((f & u) & wars) & E & H).
  destruct (addFile fs f m) as [fs2 i] eqn:A. apply bind_ok in H as (g & G & H). apply guard_ok in G. apply bind_ok in H as (w & P & H).
  apply bind_ok in H as (ws & W & H). injection H as <- <-.
  unfold bank_file, bank_at. cbn [fst snd]. rewrite E. split; [exact (addFile_adds _ _ _ _ _ A)|]. intros FS X.
  exists f, u, wars. split; [reflexivity|]. rewrite zlen_swar_ids in G. split; [lia|].
  apply (mapM_inv _ (fun v => - 0x8000 <= v < 0x8000) (fun v => le 2 (v mod 65536))) in W as [F ->].
  - split; [exact F|]. exact (refers_intro _ _ _ _ _ _ _ _ _ A P X).
  - intros v y Y. apply pack_s_inv in Y as [Y ->]. change (256 ^ Z.of_nat 2) with 65536 in *. split; [exact Y|reflexivity].
Qed.
Lemma war_entry_spec : entry_spec war_entry war_file war_at.
Proof.
  intros fs [m x] b fs1 H. unfold war_entry in H. cbn [fst snd] in H. apply bind_ok in H as ((f & u) & E & H).
  destruct (addFile fs f m) as [fs2 i] eqn:A. apply bind_ok in H as (w & P & H). injection H as <- <-.
  unfold war_file, war_at. cbn [fst snd]. rewrite E. split; [exact (addFile_adds _ _ _ _ _ A)|]. intros FS X.
  exists f, u. split; [reflexivity|]. rewrite <- (app_nil_r w). exact (refers_intro _ _ _ _ _ _ _ _ _ A P X).
Qed.
Lemma strm_entry_spec : entry_spec strm_entry strm_file strm_at.
Proof.
  intros fs [m x] b fs1 H. unfold strm_entry in H. cbn [fst snd] in H. apply bind_ok in H as ((f & info) & E & H). destruct info as [[[[u v] pr] pl] u7].
  destruct (addFile fs f m) as [fs2 i] eqn:A. apply bind_ok in H as (w & P & H). injection H as <- <-.
  unfold strm_file, strm_at. cbn [fst snd]. rewrite E. split; [exact (addFile_adds _ _ _ _ _ A)|]. intros FS X.
  exists f, u, v, pr, pl, u7. split; [reflexivity|]. exact (refers_intro _ _ _ _ _ _ _ _ _ A P X).
Qed.
Lemma player_entry_spec : entry_spec player_entry no_file (fun _ => player_at).
Proof.
  intros fs [[a c] h] b fs1 H. unfold player_entry in H. apply bind_ok in H as (w & P & H). injection H as <- <-. split; [reflexivity|]. intros FS X.
  unfold player_at. apply pack_us_les in P. exact P.
Qed.
Lemma les_app a b : les (a ++ b) = les a ++ les b.
Proof. unfold les. rewrite map_app. apply concat_app. Qed.
Lemma group_entry_spec : entry_spec group_entry no_file (fun _ => group_at).
Proof.
  intros fs x b fs1 H. unfold group_entry in H. apply bind_ok in H as (w & P & H). apply bind_ok in H as (l & L & H). injection H as <- <-. split; [reflexivity|]. intros FS X.
  apply pack_u_inv in P as [P ->]. unfold group_at. split; [p256; lia|].
  apply (mapM_inv _ (fun g => in_fields (group_fields g)) (fun g => les (group_fields g))) in L as [F ->]; [split; [exact F|reflexivity]|].
  clear. intros g y H. unfold group_bytes, group_fields in *. destruct (group_save g) as [[t o] i]. apply bind_ok in H as (a & A & H). apply bind_ok in H as (c & C & H).
  injection H as <-. apply pack_us_les in A as [-> A]. apply pack_u_inv in C as [C ->]. split; [|reflexivity].
  unfold in_fields in *. inversion A as [|? ? A1 A2]; subst. inversion A2 as [|? ? A3 A4]; subst. repeat (constructor; [first [assumption | cbn [fst snd]; p256; lia]|]). constructor.
Qed.
Lemma zeros_add a b : 0 <= a -> 0 <= b -> zeros (a + b) = zeros a ++ zeros b.
Proof. intros. unfold zeros, rep. rewrite Z2Nat.inj_add by lia. apply repeat_app. Qed.
Lemma splayer_entry_spec : entry_spec splayer_entry no_file (fun _ => splayer_at).
Proof.
  intros fs x b fs1 H. unfold splayer_entry, to_bytes in H. destruct (forallb byteb [zlen x]) eqn:C; [|discriminate]. cbn [bind] in H.
  destruct (forallb byteb (x ++ rep 255 (16 - zlen x))) eqn:B; [|discriminate]. cbn [bind] in H. injection H as <- <-. split; [reflexivity|]. intros FS X.
  apply forallb_byteb in C. apply forallb_byteb in B. apply is_bytes_app in B as [B _]. inversion C; subst. unfold splayer_at, is_byte in *. split; [lia|]. split; [exact B|].
  set (r := [zlen x] ++ (x ++ rep 255 (16 - zlen x)) ++ zeros 4). exists ((- zlen r) mod 4). split; [apply Z.mod_pos_bound; lia|].
  split; [|apply pad_to_mod; lia]. change (pad_to 4 0 r = [zlen x] ++ x ++ rep 255 (16 - zlen x) ++ zeros (4 + (- zlen r) mod 4)). unfold pad_to. rewrite zeros_add by (try apply Z.mod_pos_bound; lia).
  fold (zeros (- zlen r mod 4)). generalize (zeros (- zlen r mod 4)). intros z. unfold r. rewrite <- !app_assoc. reflexivity.
Qed.

Lemma run_spec {A} (entry : files -> A -> res (bytes * files)) file R : entry_spec entry file R ->
  forall fs l bs fs', run entry fs l bs fs' -> fs' = adds fs (flat_map file (somes l)) /\ forall FS, ext fs' FS -> Forall2 (opt_rel (R FS)) l bs.
Proof.
  intros S. induction 1 as [fs|fs l bs fs' _ [-> IH]|fs x l b bs fs1 fs' E _ [-> IH]].
  - split; [reflexivity|]. intros. constructor.
  - split; [reflexivity|]. intros FS X. constructor; [exact I|exact (IH _ X)].
  - apply S in E as [-> E]. split; [unfold somes; cbn [flat_map app]; rewrite adds_app; reflexivity|]. intros FS X. constructor; [|exact (IH _ X)].
    apply E. eapply ext_trans; [apply adds_ext|exact X].
Qed.

(** ** The block *)
Fixpoint poss (pos : Z) (bss : list (list (option bytes))) : list Z :=
  match bss with [] => [] | bs :: r => pos :: poss (pos + zlen (part_bytes pos bs)) r end.
Fixpoint pbytes (pos : Z) (bss : list (list (option bytes))) : bytes :=
  match bss with [] => [] | bs :: r => part_bytes pos bs ++ pbytes (pos + zlen (part_bytes pos bs)) r end.
Fixpoint parts_ok (pos : Z) (bss : list (list (option bytes))) : Prop :=
  match bss with [] => True | bs :: r => 0 <= pos < 2 ^ 32 /\ part_ok pos bs /\ parts_ok (pos + zlen (part_bytes pos bs)) r end.
Definition info_bytes (bss : list (list (option bytes))) : bytes :=
  (asc "INFO" ++ le 4 (0x40 + zlen (pbytes 0x40 bss))) ++ concat (map (le 4) (poss 0x40 bss)) ++ zeros 0x18 ++ pbytes 0x40 bss.
Lemma pbytes_snoc bss bs : forall pos, pbytes pos (bss ++ [bs]) = pbytes pos bss ++ part_bytes (pos + zlen (pbytes pos bss)) bs.
Proof.
  induction bss as [|b bss IH]; intros pos; cbn [app pbytes].
  - change (zlen (@nil Z)) with 0. rewrite Z.add_0_r. apply app_nil_r.
  - rewrite IH, zlen_app, app_assoc, Z.add_assoc. reflexivity.
Qed.
Lemma poss_snoc bss bs : forall pos, poss pos (bss ++ [bs]) = poss pos bss ++ [pos + zlen (pbytes pos bss)].
Proof.
  induction bss as [|b bss IH]; intros pos; cbn [app pbytes poss].
  - change (zlen (@nil Z)) with 0. rewrite Z.add_0_r. reflexivity.
  - rewrite IH, zlen_app, Z.add_assoc. reflexivity.
Qed.
Lemma parts_ok_snoc bss bs : forall pos, parts_ok pos bss -> 0 <= pos + zlen (pbytes pos bss) < 2 ^ 32 -> part_ok (pos + zlen (pbytes pos bss)) bs -> parts_ok pos (bss ++ [bs]).
Proof.
  induction bss as [|b bss IH]; intros pos; cbn [app pbytes parts_ok].
  - change (zlen (@nil Z)) with 0. rewrite Z.add_0_r. intros. split; [assumption|]. split; [assumption|exact I].
  - rewrite zlen_app, Z.add_assoc. intros (A & B & C) P Q. split; [exact A|]. split; [exact B|]. apply IH; assumption.
Qed.
Lemma declare_inv {A} (entry : files -> A -> res (bytes * files)) file R (S : entry_spec entry file R) bss fs l heads fs' body :
  declare entry (concat (map (le 4) (poss 0x40 bss)), fs, pbytes 0x40 bss) l = Ok (heads, fs', body) -> parts_ok 0x40 bss ->
  exists bs, heads = concat (map (le 4) (poss 0x40 (bss ++ [bs]))) /\ body = pbytes 0x40 (bss ++ [bs]) /\ parts_ok 0x40 (bss ++ [bs]) /\
    fs' = adds fs (flat_map file (somes l)) /\ forall FS, ext fs' FS -> Forall2 (opt_rel (R FS)) l bs.
Proof.
  unfold declare. intros H K. apply bind_ok in H as (h & E & H). apply pack_u_inv in E as [P ->]. apply bind_ok in H as ((b & fs1) & E & H). injection H as <- <- <-.
  pose proof (zlen_nonneg (pbytes 0x40 bss)). apply part_inv in E as (bs & X & -> & O); [|lia]. exists bs. rewrite pbytes_snoc, poss_snoc, map_app, concat_app.
  cbn [map concat]. rewrite app_nil_r. split; [reflexivity|]. split; [reflexivity|]. split; [apply parts_ok_snoc; [exact K|p256; lia|exact O]|]. exact (run_spec _ _ _ S _ _ _ _ X).
Qed.

(** the files of an archive in the order in which save meets them *)
Definition all_files (s : sdat) : files :=
  flat_map seq_file (somes (map snd (dSeqs s))) ++ flat_map arch_file (somes (map snd (dArchs s))) ++ flat_map bank_file (somes (map snd (dBanks s)))
  ++ flat_map war_file (somes (map snd (dWars s))) ++ flat_map strm_file (somes (map snd (dStrms s))).
Lemma no_files {A} (l : list A) : flat_map no_file l = ([] : files).
Proof. induction l; [reflexivity|exact IHl]. Qed.
Record info_spec (s : sdat) (FS : files) (bss : list (list (option bytes))) : Prop := {
  is_seq : Forall2 (opt_rel (seq_at FS)) (map snd (dSeqs s)) (nth 0 bss []);
  is_arch : Forall2 (opt_rel (arch_at FS)) (map snd (dArchs s)) (nth 1 bss []);
  is_bank : Forall2 (opt_rel (bank_at FS)) (map snd (dBanks s)) (nth 2 bss []);
  is_war : Forall2 (opt_rel (war_at FS)) (map snd (dWars s)) (nth 3 bss []);
  is_player : Forall2 (opt_rel player_at) (map snd (dPlayers s)) (nth 4 bss []);
  is_group : Forall2 (opt_rel group_at) (map snd (dGroups s)) (nth 5 bss []);
  is_splayer : Forall2 (opt_rel splayer_at) (map snd (dSPlayers s)) (nth 6 bss []);
  is_strm : Forall2 (opt_rel (strm_at FS)) (map snd (dStrms s)) (nth 7 bss []) }.
Lemma info_inv s info FS : info_block s = Ok (info, FS) ->
  exists bss, length bss = 8%nat /\ FS = adds [] (all_files s) /\ info = info_bytes bss /\ parts_ok 0x40 bss /\
    0x40 + zlen (pbytes 0x40 bss) < 2 ^ 32 /\ info_spec s FS bss.
Proof.
  unfold info_block. intros H.
  repeat match type of H with bind (declare _ _ _) _ = _ => let h := fresh "h" in let f := fresh "f" in let b := fresh "b" in let E := fresh "D" in apply bind_ok in H as (((h & f) & b) & E & H) end.
  apply bind_ok in H as (n & E & H). apply pack_u_inv in E as [P ->]. injection H as <- <-.
  apply (declare_inv _ _ _ seq_entry_spec []) in D as (c0 & -> & -> & O0 & F0 & S0); [|exact I].
  apply (declare_inv _ _ _ arch_entry_spec) in D0 as (b1' & -> & -> & O1 & F1 & S1); [|exact O0].
  apply (declare_inv _ _ _ bank_entry_spec) in D1 as (b2' & -> & -> & O2 & F2 & S2); [|exact O1].
  apply (declare_inv _ _ _ war_entry_spec) in D2 as (b3' & -> & -> & O3 & F3 & S3); [|exact O2].
  apply (declare_inv _ _ _ player_entry_spec) in D3 as (b4' & -> & -> & O4 & F4 & S4); [|exact O3].
  apply (declare_inv _ _ _ group_entry_spec) in D4 as (b5' & -> & -> & O5 & F5 & S5); [|exact O4].
  apply (declare_inv _ _ _ splayer_entry_spec) in D5 as (b6' & -> & -> & O6 & F6 & S6); [|exact O5].
  apply (declare_inv _ _ _ strm_entry_spec) in D6 as (b7' & -> & -> & O7 & F7 & S7); [|exact O6].
  cbn [app] in *. eexists. split; [|split; [|split; [reflexivity|]]]; [reflexivity| |].
  - subst. rewrite !no_files. cbn [adds]. unfold all_files. rewrite !adds_app. reflexivity.
  - split; [exact O7|]. split; [p256; lia|].
    assert (X7 : ext f6 f6) by apply ext_refl. assert (X6 : ext f5 f6) by (rewrite F7; apply adds_ext). assert (X5 : ext f4 f6) by (refine (ext_trans _ f5 _ _ X6); rewrite F6; apply adds_ext).
    assert (X4 : ext f3 f6) by (refine (ext_trans _ f4 _ _ X5); rewrite F5; apply adds_ext). assert (X3 : ext f2 f6) by (refine (ext_trans _ f3 _ _ X4); rewrite F4; apply adds_ext).
    assert (X2 : ext f1 f6) by (refine (ext_trans _ f2 _ _ X3); rewrite F3; apply adds_ext). assert (X1 : ext f0 f6) by (refine (ext_trans _ f1 _ _ X2); rewrite F2; apply adds_ext).
    assert (X0 : ext f f6) by (refine (ext_trans _ f0 _ _ X1); rewrite F1; apply adds_ext).
    constructor; cbn [nth]; eauto.
Qed.

From Coq Require Import String.
From Verif Require Import PyBase PyLemmas PyTac CodeLemmas Gfx2DLemmas WaveModel WaveLemmas SeqModel SeqSpec SeqLemmas SeqSave SeqRead SeqTotal SeqGood SsarModel.

(** ** SSEQ *)
Definition sseq_bytes (d : bytes) : bytes :=
  std_bytes (asc "SSEQ") 0x100 (0x1C + zlen d) 1 ++ asc "DATA" ++ le 4 (0x0C + zlen d) ++ le 4 0x1C ++ d.
Definition sseq_data (p : sseq) : res bytes :=
  if qParsed p then ' (x, _) <- saveSequenceEvents (qEvents p) [] ;; Ok x else Ok (qData p).
Lemma sseq_save_eq p d : sseq_data p = Ok d -> 0x1C + zlen d < 4294967296 -> sseq_save p = Ok (sseq_bytes d, qInfo p).
Proof.
  intros E L. unfold sseq_save. change (if qParsed p then _ else _) with (sseq_data p). rewrite E. cbn [bind]. cbv zeta. pose proof (zlen_nonneg d).
  rewrite std_pack_ok by lia. cbn [bind].
  do_pack. cbn [bind]. unfold sseq_bytes. rewrite <- !app_assoc. replace (28 + zlen d - 16) with (12 + zlen d) by lia. reflexivity.
Qed.
Lemma sseq_save_inv p r : sseq_save p = Ok r -> exists d, sseq_data p = Ok d /\ 0x1C + zlen d < 4294967296 /\ r = (sseq_bytes d, qInfo p).
Proof.
  intros H. pose proof H as H0. unfold sseq_save in H. change (if qParsed p then _ else _) with (sseq_data p) in H. apply bind_ok in H as (d & E & H). cbv zeta in H.
  apply bind_ok in H as (h & Hh & H). apply std_pack_inv in Hh as (_ & Hs & _). exists d. split; [exact E|]. split; [lia|].
  rewrite (sseq_save_eq p d E) in H0 by lia. apply ok_inj in H0. symmetry. exact H0.
Qed.
Lemma sseq_load_bytes d i post : 0x1C + zlen d < 4294967296 ->
  sseq_load (sseq_bytes d ++ post) i = Ok {| qParsed := false; qEvents := []; qData := d; qInfo := i |}.
Proof.
  intros L. pose proof (zlen_nonneg d). unfold sseq_load, sseq_bytes, std_bytes. rewrite <- !app_assoc. rewrite prefixb_app. cbn [guard bind].
  pose proof (eq_refl : zlen (asc "SSEQ") = 4) as L1. pose proof (eq_refl : zlen (asc "DATA") = 4) as L2.
  set (M := asc "SSEQ") in *. set (D := asc "DATA") in *. clearbody M D.
  rdalls. cbn [Z.eqb Pos.eqb guard bind]. rdalls. reflexivity.
Qed.
Lemma sseq_load_err f i e : sseq_load f i = Err e -> e = ValueError \/ e = StructError.
Proof.
  unfold sseq_load. intros H. destruct (prefixb (asc "SSEQ") f); cbn [guard bind] in H; [|injection H as <-; left; reflexivity].
  destruct (unpack_u 2 f 6) eqn:E1; cbn [bind] in H; [|right; apply unpack_u_err in E1; congruence].
  destruct (unpack_u 4 f 8) eqn:E2; cbn [bind] in H; [|right; apply unpack_u_err in E2; congruence].
  destruct (a =? 256); cbn [guard bind] in H; [|injection H as <-; left; reflexivity].
  destruct (unpack_u 4 f 24) eqn:E3; cbn [bind] in H; [discriminate|right; apply unpack_u_err in E3; congruence].
Qed.

(** ** SSAR *)
Definition params_ok (p : seqParams) : Prop :=
  let '(bank, vol, cp, pp, pl) := p in 0 <= bank < 65536 /\ 0 <= vol < 256 /\ 0 <= cp < 256 /\ 0 <= pp < 256 /\ 0 <= pl < 256.
Definition i32 (v : Z) : Prop := -2147483648 <= v < 2147483648.
Definition arow (r : Z * seqParams) : bytes :=
  let '(o, (bank, vol, cp, pp, pl)) := r in
  le 4 (o mod 4294967296) ++ le 2 bank ++ le 1 vol ++ le 1 cp ++ le 1 pp ++ le 1 pl ++ [0; 0].
Lemma zlen_arow r : zlen (arow r) = 12.
Proof. destruct r as [o [[[[b v] c] p] l]]. unfold arow. rewrite !zlen_app, !zlen_le. reflexivity. Qed.
Lemma h4 : 256 ^ Z.of_nat 4 / 2 = 2147483648.
Proof. reflexivity. Qed.
Lemma ssar_row_ok o p : i32 o -> params_ok p -> ssar_row o p = Ok (arow (o, p)).
Proof.
  destruct p as [[[[b v] c] q] l]. intros H (H1 & H2 & H3 & H4 & H5). unfold i32 in H. unfold ssar_row. rewrite pack_s_ok by (rewrite h4; lia). cbn [bind].
  do_pack. cbn [bind]. unfold arow. change (256 ^ Z.of_nat 4) with 4294967296. rewrite <- !app_assoc. reflexivity.
Qed.
Lemma ssar_row_inv o p d : ssar_row o p = Ok d -> i32 o /\ params_ok p /\ d = arow (o, p).
Proof.
  destruct p as [[[[b v] c] q] l]. intros H. unfold ssar_row in H. apply bind_ok in H as (x & Ex & H). apply pack_s_inv in Ex as [Hx ->]. rewrite h4 in Hx.
  apply bind_ok in H as (y & Ey & H). inv_pack Ey. injection H as <-. unfold i32, params_ok. split; [lia|]. split; [lia|]. 
  unfold arow. change (256 ^ Z.of_nat 4) with 4294967296. rewrite <- ?app_assoc. reflexivity.
Qed.
Definition ssar_bytes (rows : list (Z * seqParams)) (d : bytes) : bytes :=
  std_bytes (asc "SSAR") 0x100 (0x20 + 12 * zlen rows + zlen d) 1 ++ asc "DATA" ++ le 4 (0x10 + 12 * zlen rows + zlen d) ++
  le 4 (0x20 + 12 * zlen rows) ++ le 4 (zlen rows) ++ concat (map arow rows) ++ d.
Lemma ssar_save_eq r rows d : ssar_body r = Ok (concat (map arow rows), d) -> zlen rows = zlen (rSeqs r) ->
  0x20 + 12 * zlen rows + zlen d < 4294967296 -> ssar_save r = Ok (ssar_bytes rows d, rUnk r, map fst (rSeqs r)).
Proof.
  intros E Hl L. unfold ssar_save. rewrite E. cbn [bind]. cbv zeta. rewrite <- Hl. pose proof (zlen_nonneg d). pose proof (zlen_nonneg rows).
  rewrite std_pack_ok by lia. cbn [bind]. do_pack. cbn [bind]. unfold ssar_bytes. rewrite <- !app_assoc.
  replace (32 + zlen rows * 12) with (32 + 12 * zlen rows) by lia. replace (32 + 12 * zlen rows + zlen d - 16) with (16 + 12 * zlen rows + zlen d) by lia. reflexivity.
Qed.
Lemma ssar_save_inv r f u ns : ssar_save r = Ok (f, u, ns) -> exists t d, ssar_body r = Ok (t, d) /\
  0x20 + 12 * zlen (rSeqs r) + zlen d < 4294967296 /\ u = rUnk r /\ ns = map fst (rSeqs r).
Proof.
  intros H. unfold ssar_save in H. apply bind_ok in H as ([t d] & E & H). cbv zeta in H. apply bind_ok in H as (h & Hh & H). apply std_pack_inv in Hh as (_ & Hs & _).
  apply bind_ok in H as (b & Hb & H). apply ok_inj in H. exists t, d. split; [exact E|]. split; [lia|]. split; congruence.
Qed.

Lemma arow_read pre x post : i32 (fst x) -> params_ok (snd x) ->
  forall f i, f = pre ++ arow x ++ post -> zlen pre = 0x20 + 0xC * i -> 0 <= i ->
  ssar_loadSeq f i = Ok (aseq_unparsed (Some (fst x)) (snd x)).
Proof.
  destruct x as [o [[[[b v] c] q] l]]. cbn [fst snd]. intros H (H1 & H2 & H3 & H4 & H5) f i -> Hp Hi. unfold i32 in H. unfold ssar_loadSeq, arow. cbv zeta. rewrite <- Hp, <- !app_assoc.
  rewrite unpack_s_skip by lia. rewrite (unpack_s_hit 4) by (rewrite ?h4; lia). cbn [bind]. rdalls. reflexivity.
Qed.
Definition mk_seqs (xs : list (option (list Z) * (Z * seqParams))) : list (option (list Z) * aseq) :=
  map (fun p => (fst p, aseq_unparsed (Some (fst (snd p))) (snd (snd p)))) xs.
Lemma ssar_load_bytes xs d u names post : (forall p, In p xs -> i32 (fst (snd p)) /\ params_ok (snd (snd p))) ->
  0x20 + 12 * zlen xs + zlen d < 4294967296 ->
  (forall i, (i < length xs)%nat -> nth i names None = nth i (map fst xs) None) ->
  ssar_load (ssar_bytes (map snd xs) d ++ post) u names =
  Ok {| rParsed := false; rEvents := []; rData := d; rSeqs := mk_seqs xs; rUnk := u |}.
Proof.
  intros F L N. pose proof (zlen_nonneg xs) as P. pose proof (zlen_nonneg d) as P'. unfold ssar_load, ssar_bytes.
  assert (Lr : zlen (map snd xs) = zlen xs) by (unfold zlen; rewrite map_length; reflexivity). rewrite Lr, <- !app_assoc.
  replace (prefixb (asc "SSAR") _) with true by (unfold std_bytes; rewrite <- !app_assoc, prefixb_app; reflexivity). cbn [guard bind].
  set (len := 32 + 12 * zlen xs + zlen d).
  rewrite std_unpack_hit by (reflexivity || lia). cbn [bind hVersion hMagic hSize]. rewrite beq_refl. cbn [Z.eqb Pos.eqb guard bind].
  pose proof (zlen_std (asc "SSAR") 0x100 len 1) as LS. change (zlen (asc "SSAR") + 12) with 16 in LS.
  set (S := std_bytes _ _ _ _) in *. clearbody S. pose proof (eq_refl : zlen (asc "DATA") = 4) as LD.
  assert (BD : beq (asc "DATA") (asc "DATA") = true) by reflexivity. set (DA := asc "DATA") in *. clearbody DA.
  set (T := concat (map arow (map snd xs))).
  assert (LT : zlen T = 12 * zlen xs). { unfold T. rewrite (zlen_concat_map _ _ 12) by (intros; apply zlen_arow). lia. }
  set (PR := S ++ DA ++ le 4 (0x10 + 12 * zlen xs + zlen d) ++ le 4 (32 + 12 * zlen xs) ++ le 4 (zlen xs)).
  assert (LP : zlen PR = 0x20) by (unfold PR; rewrite !zlen_app, !zlen_le, LS, LD; reflexivity).
  assert (EF : S ++ DA ++ le 4 (0x10 + 12 * zlen xs + zlen d) ++ le 4 (32 + 12 * zlen xs) ++ le 4 (zlen xs) ++ T ++ d ++ post = PR ++ T ++ d ++ post)
    by (unfold PR; rewrite <- !app_assoc; reflexivity).
  assert (R1 : rd (PR ++ T ++ d ++ post) 16 4 = Ok DA). { rewrite <- EF. rdalls. reflexivity. }
  assert (R2 : unpack_u 4 (PR ++ T ++ d ++ post) 0x14 = Ok (0x10 + 12 * zlen xs + zlen d)). { rewrite <- EF. rdalls. reflexivity. }
  assert (R3 : unpack_u 4 (PR ++ T ++ d ++ post) 0x18 = Ok (32 + 12 * zlen xs)). { rewrite <- EF. rdalls. reflexivity. }
  assert (R4 : unpack_u 4 (PR ++ T ++ d ++ post) 0x1C = Ok (zlen xs)). { rewrite <- EF. rdalls. reflexivity. }
  rewrite EF, R1, R2, R3, R4. cbn [bind]. rewrite BD. cbn [guard bind]. rewrite length_zlen.
  rewrite (mapM_table _ (fun p => (fst p, aseq_unparsed (Some (fst (snd p))) (snd (snd p)))) xs).
  - cbn [bind]. f_equal. f_equal. rewrite slice_skip by lia. rewrite LP. rewrite slice_skip by lia. rewrite slice_hit by lia. reflexivity.
  - intros l1 x l2 Ex. rewrite Z.add_0_l. pose proof (zlen_nonneg l1) as P1. destruct (F x) as [F1 F2]; [rewrite Ex; apply in_or_app; right; left; reflexivity|].
    destruct (concat_at arow 12 (map snd l1) (snd x) (map snd l2)) as (E1 & E2 & _); [intros; apply zlen_arow|].
    assert (Lr1 : zlen (map snd l1) = zlen l1) by (unfold zlen; rewrite map_length; reflexivity).
    rewrite (arow_read (PR ++ concat (map arow (map snd l1))) (snd x) (concat (map arow (map snd l2)) ++ d ++ post) F1 F2 _ (zlen l1)).
    + cbn [bind]. f_equal. f_equal. rewrite length_zlen, N by (rewrite Ex, app_length; cbn [length]; lia).
      rewrite Ex, map_app, app_nth2 by (rewrite map_length; lia). rewrite map_length, Nat.sub_diag. reflexivity.
    + unfold T. rewrite Ex, map_app. cbn [map]. rewrite E1, <- !app_assoc. reflexivity.
    + rewrite zlen_app, E2, Lr1. lia.
    + lia.
Qed.
Definition unparsed_seqs (xs : list (option (list Z) * (Z * seqParams))) : Prop :=
  forall p, In p xs -> i32 (fst (snd p)) /\ params_ok (snd (snd p)).
Lemma norm_off o : match aOffset (aseq_unparsed (Some o) (0,0,0,0,0)) with Some o => o | None => -1 end = o.
Proof. cbn [aseq_unparsed aOffset]. destruct (Z.eqb_spec o (-1)); congruence. Qed.
Lemma ssar_body_unparsed xs d u : unparsed_seqs xs ->
  ssar_body {| rParsed := false; rEvents := []; rData := d; rSeqs := mk_seqs xs; rUnk := u |} = Ok (concat (map arow (map snd xs)), d).
Proof.
  intros F. unfold ssar_body. cbn [rParsed rSeqs rData]. unfold mk_seqs.
  replace (mapM _ (map _ xs)) with (Ok (map arow (map snd xs))); [reflexivity|]. symmetry.
  induction xs as [|[n [o p]] xs IH]; cbn [map mapM snd fst]; [reflexivity|].
  destruct (F (n, (o, p)) (or_introl eq_refl)) as [F1 F2]. cbn [fst snd] in F1, F2.
  unfold aseq_firstEventOffset at 1. cbn [aseq_unparsed aParsed aOffset aParams bind].
  replace (match (if o =? -1 then None else Some o) with Some o0 => o0 | None => -1 end) with o by (destruct (Z.eqb_spec o (-1)); congruence).
  rewrite ssar_row_ok by assumption. cbn [bind]. rewrite IH by (intros q Hq; apply F; right; exact Hq). reflexivity.
Qed.
Lemma map_fst_mk xs : map fst (mk_seqs xs) = map fst xs.
Proof. unfold mk_seqs. rewrite map_map. reflexivity. Qed.
Lemma zlen_map_snd {A B} (l : list (A * B)) : zlen (map snd l) = zlen l.
Proof. unfold zlen. rewrite map_length. reflexivity. Qed.
Lemma zlen_mk xs : zlen (mk_seqs xs) = zlen xs.
Proof. unfold mk_seqs, zlen. rewrite map_length. reflexivity. Qed.

(** an unparsed archive: file -> object -> same file, object -> file -> same object *)
Lemma ssar_canonical xs d u : unparsed_seqs xs -> 0x20 + 12 * zlen xs + zlen d < 4294967296 ->
  exists r, ssar_load (ssar_bytes (map snd xs) d) u (map fst xs) = Ok r /\ ssar_save r = Ok (ssar_bytes (map snd xs) d, u, map fst xs).
Proof.
  intros F L. eexists. split.
  - rewrite <- (app_nil_r (ssar_bytes _ _)). apply ssar_load_bytes; [exact F|exact L|reflexivity].
  - rewrite (ssar_save_eq _ (map snd xs) d); cbn [rSeqs rUnk]; [rewrite map_fst_mk; reflexivity|apply ssar_body_unparsed, F| |].
    + rewrite zlen_mk, zlen_map_snd. reflexivity.
    + rewrite zlen_map_snd. exact L.
Qed.

(** *** parse, then save *)
Definition raw_of (s : option (list Z) * aseq) : option (list Z) * (Z * seqParams) :=
  (fst s, (match aOffset (snd s) with Some o => o | None => -1 end, aParams (snd s))).
(** every sequence has a start offset in the events data, and fields in range *)
Definition offsets_of (xs : list (option (list Z) * (Z * seqParams))) : list Z := map (fun p => fst (snd p)) xs.

Lemma startOffs_mk xs : startOffs (mk_seqs xs) = Ok (filter (fun o => negb (o =? -1)) (offsets_of xs)).
Proof.
  unfold startOffs, mk_seqs, offsets_of.
  rewrite (mapM_map _ (fun p => aOffset (snd p))).
  2:{ intros x Hx. apply in_map_iff in Hx as (p & <- & _). reflexivity. }
  cbn [bind]. f_equal. induction xs as [|[n [o p]] xs IH]; cbn [map flat_map filter fst snd]; [reflexivity|].
  cbn [aseq_unparsed aOffset]. destruct (Z.eqb_spec o (-1)) as [->|]; cbn [usable negb app]; [exact IH|].
  destruct (Z.eqb_spec o (-1)); [congruence|]. cbn [app]. f_equal. exact IH.
Qed.
Lemma filter_all {A} (f : A -> bool) l : (forall x, In x l -> f x = true) -> filter f l = l.
Proof. induction l as [|x l IH]; intros H; cbn [filter]; [reflexivity|]. rewrite H by (left; reflexivity). f_equal. apply IH. intros. apply H. right. assumption. Qed.
Lemma assign_fold o : forall (z : list Z) s, aOffset s = Some o ->
  fold_left (fun s (p : Z * Z) => if snd p =? o then {| aParsed := true; aFirst := Some (fst p); aOffset := aOffset s; aParams := aParams s |} else s) (combine z z) s =
  if existsb (Z.eqb o) z then {| aParsed := true; aFirst := Some o; aOffset := Some o; aParams := aParams s |} else s.
Proof.
  induction z as [|y z IH]; intros s E; cbn [combine fold_left existsb snd fst]; [reflexivity|].
  rewrite (Z.eqb_sym o y). destruct (Z.eqb_spec y o) as [->|]; cbn [orb].
  - rewrite IH by exact E. cbn [aParams]. rewrite E. destruct (existsb _ z); reflexivity.
  - apply IH, E.
Qed.
Definition parsed_seq (os : list Z) (p : option (list Z) * (Z * seqParams)) : option (list Z) * aseq :=
  (fst p, if fst (snd p) =? -1 then aseq_unparsed (Some (-1)) (snd (snd p))
          else {| aParsed := true; aFirst := Some (fst (snd p)); aOffset := Some (fst (snd p)); aParams := snd (snd p) |}).
Lemma ssar_parse_inv depth xs d u r' : is_bytes d ->
  ssar_parse depth {| rParsed := false; rEvents := []; rData := d; rSeqs := mk_seqs xs; rUnk := u |} = Ok r' ->
  let os := filter (fun o => negb (o =? -1)) (offsets_of xs) in
  exists evs, readSequenceEvents depth d os = Ok (evs, os) /\
  r' = {| rParsed := true; rEvents := evs; rData := []; rSeqs := map (parsed_seq os) xs; rUnk := u |}.
Proof.
  intros B H. cbv zeta. unfold ssar_parse in H. cbn [rParsed rSeqs rData rUnk] in H. rewrite startOffs_mk in H. cbn [bind] in H.
  set (os := filter _ _) in *. apply bind_ok in H as ([evs ns] & E & H). apply ok_inj in H. 
  destruct (read_save _ _ _ _ _ B E) as (-> & _). exists evs. split; [exact E|]. rewrite <- H. f_equal.
  unfold mk_seqs. rewrite map_map. apply map_ext_in. intros [n [o p]] Hp. cbn [fst snd]. unfold parsed_seq. cbn [fst snd]. f_equal.
  unfold assign_first. cbn [aseq_unparsed aOffset]. destruct (Z.eqb_spec o (-1)) as [->|]; cbn [usable]; [reflexivity|].
  destruct (Z.eqb_spec o (-1)); [congruence|]. rewrite assign_fold by (cbn [aseq_unparsed aOffset]; destruct (Z.eqb_spec o (-1)); congruence).
  replace (existsb (Z.eqb o) os) with true; [reflexivity|]. symmetry. apply existsb_exists. exists o. split; [|apply Z.eqb_refl].
  unfold os. apply filter_In. split; [unfold offsets_of; apply in_map_iff; exists (n, (o, p)); split; [reflexivity|exact Hp]|].
  destruct (Z.eqb_spec o (-1)); [congruence|reflexivity].
Qed.
Lemma list_index_ok l v : In v l -> exists k, 0 <= k /\ list_index l v = Ok k /\ get l k = Ok v.
Proof.
  induction l as [|x l IH]; intros H; [destruct H|]. cbn [list_index]. destruct (Z.eqb_spec x v) as [->|N].
  - exists 0. split; [lia|]. split; [reflexivity|apply get_0].
  - destruct H as [->|H]; [congruence|]. destruct (IH H) as (k & K & -> & G). cbn [bind]. exists (k + 1). split; [lia|]. split; [reflexivity|].
    rewrite get_cons by lia. replace (k + 1 - 1) with k by lia. exact G.
Qed.
Lemma firsts_ok os xs : (forall p, In p xs -> fst (snd p) <> -1) ->
  mapM (fun p => aseq_firstEvent (snd p)) (map (parsed_seq os) xs) = Ok (map Some (offsets_of xs)).
Proof.
  intros H. rewrite (mapM_map _ (fun p => aFirst (snd p))).
  - f_equal. unfold offsets_of. rewrite !map_map. apply map_ext_in. intros [n [o p]] Hp. unfold parsed_seq. cbn [fst snd].
    apply H in Hp. cbn [fst snd] in Hp. destruct (Z.eqb_spec o (-1)); [congruence|reflexivity].
  - intros x Hx. apply in_map_iff in Hx as ([n [o p]] & <- & Hp). unfold parsed_seq. cbn [fst snd].
    apply H in Hp. cbn [fst snd] in Hp. destruct (Z.eqb_spec o (-1)); [congruence|reflexivity].
Qed.
Lemma firsts_err os xs : (exists p, In p xs /\ fst (snd p) = -1) ->
  mapM (fun p => aseq_firstEvent (snd p)) (map (parsed_seq os) xs) = Err ValueError.
Proof.
  induction xs as [|[n [o p]] xs IH]; intros (q & Hq & Eq); [destruct Hq|]. cbn [map mapM]. unfold parsed_seq at 1. cbn [fst snd].
  destruct (Z.eqb_spec o (-1)) as [->|N]; cbn [aseq_firstEvent aseq_unparsed aParsed bind]; [reflexivity|].
  rewrite IH; [reflexivity|]. destruct Hq as [<-|Hq]; [cbn [fst snd] in Eq; congruence|]. exists q. split; assumption.
Qed.
Lemma flat_some (l : list Z) : flat_map (fun f => match f with Some i => [i] | None => [] end) (map Some l) = l.
Proof. induction l as [|x l IH]; cbn [map flat_map app]; [reflexivity|]. f_equal. exact IH. Qed.

Lemma some_or_all (xs : list (option (list Z) * (Z * seqParams))) :
  (exists p, In p xs /\ fst (snd p) = -1) \/ (forall p, In p xs -> fst (snd p) <> -1).
Proof.
  induction xs as [|[n [o p]] xs [(q & H & E)|H]]; [right; intros ? []|left; exists q; split; [right; exact H|exact E]|].
  destruct (Z.eq_dec o (-1)) as [->|N]; [left; eexists; split; [left; reflexivity|reflexivity]|]. right. intros q [<-|Hq]; [exact N|apply H, Hq].
Qed.

Lemma ssar_parse_save depth xs d u r' : is_bytes d -> unparsed_seqs xs -> 0x20 + 12 * zlen xs + zlen d + 13 < 4294967296 ->
  ssar_parse depth {| rParsed := false; rEvents := []; rData := d; rSeqs := mk_seqs xs; rUnk := u |} = Ok r' ->
  let all := forall p, In p xs -> fst (snd p) <> -1 in
  (all -> closed (rEvents r') (offsets_of xs) ->
   exists d', ssar_save r' = Ok (ssar_bytes (map snd xs) d', u, map fst xs) /\ zlen d' <= zlen d + 13) /\
  (forall out, ssar_save r' = Ok out -> all /\ closed (rEvents r') (offsets_of xs)) /\
  (~ all -> ssar_save r' = Err ValueError).
Proof.
  intros B F L H. cbv zeta. destruct (ssar_parse_inv _ _ _ _ _ B H) as (evs & E & ->). set (os := filter _ _) in *. cbn [rEvents].
  destruct (read_save _ _ _ _ _ B E) as (_ & R1 & R2).
  assert (A : (forall p, In p xs -> fst (snd p) <> -1) -> os = offsets_of xs).
  { intros N. apply filter_all. intros o Ho. unfold offsets_of in Ho. apply in_map_iff in Ho as (p & <- & Hp). apply N in Hp. destruct (Z.eqb_spec (fst (snd p)) (-1)); [congruence|reflexivity]. }
  assert (X : (exists p, In p xs /\ fst (snd p) = -1) -> ssar_save {| rParsed := true; rEvents := evs; rData := []; rSeqs := map (parsed_seq os) xs; rUnk := u |} = Err ValueError).
  { intros N. unfold ssar_save, ssar_body. cbn [rParsed rSeqs]. rewrite (firsts_err os xs N). reflexivity. }
  split; [|split].
  - intros N C. rewrite (A N) in *. destruct (R1 C) as (d' & S & Ld). exists d'. split; [|exact Ld].
    rewrite (ssar_save_eq _ (map snd xs) d'); cbn [rSeqs rUnk].
    + f_equal. f_equal. rewrite map_map. reflexivity.
    + unfold ssar_body. cbn [rParsed rSeqs rEvents]. rewrite (firsts_ok (offsets_of xs) xs N). cbn [bind]. cbv zeta. rewrite flat_some, S. cbn [bind].
      rewrite (mapM_map _ (fun p => arow (match aFirst (snd p) with Some o => o | None => -1 end, aParams (snd p)))).
      * cbn [bind]. f_equal. f_equal. f_equal. rewrite !map_map. apply map_ext_in. intros [n [o p]] Hp. unfold parsed_seq. cbn [fst snd]. apply N in Hp. cbn [fst snd] in Hp.
        destruct (Z.eqb_spec o (-1)); [congruence|reflexivity].
      * intros x Hx. apply in_map_iff in Hx as ([n [o p]] & <- & Hp). unfold parsed_seq. cbn [fst snd]. pose proof (N _ Hp) as No. cbn [fst snd] in No.
        destruct (Z.eqb_spec o (-1)); [congruence|]. cbn [aFirst aParams].
        destruct (list_index_ok (offsets_of xs) o) as (k & _ & -> & G); [unfold offsets_of; apply in_map_iff; exists (n, (o, p)); split; [reflexivity|exact Hp]|].
        cbn [bind]. rewrite G. cbn [bind]. destruct (F _ Hp) as [F1 F2]. cbn [fst snd] in F1, F2. apply ssar_row_ok; assumption.
    + unfold zlen. rewrite !map_length. reflexivity.
    + rewrite zlen_map_snd. lia.
  - intros out S. destruct (some_or_all xs) as [N|N]; [rewrite (X N) in S; discriminate|]. split; [exact N|]. rewrite <- (A N).
    unfold ssar_save, ssar_body in S. cbn [rParsed rSeqs rEvents] in S. rewrite (firsts_ok os xs N) in S. cbn [bind] in S. cbv zeta in S. rewrite flat_some in S.
    rewrite (A N) in *. destruct (saveSequenceEvents evs (offsets_of xs)) as [rr|] eqn:SS; [|discriminate]. exact (R2 rr eq_refl).
  - intros N. destruct (some_or_all xs) as [M|M]; [exact (X M)|]. exfalso. exact (N M).
Qed.

(** the same for a single sequence *)
Lemma sseq_parse_save depth d i q' : is_bytes d -> 0x1C + zlen d + 13 < 4294967296 ->
  sseq_parse depth {| qParsed := false; qEvents := []; qData := d; qInfo := i |} = Ok q' ->
  (closed (qEvents q') [] -> exists d', sseq_save q' = Ok (sseq_bytes d', i) /\ zlen d' <= zlen d + 13) /\
  (forall out, sseq_save q' = Ok out -> closed (qEvents q') []).
Proof.
  intros B L H. unfold sseq_parse in H. cbn [qParsed qData qInfo] in H. apply bind_ok in H as ([evs ns] & E & H). apply ok_inj in H. subst q'. cbn [qEvents].
  destruct (read_save _ _ _ _ _ B E) as (_ & R1 & R2). split.
  - intros C. destruct (R1 C) as (d' & S & Ld). exists d'. split; [|exact Ld]. apply sseq_save_eq; [|lia]. unfold sseq_data. cbn [qParsed qEvents]. rewrite S. reflexivity.
  - intros out S. apply sseq_save_inv in S as (d' & S & _). unfold sseq_data in S. cbn [qParsed qEvents] in S.
    destruct (saveSequenceEvents evs []) as [rr|] eqn:SS; [|discriminate]. exact (R2 rr eq_refl).
Qed.

(** the exceptions a computation can raise *)
Definition raises {A} (P : exc -> Prop) (r : res A) : Prop := match r with Ok _ => True | Err e => P e end.
Lemma raises_bind {A B} P (a : res A) (f : A -> res B) : raises P a -> (forall x, a = Ok x -> raises P (f x)) -> raises P (bind a f).
Proof. destruct a as [x|e]; cbn [bind raises]; intros H1 H2; [apply H2; reflexivity|exact H1]. Qed.
Lemma raises_guard (P : exc -> Prop) b e : P e -> raises P (guard b e).
Proof. destruct b; cbn [guard raises]; auto. Qed.
Lemma raises_unpack_u (P : exc -> Prop) n d o : P StructError -> raises P (unpack_u n d o).
Proof. intros H. destruct (unpack_u n d o) eqn:E; cbn [raises]; [exact I|]. apply unpack_u_err in E. subst. exact H. Qed.
Lemma raises_unpack_s (P : exc -> Prop) n d o : P StructError -> raises P (unpack_s n d o).
Proof. intros H. destruct (unpack_s n d o) eqn:E; cbn [raises]; [exact I|]. apply unpack_s_err in E. subst. exact H. Qed.
Lemma raises_rd (P : exc -> Prop) d o n : P StructError -> raises P (rd d o n).
Proof. intros H. destruct (rd d o n) eqn:E; cbn [raises]; [exact I|]. apply rd_err in E. subst. exact H. Qed.
Lemma raises_mapM {A B} P (f : A -> res B) l : (forall x, In x l -> raises P (f x)) -> raises P (mapM f l).
Proof.
  induction l as [|x l IH]; intros H; cbn [mapM]; [exact I|]. apply raises_bind; [apply H; left; reflexivity|]. intros y _.
  apply raises_bind; [apply IH; intros; apply H; right; assumption|]. intros; exact I.
Qed.
Ltac rstep := first [ exact I | apply raises_guard; cbn; tauto | apply raises_unpack_u; cbn; tauto
  | apply raises_unpack_s; cbn; tauto | apply raises_rd; cbn; tauto | apply raises_bind; [|intros ? _] ].
Lemma ssar_load_err f u names : raises (fun e => e = ValueError \/ e = StructError \/ e = AssertionError) (ssar_load f u names).
Proof.
  unfold ssar_load, std_unpack. repeat rstep. apply raises_mapM. intros i _. unfold ssar_loadSeq. cbv zeta. repeat rstep.
Qed.
Lemma combine_fst_snd {A B} : forall (a : list A) (b : list B), length a = length b -> map fst (combine a b) = a /\ map snd (combine a b) = b.
Proof.
  induction a as [|x a IH]; intros [|y b] H; try discriminate; [split; reflexivity|]. cbn [length] in H. destruct (IH b) as [E1 E2]; [lia|].
  cbn [combine map fst snd]. rewrite E1, E2. split; reflexivity.
Qed.
Lemma ssar_preserved : forall names rows d unk02 post, length names = length rows ->
  Forall (fun r => i32 (fst r) /\ params_ok (snd r)) rows -> 0x20 + 12 * zlen rows + zlen d < 2 ^ 32 ->
  exists r, ssar_load (ssar_bytes rows d ++ post) unk02 names = Ok r /\
    rParsed r = false /\ rData r = d /\ rUnk r = unk02 /\
    rSeqs r = map (fun p => (fst p, aseq_unparsed (Some (fst (snd p))) (snd (snd p)))) (combine names rows) /\
    ssar_save r = Ok (ssar_bytes rows d, unk02, names).
Proof.
  intros names rows d u post Hl F L. destruct (combine_fst_snd names rows Hl) as [E1 E2]. set (xs := combine names rows) in *. clearbody xs. subst names rows.
  assert (U : unparsed_seqs xs). { intros p Hp. rewrite Forall_forall in F. apply F. apply in_map, Hp. }
  rewrite zlen_map_snd in L. change (2 ^ 32) with 4294967296 in L.
  eexists. split; [apply ssar_load_bytes; [exact U|exact L|reflexivity]|]. repeat (split; [reflexivity|]).
  rewrite (ssar_save_eq _ (map snd xs) d); cbn [rSeqs rUnk]; [rewrite map_fst_mk; reflexivity|apply ssar_body_unparsed, U| |].
  + rewrite zlen_mk, zlen_map_snd. reflexivity.
  + rewrite zlen_map_snd. exact L.
Qed.
(** parse, then save, of a loaded archive *)
Lemma ssar_parsed : forall names rows d unk02 post depth r r', length names = length rows ->
  Forall (fun r => i32 (fst r) /\ params_ok (snd r)) rows -> 0x20 + 12 * zlen rows + zlen d + 13 < 2 ^ 32 -> is_bytes d ->
  ssar_load (ssar_bytes rows d ++ post) unk02 names = Ok r -> ssar_parse depth r = Ok r' ->
  let savable := (forall o, In o (map fst rows) -> o <> -1 /\ In o (map fst (rEvents r'))) /\
                 (forall p o, In p (rEvents r') -> ev_ref (snd p) = Some o -> In o (map fst (rEvents r'))) in
  (savable -> exists d', ssar_save r' = Ok (ssar_bytes rows d', unk02, names) /\ zlen d' <= zlen d + 13 /\
     exists r2, ssar_load (ssar_bytes rows d') unk02 names = Ok r2 /\ rSeqs r2 = rSeqs r) /\
  ((exists out, ssar_save r' = Ok out) -> savable).
Proof.
  intros names rows d u post depth r r' Hl F L B HL HP.
  destruct (combine_fst_snd names rows Hl) as [E1 E2]. set (xs := combine names rows) in *. clearbody xs. subst names rows.
  assert (U : unparsed_seqs xs). { intros p Hp. rewrite Forall_forall in F. apply F. apply in_map, Hp. }
  rewrite zlen_map_snd in L. change (2 ^ 32) with 4294967296 in L.
  rewrite (ssar_load_bytes xs d u (map fst xs) post U) in HL by (try reflexivity; lia). apply ok_inj in HL. subst r.
  destruct (ssar_parse_save depth xs d u r' B U L HP) as (S1 & S2 & _). cbv zeta. rewrite map_map.
  assert (O : offsets_of xs = map (fun x => fst (snd x)) xs) by reflexivity. rewrite O in *. split.
  - intros [C1 C2]. destruct S1 as (d' & S & Ld).
    + intros p Hp. apply C1. apply in_map_iff. exists p. split; [reflexivity|exact Hp].
    + split; [|exact C2]. intros o Ho. apply C1, Ho.
    + exists d'. split; [exact S|]. split; [exact Ld|]. eexists. split.
      * rewrite <- (app_nil_r (ssar_bytes _ _)). apply ssar_load_bytes; [exact U|lia|reflexivity].
      * reflexivity.
  - intros [out S]. destruct (S2 _ S) as [N [C1 C2]]. split; [|exact C2]. intros o Ho. split; [|apply C1, Ho].
    apply in_map_iff in Ho as (p & <- & Hp). apply N, Hp.
Qed.

Lemma startOffs_inv seqs offs : startOffs seqs = Ok offs ->
  offs = flat_map (fun o => if o =? -1 then [] else [o])
    (flat_map (fun p : option (list Z) * aseq => match aOffset (snd p) with Some o => [o] | None => [] end) seqs).
Proof.
  unfold startOffs. intros H. apply bind_ok in H as (l & M & H). apply ok_inj in H. subst offs. revert l M.
  induction seqs as [|p seqs IH]; intros l M; cbn [mapM] in M.
  - apply ok_inj in M. subst l. reflexivity.
  - apply bind_ok in M as (o & E & M). apply bind_ok in M as (l' & M' & E'). apply ok_inj in E'. subst l.
    cbn [flat_map]. rewrite flat_map_app, (IH l' M'). unfold aseq_firstEventOffset in E. destruct (aParsed (snd p)); [discriminate|].
    apply ok_inj in E. subst o. unfold usable. destruct (aOffset (snd p)) as [o|]; [|reflexivity].
    cbn [flat_map app]. destruct (o =? -1); reflexivity.
Qed.
Lemma ssar_parse_starts depth r r' : rParsed r = false -> ssar_parse depth r = Ok r' ->
  exists starts ns, readSequenceEvents depth (rData r) starts = Ok (rEvents r', ns) /\
    map (fun o => if in_dec Z.eq_dec o starts then Some o else None)
      (flat_map (fun p => match aOffset (snd p) with Some o => [o] | None => [] end) (rSeqs r)) =
    map (fun o => if o =? -1 then None else Some o)
      (flat_map (fun p => match aOffset (snd p) with Some o => [o] | None => [] end) (rSeqs r)) /\
    incl starts (flat_map (fun p => match aOffset (snd p) with Some o => [o] | None => [] end) (rSeqs r)).
Proof.
  intros P H. unfold ssar_parse in H. rewrite P in H. apply bind_ok in H as (offs & O & H). apply bind_ok in H as ([evs ns] & R & H).
  apply ok_inj in H. subst r'. cbn [rEvents]. exists offs, ns. split; [exact R|]. apply startOffs_inv in O. subst offs.
  set (os := flat_map _ (rSeqs r)). split.
  - apply map_ext_in. intros o I. destruct (in_dec Z.eq_dec o _) as [J|J]; destruct (o =? -1) eqn:E; try reflexivity.
    + apply in_flat_map in J as (x & _ & J). destruct (x =? -1) eqn:X; [destruct J|]. destruct J as [->|[]]. congruence.
    + exfalso. apply J. apply in_flat_map. exists o. split; [exact I|]. rewrite E. now left.
  - intros o J. apply in_flat_map in J as (x & I & J). destruct (x =? -1); [destruct J|]. destruct J as [->|[]]. exact I.
Qed.
Lemma ssar_parse_twice depth depth' r r' : ssar_parse depth r = Ok r' -> ssar_parse depth' r' = Ok r'.
Proof.
  unfold ssar_parse. intros H. destruct (rParsed r) eqn:P.
  - apply ok_inj in H. subst r'. rewrite P. reflexivity.
  - apply bind_ok in H as (offs & O & H). apply bind_ok in H as ([evs ns] & R & H). apply ok_inj in H. subst r'. reflexivity.
Qed.
Lemma sseq_parse_twice depth depth' s s' : sseq_parse depth s = Ok s' -> sseq_parse depth' s' = Ok s'.
Proof.
  unfold sseq_parse. intros H. destruct (qParsed s) eqn:P.
  - apply ok_inj in H. subst s'. rewrite P. reflexivity.
  - apply bind_ok in H as ([evs ns] & R & H). apply ok_inj in H. subst s'. reflexivity.
Qed.
(** every archive that can be saved, parsed or not, can be loaded again *)
Lemma ssar_body_inv r t d : ssar_body r = Ok (t, d) -> exists rows, t = concat (map arow rows) /\ length rows = length (rSeqs r) /\
  Forall (fun x => i32 (fst x) /\ params_ok (snd x)) rows /\ map snd rows = map (fun p => aParams (snd p)) (rSeqs r) /\ (rParsed r = false -> d = rData r).
Proof.
  intros H. unfold ssar_body in H.
  assert (G : forall (off : option (list Z) * aseq -> res Z) l bs, mapM (fun p => o <- off p ;; ssar_row o (aParams (snd p))) l = Ok bs ->
    exists rows, concat bs = concat (map arow rows) /\ length rows = length l /\ Forall (fun x => i32 (fst x) /\ params_ok (snd x)) rows /\ map snd rows = map (fun p => aParams (snd p)) l).
  { intros off. induction l as [|p l IH]; intros bs M; cbn [mapM] in M; [injection M as <-; exists []; repeat split; constructor|].
    apply bind_ok in M as (b & B & M). apply bind_ok in M as (bs' & M' & M). injection M as <-. apply bind_ok in B as (o & _ & B). apply ssar_row_inv in B as (B1 & B2 & ->). destruct (IH _ M') as (rows & E1 & E2 & E3 & E4).
    exists ((o, aParams (snd p)) :: rows). cbn [concat map length snd]. rewrite E1, E2, E4. split; [reflexivity|]. split; [reflexivity|]. split; [|reflexivity]. constructor; [split; assumption|exact E3]. }
  destruct (rParsed r).
  - apply bind_ok in H as (firsts & _ & H). cbv zeta in H. apply bind_ok in H as ((ed & offs) & _ & H). apply bind_ok in H as (bs & M & H). injection H as <- <-. destruct (G _ _ _ M) as (rows & E1 & E2 & E3 & E4). exists rows. repeat split; try assumption. discriminate.
  - apply bind_ok in H as (bs & M & H). injection H as <- <-.
    destruct (G (fun p => o <- aseq_firstEventOffset (snd p) ;; Ok (match o with Some o => o | None => -1 end)) (rSeqs r) bs) as (rows & E1 & E2 & E3 & E4).
    { rewrite <- M. apply mapM_ext. intros p _. destruct (aseq_firstEventOffset (snd p)); reflexivity. }
    exists rows. repeat split; assumption.
Qed.
Lemma ssar_saved r f u l : ssar_save r = Ok (f, u, l) -> u = rUnk r /\ l = map fst (rSeqs r) /\ exists rows d, f = ssar_bytes rows d /\ length rows = length (rSeqs r) /\
  Forall (fun x => i32 (fst x) /\ params_ok (snd x)) rows /\ 0x20 + 12 * zlen rows + zlen d < 2 ^ 32 /\ map snd rows = map (fun p => aParams (snd p)) (rSeqs r) /\ (rParsed r = false -> d = rData r).
Proof.
  intros H. destruct (ssar_save_inv _ _ _ _ H) as (t & d & B & L & -> & ->). split; [reflexivity|]. split; [reflexivity|]. destruct (ssar_body_inv _ _ _ B) as (rows & -> & E1 & E2 & E3 & E4).
  assert (E : zlen rows = zlen (rSeqs r)) by (unfold zlen; rewrite E1; reflexivity). rewrite (ssar_save_eq r rows d B E) in H by lia. injection H as <-. exists rows, d. change (2 ^ 32) with 4294967296. repeat split; try assumption. lia.
Qed.
Lemma ssar_saved_loads r f u l post : ssar_save r = Ok (f, u, l) -> u = rUnk r /\ l = map fst (rSeqs r) /\
  exists r', ssar_load (f ++ post) u l = Ok r' /\ rParsed r' = false /\ (rParsed r = false -> rData r' = rData r) /\
    map (fun p => aParams (snd p)) (rSeqs r') = map (fun p => aParams (snd p)) (rSeqs r) /\ ssar_save r' = Ok (f, u, l).
Proof.
  intros H. destruct (ssar_saved _ _ _ _ H) as (-> & -> & rows & d & -> & E1 & E2 & E3 & E4 & E5). split; [reflexivity|]. split; [reflexivity|].
  assert (E : length (map fst (rSeqs r)) = length rows) by (rewrite map_length; congruence). destruct (ssar_preserved _ _ d (rUnk r) post E E2 E3) as (r' & L & P & D & _ & S & V). exists r'. split; [exact L|]. split; [exact P|].
  split; [intros X; rewrite D; exact (E5 X)|]. split; [|exact V]. rewrite S, map_map, <- E4. cbn [snd aseq_unparsed aParams]. rewrite <- (proj2 (combine_fst_snd _ _ E)) at 2. rewrite map_map. reflexivity.
Qed.

(** * C70-C72: display lists, models and their textures *)
From Coq Require Import String.
From Verif Require Import PyBase PyLemmas PyTac AtLemmas CommonModel InfoBlockLemmas WaveModel WaveLemmas ColorModel SbnkModel RomSpec SeqRead TexModel TexLemmas TexBlock TexProps LzLemmas HeaderProps NsbmdModel NsbmdLemmas.

(** ** C70: display lists *)

(** the hardware's geometry commands: how many 32-bit words of parameters follow *)
Definition parameters (id : Z) : option Z :=
  match id with
  | 0x00 | 0x11 | 0x15 | 0x41 => Some 0
  | 0x10 | 0x12 | 0x13 | 0x14 => Some 1
  | 0x16 | 0x18 => Some 16
  | 0x17 | 0x19 => Some 12
  | 0x1A => Some 9
  | 0x1B | 0x1C | 0x70 | 0x72 => Some 3
  | 0x20 | 0x21 | 0x22 | 0x24 | 0x25 | 0x26 | 0x27 | 0x28 | 0x29 | 0x2A | 0x2B | 0x30 | 0x31 | 0x32 | 0x33 | 0x40 | 0x50 | 0x60 => Some 1
  | 0x23 | 0x71 => Some 2
  | 0x34 => Some 32
  | _ => None
  end.
Definition kind_of_command (id : Z) : command := match parameters id with Some _ => Known id | None => Unknown end.
(** a command and its parameters; IDs that mean nothing take none *)
Definition well_formed (c : Z * list bytes) : Prop :=
  0 <= fst c < 256 /\ zlen (snd c) = match parameters (fst c) with Some n => n | None => 0 end /\ Forall (fun w => zlen w = 4) (snd c).
(** four commands: their IDs, then all their parameters *)
Definition packed_group (g : list (Z * list bytes)) : bytes := map fst g ++ concat (concat (map snd g)).

Lemma table_agrees id : 0 <= id < 256 -> class_of id = kind_of_command id /\ args_of id = match parameters id with Some n => n | None => 0 end.
Proof.
  intros R. pose (ok := fun i => match class_of i, kind_of_command i with Known a, Known b => a =? b | Unknown, Unknown => true | _, _ => false end && (args_of i =? match parameters i with Some n => n | None => 0 end)).
  assert (K : ok id = true) by (apply (sweep 256 ok); [vm_compute; reflexivity|lia]). unfold ok in K. apply andb_prop in K as [K1 K2]. apply Z.eqb_eq in K2. split; [|exact K2].
  destruct (class_of id), (kind_of_command id); try discriminate; [|reflexivity]. apply Z.eqb_eq in K1. subst. reflexivity.
Qed.
Lemma group_args g : Forall well_formed g -> zlen (concat (concat (map snd g))) = 4 * sum_args (map fst g) /\ map class_of (map fst g) = map (fun c => kind_of_command (fst c)) g.
Proof.
  induction 1 as [|c g (R & L & W) F [I1 I2]]; [split; reflexivity|]. destruct (table_agrees _ R) as [T1 T2]. cbn [map concat sum_args fold_right]. split; [|rewrite T1, I2; reflexivity].
  rewrite concat_app, zlen_app, I1, T2, <- L. change (fold_right (fun id s => args_of id + s) 0 (map fst g)) with (sum_args (map fst g)). rewrite (zlen_concat_const (snd c) 4); [lia|]. exact W.
Qed.
(** groups of four commands with their parameters, then up to four more IDs where the
    data ends, are read as the commands in order *)
Theorem C70_display_list : forall groups ids,
  Forall (fun g => zlen g = 4 /\ Forall well_formed g) groups -> zlen ids <= 4 -> Forall (fun b => 0 <= b < 256) ids ->
  parseDisplayList (concat (map packed_group groups) ++ ids) =
    Ok (map (fun c => kind_of_command (fst c)) (concat groups) ++ map kind_of_command ids).
Proof.
  intros groups ids F L B. induction F as [|g gs [G4 GW] F IH].
  - cbn [map concat app]. destruct ids as [|i ids]; [reflexivity|]. rewrite <- (app_nil_r (i :: ids)) at 1. rewrite parse_last; try discriminate; try lia; [|left; reflexivity|change (zlen (@nil Z)) with 0; pose proof (sum_args_nonneg (i :: ids)); lia].
    f_equal. apply map_ext_in. intros x Hx. rewrite Forall_forall in B. apply table_agrees, B, Hx.
  - destruct (group_args g GW) as [A C]. cbn [map concat]. unfold packed_group at 1. rewrite <- !app_assoc. rewrite parse_group; [|rewrite zlen_map; exact G4|exact A]. rewrite IH. cbn [bind]. rewrite C, map_app, <- app_assoc. reflexivity.
Qed.
Print Assumptions C70_display_list.
Example C70_ex :
  let w n := [n; 0; 0; 128] in
  let g := [(0x40, [w 1]); (0x23, [w 2; w 3]); (0x41, []); (0x99, [])] in
  Forall (fun g => zlen g = 4 /\ Forall well_formed g) [g; g] /\
  parseDisplayList (concat (map packed_group [g; g]) ++ [0x11; 0x12]) =
    Ok [Known 0x40; Known 0x23; Known 0x41; Unknown; Known 0x40; Known 0x23; Known 0x41; Unknown; Known 0x11; Known 0x12].
Proof.
  split; [|vm_compute; reflexivity]. assert (G : let w n := [n; 0; 0; 128] in let g := [(0x40, [w 1]); (0x23, [w 2; w 3]); (0x41, []); (0x99, [])] in zlen g = 4 /\ Forall well_formed g).
  { split; [reflexivity|]. repeat (apply Forall_cons; [split; [cbn; lia|split; [reflexivity|repeat (apply Forall_cons; [reflexivity|]); apply Forall_nil]]|]). apply Forall_nil. }
  apply Forall_cons; [exact G|apply Forall_cons; [exact G|apply Forall_nil]].
Qed.
(** on any data, parsing ends without error; every command comes from a byte of the
    data, and there are none only if there are no data *)
Theorem C70_total : forall data, exists cmds, parseDisplayList data = Ok cmds /\ zlen cmds <= zlen data /\ (data <> [] -> cmds <> []) /\
  (Forall (fun b => 0 <= b < 256) data -> Forall (fun c => exists b, In b data /\ c = kind_of_command b) cmds).
Proof.
  intros data. remember (length data) as n eqn:En. revert data En. induction n as [n IH] using lt_wf_ind. intros data En.
  destruct (parse_any data) as [->|(ids & rest & r & L & Er & Ed & NE & a & SP)].
  - exists []. split; [reflexivity|]. split; [apply Z.le_refl|]. split; [congruence|]. intros _. apply Forall_nil.
  - exists (map class_of ids ++ r). split; [exact Ed|]. destruct (IH (length rest) ltac:(unfold zlen in L; lia) rest eq_refl) as (r' & Er' & Lr & _ & Fr). rewrite Er in Er'. injection Er' as <-.
    split; [rewrite zlen_app, zlen_map; rewrite SP, !zlen_app; pose proof (zlen_nonneg a); lia|].
    split; [destruct ids; [congruence|discriminate]|]. intros B. rewrite SP in B. apply Forall_app in B as [B1 B2]. apply Forall_app in B2 as [_ B2]. apply Forall_app. split.
    + apply Forall_forall. intros c Hc. apply in_map_iff in Hc as (b & <- & Hb). exists b. rewrite Forall_forall in B1. split; [rewrite SP; apply in_or_app; left; exact Hb|apply table_agrees, B1, Hb].
    + eapply Forall_impl; [|exact (Fr B2)]. cbv beta. intros c (b & Hb & E). exists b. split; [rewrite SP; apply in_or_app; right; apply in_or_app; right; exact Hb|exact E].
Qed.
Print Assumptions C70_total.
(** the parameters of the last group may be missing *)
Example C70_total_ex : parseDisplayList [0x16; 0x16; 0x34; 0x72; 1] = Ok [Known 0x16; Known 0x16; Known 0x34; Known 0x72] /\
  parseDisplayList [0x00; 0x00; 0xFF] = Ok [Known 0; Known 0; Unknown].
Proof. vm_compute. split; reflexivity. Qed.

(** ** C71: models and their textures *)

(** textures and palettes that a file can hold (see C55) *)
Definition storable_textures (x : tex0) : Prop :=
  Forall (fun p => storable_name p /\ storable_texture (snd p)) (xTextures x) /\
  Forall (fun p => storable_name p /\ storable_palette (snd p)) (xPalettes x) /\
  NoDup (map palette_key (xPalettes x)) /\
  (forall l1 p l2 q, xPalettes x = l1 ++ p :: l2 -> plColors (snd p) = [] -> In q l2 -> plColors (snd q) = []).
Lemma storable_textures_good x : storable_textures x -> tex0_good x.
Proof. intros (A & B & C & D). exact (storable_good x A B C D). Qed.
Lemma mdl0_word mdl names : parse_mdl0 mdl = Ok names -> 8 <= zlen mdl /\ (word mdl 4 = zlen mdl -> unpack_u 4 mdl 4 = Ok (zlen mdl)).
Proof.
  intros H. assert (L : 8 <= zlen mdl). { unfold parse_mdl0 in H. apply bind_ok in H as (? & _ & H). apply bind_ok in H as (? & _ & H). apply bind_ok in H as (? & E & _). apply unpack_u_lt in E; lia. }
  split; [exact L|]. intros W. rewrite unpack_word by lia. change (4 + Z.of_nat 4) with (4 + 4). unfold word in W. rewrite W. reflexivity.
Qed.
(** whatever is loaded and can be stored is loaded again from the saved file: the model
    block byte by byte, the list of models, textures and palettes *)
Theorem C71_resave : forall f0 m mdl f post,
  nsbmd_load f0 = Ok m -> nMDL0 m = Some mdl -> word mdl 4 = zlen mdl -> storable_textures (nTex m) ->
  nsbmd_save m = Ok f -> nsbmd_load (f ++ post) = Ok m.
Proof.
  intros f0 m mdl f post L M W G S. pose proof (nsbmd_named _ _ L) as NM. unfold nsbmd_load in L. do 4 (apply bind_ok in L as (? & _ & L)). apply blocks_invariant in L; [|left; split; reflexivity].
  destruct L as [[E _]|(d & n & E1 & E2 & E3)]; [congruence|]. rewrite M in E1. injection E1 as <-. destruct (mdl0_word _ _ E3) as [_ U].
  rewrite (nsbmd_roundtrip m mdl n f post (storable_textures_good _ G) M E3 (U W) S). rewrite tex0_loaded_named by exact NM. destruct m. cbn in *. congruence.
Qed.
Print Assumptions C71_resave.
(** textures brought in from an NSBTX file are in the saved model file, with the model
    block as it was, and can be taken out again as the same NSBTX *)
Theorem C71_exchange : forall f0 m mdl g x f post,
  nsbmd_load f0 = Ok m -> nMDL0 m = Some mdl -> word mdl 4 = zlen mdl ->
  nsbtx_load g = Ok x -> storable_textures x ->
  nsbmd_save (importNSBTX m x) = Ok f ->
  exists m', nsbmd_load (f ++ post) = Ok m' /\ nMDL0 m' = Some mdl /\ nModels m' = nModels m /\ exportNSBTX m' = x /\
             nsbtx_save (exportNSBTX m') = nsbtx_save x.
Proof.
  intros f0 m mdl g x f post L M W LX G S. unfold nsbmd_load in L. do 4 (apply bind_ok in L as (? & _ & L)). apply blocks_invariant in L; [|left; split; reflexivity].
  destruct L as [[E _]|(d & n & E1 & E2 & E3)]; [congruence|]. rewrite M in E1. injection E1 as <-. destruct (mdl0_word _ _ E3) as [_ U].
  assert (NX : has_names x). { unfold nsbtx_load in LX. do 4 (apply bind_ok in LX as (? & _ & LX)). cbv zeta in LX. apply bind_ok in LX as (? & _ & LX). apply (readTEX0_named _ _ LX). }
  eexists. split; [exact (nsbmd_roundtrip (importNSBTX m x) mdl n f post (storable_textures_good _ G) M E3 (U W) S)|]. cbn [nMDL0 nModels nTex importNSBTX exportNSBTX]. rewrite tex0_loaded_named by exact NX.
  repeat split. symmetry. exact E2.
Qed.
Print Assumptions C71_exchange.
(** where the parts of a saved file are *)
Theorem C71_layout : forall m f, nsbmd_save m = Ok f ->
  exists mdl tex, nMDL0 m = Some mdl /\ saveTEX0 (nTex m) = Ok tex /\ slice f 0 4 = asc "BMD0" /\ half f 6 = 2 /\ word f 8 = zlen f /\ half f 14 = 2 /\
    word f 16 = 24 /\ word f 20 = 24 + zlen mdl /\ slice f 24 (24 + zlen mdl) = mdl /\ slice f (24 + zlen mdl) (zlen f) = tex.
Proof.
  intros m f H. unfold nsbmd_save in H. destruct (nMDL0 m) as [mdl|]; [|discriminate]. exists mdl. apply bind_ok in H as (tex & Ht & H). exists tex. split; [reflexivity|]. split; [exact Ht|].
  apply bind_ok in H as (o1 & H1 & H). apply bind_ok in H as (o2 & H2 & H). apply bind_ok in H as (h & Hh & H). apply ok_inj in H.
  apply pack_u_inv in H1 as [_ ->]. apply pack_u_inv in H2 as [R2 ->]. apply std_pack_inv in Hh as (V1 & V2 & V3 & ->). p256. subst f. unfold std_bytes, word, half. rewrite <- !app_assoc.
  pose proof (zlen_nonneg mdl). pose proof (zlen_nonneg tex). change (asc "BMD0") with [66; 77; 68; 48].
  repeat split; repeat (rewrite slice_skip by zg); try (rewrite slice_hit by zg); try (rewrite unle_le_id by (p256; zg)); try reflexivity; try zg.
  rewrite slice_hit_all by zg. reflexivity.
Qed.
Print Assumptions C71_layout.

(** ** C72: which MDL0 blocks are read, and the names found *)

(** The library has no writer for MDL0 blocks, so a well-formed one is described here.
    A model at [off]: 64 bytes with, at 8 and 12, the offsets of its materials and
    polygons; there, tables as _common.saveInfoBlock writes them *)
Definition table (es : list infoEntry) (b : bytes) : Prop :=
  saveInfoBlock es 4 = Ok b /\ Forall (fun e => zlen (name_of e) <= 16 /\ (name_of e = [] \/ last (name_of e) 0 <> 0)) es.
Definition model_at (data : bytes) (off : Z) : Prop :=
  0 <= off /\ off + 64 <= zlen data /\
  exists materials textures palettes polygons b1 b2 b3 b4,
    table materials b1 /\ table textures b2 /\ table palettes b3 /\ table polygons b4 /\
    at_ data (off + word data (off + 8) + 4) (b1 ++ b2 ++ b3) /\
    at_ data (off + word data (off + 12)) b4 /\
    Forall (fun e => 0 <= off + word data (off + 12) + unle (ieData e) /\ off + word data (off + 12) + unle (ieData e) + 16 <= zlen data) polygons.
Theorem C72_models : forall size models b rest,
  table models b -> 
  (forall e, In e models -> model_at (asc "MDL0" ++ le 4 size ++ b ++ rest) (unle (ieData e))) ->
  parse_mdl0 (asc "MDL0" ++ le 4 size ++ b ++ rest) = Ok (map name_of models).
Proof.
  intros size models b rest [T N] F. set (data := asc "MDL0" ++ le 4 size ++ b ++ rest) in *.
  assert (R : read_table data 8 = Ok (map (fun e => unle (ieData e)) models, map name_of models, 8 + zlen b)).
  { pose proof (read_table_at models b (asc "MDL0" ++ le 4 size) rest T N) as R. rewrite <- app_assoc in R. rewrite zlen_app, zlen_le in R. exact R. }
  rewrite (mdl0_table data _ _ _ (prefixb_app _ _) R).
  assert (Q : mapM (read_model data) (map (fun e => unle (ieData e)) models) = Ok (map (fun _ => tt) (map (fun e => unle (ieData e)) models))).
  { apply mapM_map. intros o Ho. apply in_map_iff in Ho as (e & <- & He). destruct (F e He) as (P & L & m & t & p & q & b1 & b2 & b3 & b4 & (S1 & N1) & (S2 & N2) & (S3 & N3) & (S4 & N4) & A1 & A2 & FF).
    apply (read_model_ok data (unle (ieData e)) (word data (unle (ieData e) + 8)) (word data (unle (ieData e) + 12)) m t p q b1 b2 b3 b4); try assumption; rewrite unpack_word by lia; reflexivity. }
  rewrite Q. reflexivity.
Qed.
Print Assumptions C72_models.
(** in any block that is accepted, there are as many names as the count at 9 says, and
    each is the text before the trailing zeros of its 16 bytes *)
Theorem C72_names : forall data names, is_bytes data -> parse_mdl0 data = Ok names ->
  Forall2 (fun i name => name = rstrip 0 (slice data (24 + 8 * zlen names + 16 * i) (24 + 8 * zlen names + 16 * i + 16)))
          (range_z 0 (length names)) names /\ nth_error data 9 = Some (zlen names).
Proof.
  intros data names B H. unfold parse_mdl0 in H. apply bind_ok in H as (u & _ & H). apply bind_ok in H as (r & _ & H). apply bind_ok in H as (n & En & H). cbv zeta in H.
  assert (R : 0 <= n < 256) by (apply (unpack_u_range 1 data 9) in En; [p256; lia|exact B]). assert (L9 : 10 <= zlen data) by (apply unpack_u_lt in En; lia).
  do 11 (apply bind_ok in H as (? & _ & H)). injection H as H.
  assert (LN : zlen names = n) by (rewrite <- H; unfold table_names; rewrite zlen_map, zlen_range_z; lia).
  assert (LL : length names = Z.to_nat n) by (unfold zlen in LN; lia).
  rewrite LN, LL. split.
  - subst names. unfold table_names. replace (12 + 8 + 4 * n + 4 + 4 * n) with (24 + 8 * n) by lia. clear LL LN. generalize (range_z 0 (Z.to_nat n)). induction l as [|i l IH]; constructor; [reflexivity|exact IH].
  - rewrite unpack_word in En by lia. injection En as En. destruct (get_some data 9 ltac:(lia)) as (v & _ & E). change (Z.to_nat 9) with 9%nat in E. rewrite E. f_equal.
    change (9 + Z.of_nat 1) with (9 + 1) in En. rewrite slice_concrete in En by lia. change (Z.to_nat (9 + 1 - 9)) with 1%nat in En. change (Z.to_nat 9) with 9%nat in En.
    pose proof (nth_error_split data 9 E) as (l1 & l2 & -> & L1). rewrite skipn_app_exact in En by (symmetry; exact L1). cbn [firstn unle] in En. lia.
Qed.
Print Assumptions C72_names.
(** a block with one model, which has one material, one texture, no palette and one
    polygon with a display list *)
Definition entry (name : bytes) (v : Z) : infoEntry := {| ieName := Some name; ieUnk00 := 5; ieUnk02 := 6; ieData := le 4 v |}.
Definition tab (es : list infoEntry) : bytes := match saveInfoBlock es 4 with Ok b => b | Err _ => [] end.
Definition demo_models : list infoEntry := [entry (asc "tree") 48].
Definition demo_rest : bytes :=
  (rep 7 8 ++ le 4 64 ++ le 4 164 ++ rep 9 48) ++ rep 1 4 ++
  tab [entry (asc "bark") 3] ++ tab [entry (asc "bark_t") 4] ++ tab [] ++ tab [entry (asc "poly") 40] ++
  (rep 2 8 ++ le 4 16 ++ le 4 12) ++ [0x40; 0x41; 0; 0] ++ rep 3 8.
Definition demo_mdl0 : bytes := asc "MDL0" ++ le 4 280 ++ tab demo_models ++ demo_rest.
Example C72_ex : table demo_models (tab demo_models) /\ (forall e, In e demo_models -> model_at demo_mdl0 (unle (ieData e))) /\
  zlen demo_mdl0 = 280 /\ parse_mdl0 demo_mdl0 = Ok [asc "tree"].
Proof.
  assert (T : forall n v, zlen n <= 16 -> (n = [] \/ last n 0 <> 0) -> table [entry n v] (tab [entry n v]) \/ saveInfoBlock [entry n v] 4 <> Ok (tab [entry n v])).
  { intros n v L1 L2. destruct (saveInfoBlock [entry n v] 4) as [b|] eqn:E; [|right; congruence]. left. split; [unfold tab; rewrite E; reflexivity|]. apply Forall_cons; [split; assumption|apply Forall_nil]. }
  assert (K : forall n v, zlen n <= 16 -> (n = [] \/ last n 0 <> 0) -> saveInfoBlock [entry n v] 4 = Ok (tab [entry n v]) -> table [entry n v] (tab [entry n v])).
  { intros n v L1 L2 E. destruct (T n v L1 L2); [assumption|contradiction]. }
  split; [apply K; [vm_compute; discriminate|right; vm_compute; discriminate|vm_compute; reflexivity]|]. split; [|split; vm_compute; reflexivity].
  intros e [<-|[]]. split; [vm_compute; discriminate|]. split; [vm_compute; discriminate|].
  exists [entry (asc "bark") 3], [entry (asc "bark_t") 4], [], [entry (asc "poly") 40]. do 4 eexists.
  split; [apply K; [vm_compute; discriminate|right; vm_compute; discriminate|vm_compute; reflexivity]|].
  split; [apply K; [vm_compute; discriminate|right; vm_compute; discriminate|vm_compute; reflexivity]|].
  split; [split; [vm_compute; reflexivity|apply Forall_nil]|].
  split; [apply K; [vm_compute; discriminate|right; vm_compute; discriminate|vm_compute; reflexivity]|].
  split; [split; [vm_compute; discriminate|split; [vm_compute; discriminate|vm_compute; reflexivity]]|].
  split; [split; [vm_compute; discriminate|split; [vm_compute; discriminate|vm_compute; reflexivity]]|].
  apply Forall_cons; [split; vm_compute; discriminate|apply Forall_nil].
Qed.
Definition demo_nsbmd : nsbmd := {| nMDL0 := Some demo_mdl0; nModels := Some [asc "tree"]; nTex := demo_nsbtx [(Some (asc "p"), demo_pal 0 (rep (C4 1 2 3 1) 16)); (Some (asc "q"), demo_pal 0 (rep (C4 31 0 3 0) 4))] |}.
Example C71_ex : exists f m f', nsbmd_save demo_nsbmd = Ok f /\ nsbmd_load f = Ok m /\ nMDL0 m = Some demo_mdl0 /\ word demo_mdl0 4 = zlen demo_mdl0 /\ storable_textures (nTex m) /\ nsbmd_save m = Ok f' /\ f' = f.
Proof.
  eexists. eexists. eexists. split; [vm_compute; reflexivity|]. split; [vm_compute; reflexivity|]. split; [vm_compute; reflexivity|]. split; [vm_compute; reflexivity|]. split; [|split; vm_compute; reflexivity].
  cbn [nTex]. split; [|split; [|split]]; cbn [xTextures xPalettes].
  - repeat (apply Forall_cons; [vm_compute; repeat split; try discriminate; try (right; discriminate); left; reflexivity|]). apply Forall_nil.
  - repeat (apply Forall_cons; [split; [vm_compute; split; [discriminate|right; discriminate]|unfold storable_palette; cbn [plColors snd]; repeat (apply Forall_cons; [vm_compute; intuition discriminate|]); apply Forall_nil]|]). apply Forall_nil.
  - repeat constructor; vm_compute; intuition discriminate.
  - intros l1 p l2 q E C _. exfalso. assert (I : In p (l1 ++ p :: l2)) by (apply in_or_app; right; left; reflexivity). rewrite <- E in I. cbn [In] in I. destruct I as [<-|[<-|[]]]; discriminate C.
Qed.
(** a model that was not read from a file with an MDL0 block cannot be saved *)
Theorem C71_new_savable_refuted : (exists f m, nsbmd_load f = Ok m /\ nsbmd_save m = Err AttributeError) /\ nsbmd_save nsbmd_new = Err AttributeError.
Proof.
  split; [|reflexivity].
  exists (match (t <- saveTEX0 (nTex nsbmd_new) ;; h <- std_pack (asc "BMD0") 2 (20 + zlen t) 1 ;; Ok (h ++ le 4 20 ++ t)) with Ok f => f | Err _ => [] end). eexists. split; [vm_compute; reflexivity|]. vm_compute. reflexivity.
Qed.
Print Assumptions C71_new_savable_refuted.
(** the condition on the length word is needed: a block cut off by the end of the file
    is read, but grows into what follows when saved and read again *)
Definition cut_mdl0 : bytes := asc "MDL0" ++ le 4 1000 ++ tab [].
Theorem C71_truncated_refuted : exists f m f' m', nsbmd_load f = Ok m /\ nMDL0 m = Some cut_mdl0 /\ nsbmd_save m = Ok f' /\ nsbmd_load f' = Ok m' /\
  nMDL0 m' <> nMDL0 m.
Proof.
  exists (match (h <- std_pack (asc "BMD0") 2 44 1 ;; Ok (h ++ le 4 20 ++ cut_mdl0)) with Ok f => f | Err _ => [] end). eexists. eexists. eexists.
  split; [vm_compute; reflexivity|]. split; [vm_compute; reflexivity|]. split; [vm_compute; reflexivity|]. split; [vm_compute; reflexivity|]. vm_compute. discriminate.
Qed.
Print Assumptions C71_truncated_refuted.
(** other files are refused *)
Theorem C61_nsbmd : forall f, 16 <= zlen f -> ~ kind (asc "BMD0") 2 f -> nsbmd_load f = Err ValueError.
Proof.
  intros f L N. unfold nsbmd_load. reject L M. rewrite EV. destruct (Z.eqb_spec (half f 6) 2) as [E|E]; [|reflexivity]. exfalso. apply N. split; assumption.
Qed.
Print Assumptions C61_nsbmd.
Example C61_nsbmd_ex : nsbmd_load (asc "BTX0" ++ rep 0 60) = Err ValueError /\ exists f, nsbmd_save demo_nsbmd = Ok f /\ kind (asc "BMD0") 2 f.
Proof. split; [vm_compute; reflexivity|]. eexists. split; [vm_compute; reflexivity|]. split; vm_compute; reflexivity. Qed.

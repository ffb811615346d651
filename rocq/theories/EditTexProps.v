(** * C127: textures are changed

    From the bytes read to the bytes written: an arbitrary NSBTX file - alone, or in a
    ROM, or in a possibly compressed archive of a ROM - is loaded, textures and palettes
    are kept, removed, reordered, changed, added and taken over from other files, and it is
    saved.  What is read from the result is what was saved, and nothing else has changed.
    The same for the textures of a model file. *)
From Coq Require Import String.
From Verif Require Import PyBase PyLemmas PyTac ColorModel ColorLemmas FntModel LzModel RomModel NarcModel TexModel TexSpec TexLemmas TexBlock TexProps RomSpec RomEditSpec RomResave RomEditLemmas ViewSpec ViewLzSpec ViewLemmas ViewProps RomProps NarcProps
  RomViewSpec RomViewProps EditSpec EditView EditViewProps EditFile EditBmgSpec EditBmgProps ViewTexSpec ViewTex ViewTexProps NsbmdModel NsbmdLemmas NsbmdProps ViewNsbmdSpec ViewNsbmd ViewNsbmdProps.

(** every byte of the texture was in the file (it may end before: C111_data_refuted) *)
Definition complete (t : texture) : Prop :=
  8 * zlen (txD1 t) = txW t * txH t * texel_bits (txFmt t) /\ (txFmt t = 5 -> 8 * zlen (txD2 t) = txW t * txH t).
(** the textures of some texture or model file *)
Definition from_file (x : tex0) : Prop := exists f, is_bytes f /\ (nsbtx_load f = Ok x \/ exists m, nsbmd_load f = Ok m /\ nTex m = x).
(** [x1] has textures and palettes of files [xs], or new ones that a file can hold; no two
    palettes of it agree in everything but the colours, and those without colours are last *)
Record repainted (xs : list tex0) (x1 : tex0) : Prop := {
  rp_textures : forall p, In p (xTextures x1) -> (exists x, In x xs /\ In p (xTextures x) /\ complete (snd p)) \/ (storable_name p /\ storable_texture (snd p));
  rp_palettes : forall p, In p (xPalettes x1) -> (exists x, In x xs /\ In p (xPalettes x)) \/ (storable_name p /\ storable_palette (snd p));
  rp_distinct : NoDup (map palette_key (xPalettes x1));
  rp_empty : forall l1 p l2 q, xPalettes x1 = l1 ++ p :: l2 -> plColors (snd p) = [] -> In q l2 -> plColors (snd q) = []
}.
Definition reads_as_textures (x1 x' : tex0) : Prop :=
  [x08 x'; x10 x'; x18 x'; x20 x'; x2C x'; x32 x'] = [x08 x1; x10 x1; x18 x1; x20 x1; x2C x1; x32 x1] /\
  xTextures x' = map with_name (xTextures x1) /\ xPalettes x' = map with_name (xPalettes x1).

Lemma name_storable {A} d o e i (a : A) : storable_name (Some (info_name d o e i), a).
Proof.
  unfold storable_name, named, info_name. cbn [fst]. set (b := part d _ 16).
  assert (L : zlen b <= 16) by (subst b; unfold part, zlen; rewrite firstn_length; lia).
  assert (Q : zlen (rstrip 0 b) <= zlen b /\ (rstrip 0 b = [] \/ last (rstrip 0 b) 0 <> 0)). 2: (destruct Q; split; [lia|assumption]).
  clearbody b. clear. induction b as [|x b (IL & IE)]; cbn [rstrip]; [split; [lia|left; reflexivity]|]. rewrite zlen_cons. destruct (rstrip 0 b) as [|y r] eqn:E.
  - destruct (Z.eqb_spec x 0); [split; [unfold zlen; cbn [length]; lia|left; reflexivity]|]. split; [unfold zlen; cbn [length]; lia|right; exact n].
  - split; [rewrite zlen_cons; lia|]. right. destruct IE as [IE|IE]; [discriminate|exact IE].
Qed.
Lemma colours_valid b : Forall valid51 (colours b).
Proof.
  unfold colours. apply Forall_forall. intros c I. apply in_map_iff in I as (k & <- & _). unfold valid51, color5, chan5. cbn [cr cg cb ca].
  set (v := half b _). clearbody v. pose proof (Z.mod_pos_bound (v / 32768) 2 ltac:(lia)). pose proof (Z.mod_pos_bound v 32 ltac:(lia)). pose proof (Z.mod_pos_bound (v / 32) 32 ltac:(lia)). pose proof (Z.mod_pos_bound (v / 1024) 32 ltac:(lia)). lia.
Qed.

Lemma view_storable d x : tex0_view d x ->
  (forall p, In p (xTextures x) -> complete (snd p) -> storable_name p /\ storable_texture (snd p)) /\ (forall p, In p (xPalettes x) -> storable_name p /\ storable_palette (snd p)).
Proof.
  intros [_ VT (_ & VP)]. split.
  - intros p O (C1 & C2). rewrite VT in O. apply in_map_iff in O as (i & <- & _). split; [apply name_storable|]. cbn [snd] in *.
    set (t := texture_at _ i) in *. assert (F : 0 <= txFmt t < 8) by (apply Z.mod_pos_bound; lia). assert (M : 0 <= txMode t < 4) by (apply Z.mod_pos_bound; lia).
    assert (D2 : txFmt t <> 5 -> txD2 t = []) by (intros N; unfold t, texture_at; cbn [txD2]; apply Z.eqb_neq in N; unfold t, texture_at in N; cbn [txFmt] in N; rewrite N; reflexivity).
    clearbody t. unfold storable_texture. split; [lia|]. split; [lia|]. split; [exact C1|].
    destruct (Z.eq_dec (txFmt t) 5) as [E|N]; [rewrite (C2 E), E; change (nth (Z.to_nat 5) [0; 0; 0; 0; 0; 1; 0; 0] 0) with 1; rewrite Z.mul_1_r; reflexivity|].
    rewrite (D2 N). change (8 * zlen []) with 0. assert (K : txFmt t = 0 \/ txFmt t = 1 \/ txFmt t = 2 \/ txFmt t = 3 \/ txFmt t = 4 \/ txFmt t = 6 \/ txFmt t = 7) by lia.
    destruct K as [->|[->|[->|[->|[->|[->| ->]]]]]]; symmetry; apply Z.mul_0_r.
  - intros p O. apply In_nth_error in O as (i & O). destruct p as [n p]. destruct (VP _ _ _ O) as (-> & s & e & _ & _ & ->).
    split; [apply name_storable|]. unfold storable_palette. cbn [snd plColors]. apply colours_valid.
Qed.
Lemma file_storable x : from_file x ->
  (forall p, In p (xTextures x) -> complete (snd p) -> storable_name p /\ storable_texture (snd p)) /\ (forall p, In p (xPalettes x) -> storable_name p /\ storable_palette (snd p)).
Proof.
  intros (f & B & [L|(m & L & <-)]).
  - apply nsbtx_iff in L as (_ & V); [|exact B]. exact (view_storable _ _ V).
  - apply nsbmd_iff in L as (_ & V); [|exact B]. destruct (kind_dec f (block_count f) (asc "TEX0")) as [(j & J)|N]; [exact (view_storable _ _ (vm_tex0 _ _ _ V j J))|].
    rewrite (vm_no_tex0 _ _ _ V N). cbn [xTextures xPalettes]. split; intros p [].
Qed.
Lemma repainted_storable xs x1 : Forall from_file xs -> repainted xs x1 -> storable_textures x1.
Proof.
  intros F [T P ND EL]. rewrite Forall_forall in F. split; [|split; [|split; [exact ND|exact EL]]]; apply Forall_forall; intros p I.
  - destruct (T p I) as [(x & X & O & C)|Q]; [|exact Q]. exact (proj1 (file_storable x (F x X)) p O C).
  - destruct (P p I) as [(x & X & O)|Q]; [|exact Q]. exact (proj2 (file_storable x (F x X)) p O).
Qed.

Theorem C127_edited : forall xs x1 f' post, Forall from_file xs -> repainted xs x1 -> nsbtx_save x1 = Ok f' ->
  exists x', nsbtx_load (f' ++ post) = Ok x' /\ reads_as_textures x1 x'.
Proof.
  intros xs x1 f' post F R SV. destruct (repainted_storable xs x1 F R) as (T & P & ND & EL). eexists. split; [exact (C55_nsbtx_roundtrip x1 f' post T P ND EL SV)|repeat split].
Qed.
Print Assumptions C127_edited.
(** in a model file, whose models stay as they are *)
Theorem C127_model : forall f m mdl xs x1 f' post, is_bytes f -> nsbmd_load f = Ok m -> nMDL0 m = Some mdl -> word mdl 4 = zlen mdl ->
  Forall from_file xs -> repainted xs x1 -> nsbmd_save {| nMDL0 := nMDL0 m; nModels := nModels m; nTex := x1 |} = Ok f' ->
  exists m', nsbmd_load (f' ++ post) = Ok m' /\ nMDL0 m' = Some mdl /\ nModels m' = nModels m /\ reads_as_textures x1 (nTex m').
Proof.
  intros f m mdl xs x1 f' post B L M W F R SV. pose proof (storable_textures_good _ (repainted_storable xs x1 F R)) as G.
  unfold nsbmd_load in L. do 4 (apply bind_ok in L as (? & _ & L)). apply blocks_invariant in L; [|left; split; reflexivity].
  destruct L as [[E _]|(d & n & E1 & E2 & E3)]; [congruence|]. rewrite M in E1. injection E1 as <-. destruct (mdl0_word _ _ E3) as [_ U].
  eexists. split; [exact (nsbmd_roundtrip {| nMDL0 := nMDL0 m; nModels := nModels m; nTex := x1 |} mdl n f' post G M E3 (U W) SV)|]. cbn [nMDL0 nModels nTex]. repeat split. symmetry. exact E2.
Qed.
Print Assumptions C127_model.

(** in a file of a ROM *)
Theorem C127_in_rom : forall depth upd d r p c x xs x1 c' r' data r1, is_bytes d -> 0x200 <= zlen d -> (1 <= depth)%nat -> rom_load depth d = Ok r -> writable_path p ->
  rom_getFileByName r (join_slash p) = Ok c -> nsbtx_load c = Ok x -> Forall from_file xs -> repainted (x :: xs) x1 -> nsbtx_save x1 = Ok c' -> is_bytes c' ->
  rom_setFileByName r (join_slash p) c' = Ok r' -> rom_save upd r' = Ok (data, r1) ->
  zlen (arm9PostData r) mod 12 = 0 -> ~ stored data (word data 0x20 + zlen (arm9 r) + zlen (arm9PostData r)) magic ->
  exists id x', exchanged d data p id c c' /\ nsbtx_load (rom_file data id) = Ok x' /\ reads_as_textures x1 x'.
Proof.
  intros depth upd d r p c x xs x1 c' r' data r1 B L D H W GF LB FX RW SB BC' SF SV PM NM. destruct (rom_exchange depth upd d r p c c' r' data r1 B L D H W GF BC' SF SV PM NM) as (BC & id & X).
  destruct (C127_edited (x :: xs) x1 c' [] (Forall_cons x (ex_intro _ c (conj BC (or_introl LB))) FX) RW SB) as (x' & LB' & R). rewrite app_nil_r in LB'. exists id, x'. split; [exact X|]. split; [|exact R]. destruct X as (_ & _ & _ & _ & _ & -> & _). exact LB'.
Qed.
Print Assumptions C127_in_rom.
(** ... and in a file [q] of an archive, compressed ([z]) or not, that is the file [p] *)
Theorem C127_in_archive : forall depth upd d r p z c a n q f x xs x1 f' n' a' c' r' data r1, is_bytes d -> 0x200 <= zlen d -> (1 <= depth)%nat -> rom_load depth d = Ok r -> writable_path p ->
  rom_getFileByName r (join_slash p) = Ok c -> unpack z c = Ok a -> narc_load depth a = Ok n -> writable_path q -> getFileByName n (join_slash q) = Ok f ->
  nsbtx_load f = Ok x -> Forall from_file xs -> repainted (x :: xs) x1 -> nsbtx_save x1 = Ok f' -> is_bytes f' ->
  setFileByName n (join_slash q) f' = Ok n' -> narc_save n' = Ok a' -> pack z a' = Ok c' -> rom_setFileByName r (join_slash p) c' = Ok r' -> rom_save upd r' = Ok (data, r1) ->
  zlen (arm9PostData r) mod 12 = 0 -> ~ stored data (word data 0x20 + zlen (arm9 r) + zlen (arm9PostData r)) magic ->
  exists id k x', exchanged d data p id c c' /\ holds z c a /\ holds z c' a' /\ exchanged_in a a' q k f f' /\ nsbtx_load (ViewSpec.narc_file a' (Z.to_nat k)) = Ok x' /\ reads_as_textures x1 x'.
Proof.
  intros depth upd d r p z c a n q f x xs x1 f' n' a' c' r' data r1 B L D H W GF U NL WQ GQ LB FX RW SB BF' SQ NSV PK SF SV PM NM.
  assert (BC : is_bytes c). { destruct (C118_by_name depth d r p B L H W) as (GN & _). apply GN in GF as (id & _ & _ & ->). apply ViewLemmas.is_bytes_part; exact B. }
  apply unpack_holds in U as (BA & HO); [|exact BC]. destruct (narc_exchange depth a n q f f' n' a' BA NL WQ GQ BF' SQ NSV) as (BF & BA' & k & X). apply pack_holds in PK as (BC' & HO'); [|exact BA'].
  destruct (rom_exchange depth upd d r p c c' r' data r1 B L D H W GF BC' SF SV PM NM) as (_ & id & Y). destruct (C127_edited (x :: xs) x1 f' [] (Forall_cons x (ex_intro _ f (conj BF (or_introl LB))) FX) RW SB) as (x' & LB' & R). rewrite app_nil_r in LB'.
  exists id, k, x'. split; [exact Y|]. split; [exact HO|]. split; [exact HO'|]. split; [exact X|]. split; [|exact R]. destruct X as (_ & _ & _ & _ & _ & -> & _). exact LB'.
Qed.
Print Assumptions C127_in_archive.

(** the colours of the first palette are changed, the texture is doubled and one is added *)
Definition ex_new_texture : texture := tex_fromFlags 0 0 true true false false 8 8 2 false 1 0 (repeat 0x1B 16) [].
Definition ex_paint (x : tex0) : tex0 :=
  {| x08 := x08 x; x10 := x10 x; x18 := x18 x; x20 := x20 x; x2C := x2C x; x32 := x32 x;
     xTextures := (Some (asc "new"), ex_new_texture) :: xTextures x ++ xTextures x;
     xPalettes := match xPalettes x with q :: l => l ++ [(Some (asc "first"), {| pl00 := 0; pl02 := 0; plH02 := 0; plColors := repeat (C4 1 2 3 1) 8 |})] | [] => [] end |}.
Definition ex_painted : res (tex0 * bytes * tex0) := x <- nsbtx_load (two_palettes "p" "q") ;; f' <- nsbtx_save (ex_paint x) ;; x' <- nsbtx_load (f' ++ [1; 2; 3]) ;; Ok (x, f', x').
Example C127_ex : is_bytes (two_palettes "p" "q") /\
  match ex_painted with Err _ => False | Ok (x, f', x') => repainted [x] (ex_paint x) /\
    map fst (xTextures x') = [Some (asc "new"); Some (asc "tex"); Some (asc "tex")] /\ map (fun p => (fst p, plColors (snd p))) (xPalettes x') =
      [(Some (asc "q"), [C4 1 0 0 0; C4 2 0 0 0; C4 3 0 0 0; C4 4 0 0 0]); (Some (asc "first"), repeat (C4 1 2 3 1) 8)] end.
Proof.
  split; [all_bytes|]. destruct ex_painted as [[[x f'] x']|] eqn:E; [|vm_compute in E; discriminate E]. vm_compute in E. apply SeqRead.ok_inj in E.
  assert (X : x = fst (fst (x, f', x'))) by reflexivity. assert (X' : x' = snd (x, f', x')) by reflexivity. rewrite <- E in X, X'. cbn [fst snd] in X, X'. subst x x'. clear E f'. split; [|split; vm_compute; reflexivity]. constructor.
  - intros p [<-|I]; [right; vm_compute; repeat split; try (right; discriminate); discriminate|]. left. cbn [ex_paint xTextures] in I. apply in_app_or in I.
    eexists. split; [left; reflexivity|]. destruct I as [I|I]; (split; [exact I|]); destruct I as [<-|[]]; vm_compute; split; (reflexivity || discriminate).
  - intros p I. cbn [ex_paint xPalettes app] in I. destruct I as [<-|[<-|[]]]; [left; eexists; split; [left; reflexivity|]; right; left; reflexivity|right]. split; [vm_compute; split; [discriminate|right; discriminate]|]. unfold storable_palette. cbn [snd plColors repeat]. repeat (apply Forall_cons; [repeat split; cbn; lia|]). constructor.
  - vm_compute. repeat constructor; cbn [In]; intros K; repeat destruct K as [K|K]; try discriminate; exact K.
  - intros l1 p l2 q K C. exfalso. assert (I : In p (xPalettes (ex_paint _))) by (rewrite K; apply in_or_app; right; left; reflexivity). cbn [ex_paint xPalettes app] in I. destruct I as [<-|[<-|[]]]; discriminate C.
Qed.
(** the same in the archive of a ROM *)
Definition ex_scenery : bytes :=
  data_of (n <- setFileByName (ex_narc LE) (asc "d/y") (two_palettes "p" "q") ;; a <- narc_save n ;; c <- lz10_compress a ;; r <- rom_setFileByName ex_rom (asc "b") c ;; rom_save false r).
Definition ex_repainted_rom : res (rom * bytes) :=
  r <- rom_load 5 ex_scenery ;; c <- rom_getFileByName r (asc "b") ;; a <- lz10_decompress c ;; n <- narc_load 5 a ;; f <- getFileByName n (asc "d/y") ;;
  x <- nsbtx_load f ;; f' <- nsbtx_save (ex_paint x) ;;
  n' <- setFileByName n (asc "d/y") f' ;; a' <- narc_save n' ;; c' <- lz10_compress a' ;; r' <- rom_setFileByName r (asc "b") c' ;; '(data, _) <- rom_save false r' ;; Ok (r, data).
Example C127_rom_ex : match ex_repainted_rom with Err _ => False | Ok (r, data) =>
    zlen (arm9PostData r) mod 12 = 0 /\ (zlen (arm9 r) + zlen (arm9PostData r)) mod 0x200 <> 0 /\ rom_file data 0 = [100] /\
    match (a <- lz10_decompress (rom_file data 1) ;; nsbtx_load (ViewSpec.narc_file a 1)) with
    | Ok x' => map fst (xTextures x') = [Some (asc "new"); Some (asc "tex"); Some (asc "tex")] | Err _ => False end end.
Proof. vm_compute. repeat split. discriminate. Qed.
(** the textures of a texture file put into a model file after its own *)
Example C127_model_ex : is_bytes three_blocks /\
  match (m <- nsbmd_load three_blocks ;; x <- nsbtx_load (two_palettes "r" "s") ;;
         let x1 := {| x08 := 0; x10 := 1; x18 := 2; x20 := 3; x2C := 4; x32 := 5; xTextures := xTextures (nTex m) ++ xTextures x; xPalettes := xPalettes (nTex m) ++ xPalettes x |} in
         f' <- nsbmd_save {| nMDL0 := nMDL0 m; nModels := nModels m; nTex := x1 |} ;; m' <- nsbmd_load f' ;; Ok (m, m')) with Err _ => False | Ok (m, m') =>
    match nMDL0 m with Some mdl => word mdl 4 = zlen mdl | None => False end /\ nMDL0 m' = nMDL0 m /\ nModels m' = Some [asc "tree"] /\
    map fst (xTextures (nTex m')) = [Some (asc "tex"); Some (asc "tex")] /\ map fst (xPalettes (nTex m')) = [Some (asc "p"); Some (asc "q"); Some (asc "r"); Some (asc "s")] end.
Proof. split; [all_bytes|]. vm_compute. repeat split. Qed.

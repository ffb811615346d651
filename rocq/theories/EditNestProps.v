(** * C132: files in archives in archives

    A file lies in an archive, which lies in another archive, and so on; each of them may be
    compressed. The file is taken out, another one is put in its place, and all the archives
    around it are saved again, from the inside to the outside. *)
From Coq Require Import String.
From Verif Require RomProps NarcProps ColorModel.
From Verif Require Import PyBase PyLemmas PyTac LzModel LzProps FntModel NarcModel RomModel RomSpec ViewSpec ViewLzSpec ViewLzProps ViewLemmas ViewFilesProps
  RomViewSpec RomView RomViewProps EditBytes EditSpec EditView EditBmgSpec EditFile EditBmgProps EditViewProps.

(** the way to a file: for every archive whether it is compressed, and the path in it *)
Definition way := list (bool * list (list Z)).
(** the program: take a file out *)
Fixpoint fetch (depth : nat) (c : bytes) (l : way) : res bytes :=
  match l with
  | [] => Ok c
  | (z, q) :: l => a <- unpack z c ;; n <- narc_load depth a ;; f <- getFileByName n (join_slash q) ;; fetch depth f l
  end.
(** the program: put [v] in its place *)
Fixpoint replace (depth : nat) (c : bytes) (l : way) (v : bytes) : res bytes :=
  match l with
  | [] => Ok v
  | (z, q) :: l => a <- unpack z c ;; n <- narc_load depth a ;; f <- getFileByName n (join_slash q) ;; f' <- replace depth f l v ;;
      n' <- setFileByName n (join_slash q) f' ;; a' <- narc_save n' ;; pack z a'
  end.

(** what the bytes say: at the end of the way is [v] in [c] and [v'] in [c'], and on every
    level all other files are the same *)
Inductive replaced : bytes -> bytes -> way -> bytes -> bytes -> Prop :=
| Here : forall v v', replaced v v' [] v v'
| Inside : forall c c' z q l a a' k f f' v v', holds z c a -> holds z c' a' -> exchanged_in a a' q k f f' -> replaced f f' l v v' -> replaced c c' ((z, q) :: l) v v'.

Lemma saved_loads depth a n q f n' a' : is_bytes a -> narc_load depth a = Ok n -> setFileByName n q f = Ok n' -> narc_save n' = Ok a' -> narc_load depth a' = Ok n'.
Proof.
  intros B H S SV. assert (E : nFilenames n' = nFilenames n).
  { unfold setFileByName in S. apply PyLemmas.bind_ok in S as (i & _ & S). apply PyLemmas.bind_ok in S as (fs & _ & S). injection S as <-. reflexivity. }
  rewrite <- (app_nil_r a'). apply NarcProps.C12_roundtrip; [exact SV| |]; rewrite E.
  - apply (proj1 (read_named (narc_names a) (is_bytes_part _ _ _ B)) _ _ (narc_denotes depth a n B H)).
  - pose proof H as H'. apply C104_read in H' as (_ & _ & _ & N); [|exact B]. exact (load_height _ _ _ _ N).
Qed.
Lemma unpack_pack z a c : is_bytes a -> pack z a = Ok c -> unpack z c = Ok a.
Proof. intros B H. destruct (pack_holds z a c B H) as (BC & HO). destruct z; cbn [unpack holds] in *; [apply C114_lz10; assumption|congruence]. Qed.

(** for any number of levels *)
Theorem C132_replaced : forall depth l c v' c', is_bytes c -> Forall (fun s => writable_path (snd s)) l -> is_bytes v' -> replace depth c l v' = Ok c' ->
  exists v, fetch depth c l = Ok v /\ fetch depth c' l = Ok v' /\ is_bytes c' /\ replaced c c' l v v'.
Proof.
  intros depth l. induction l as [|[z q] l IH]; intros c v' c' B W BV R; cbn [replace fetch] in *.
  { injection R as <-. exists c. repeat split; [exact BV|constructor]. }
  apply Forall_cons_iff in W as (WQ & W). cbn [snd] in WQ. apply PyLemmas.bind_ok in R as (a & U & R). apply PyLemmas.bind_ok in R as (n & NL & R). apply PyLemmas.bind_ok in R as (f & GF & R).
  apply PyLemmas.bind_ok in R as (f' & RF & R). apply PyLemmas.bind_ok in R as (n' & SF & R). apply PyLemmas.bind_ok in R as (a' & SV & PK).
  destruct (unpack_holds _ _ _ B U) as (BA & HO).
  assert (BF : is_bytes f). { destruct (C118_narc_by_name depth a n q BA NL WQ) as (GN & _). apply GN in GF as (id & _ & _ & ->). apply is_bytes_part; exact BA. }
  destruct (IH f v' f' BF W BV RF) as (v & FV & FV' & BF' & RE). destruct (narc_exchange depth a n q f f' n' a' BA NL WQ GF BF' SF SV) as (_ & BA' & k & X).
  destruct (pack_holds _ _ _ BA' PK) as (BC' & HO'). pose proof (saved_loads depth a n _ _ n' a' BA NL SF SV) as NL'.
  exists v. split; [rewrite U; cbn [bind]; rewrite NL; cbn [bind]; rewrite GF; exact FV|]. split; [|split; [exact BC'|exact (Inside _ _ _ _ _ _ _ _ _ _ _ _ HO HO' X RE)]].
  rewrite (unpack_pack _ _ _ BA' PK). cbn [bind]. rewrite NL'. cbn [bind].
  assert (GF' : getFileByName n' (join_slash q) = Ok f').
  { destruct (C118_narc_by_name depth a' n' q BA' NL' WQ) as (GN & _). apply GN. destruct X as (_ & F & K & WK & _ & E & _). exists k. split; [exact F|]. split; [lia|]. symmetry. exact E. }
  rewrite GF'. exact FV'.
Qed.
Print Assumptions C132_replaced.

(** in a ROM *)
Theorem C132_in_rom : forall depth upd d r p l c v' c' r' data r1, is_bytes d -> 0x200 <= zlen d -> (1 <= depth)%nat -> rom_load depth d = Ok r -> writable_path p -> Forall (fun s => writable_path (snd s)) l -> is_bytes v' ->
  rom_getFileByName r (join_slash p) = Ok c -> replace depth c l v' = Ok c' -> rom_setFileByName r (join_slash p) c' = Ok r' -> rom_save upd r' = Ok (data, r1) ->
  zlen (arm9PostData r) mod 12 = 0 -> ~ stored data (word data 0x20 + zlen (arm9 r) + zlen (arm9PostData r)) magic ->
  exists id v, exchanged d data p id c c' /\ replaced (rom_file d id) (rom_file data id) l v v' /\ fetch depth (rom_file d id) l = Ok v /\ fetch depth (rom_file data id) l = Ok v'.
Proof.
  intros depth upd d r p l c v' c' r' data r1 B L D H W WL BV GF R SF SV PM NM.
  assert (BC : is_bytes c). { destruct (C118_by_name depth d r p B L H W) as (GN & _). apply GN in GF as (id & _ & _ & ->). apply is_bytes_part; exact B. }
  destruct (C132_replaced depth l c v' c' BC WL BV R) as (v & FV & FV' & BC' & RE). destruct (rom_exchange depth upd d r p c c' r' data r1 B L D H W GF BC' SF SV PM NM) as (_ & id & X).
  exists id, v. split; [exact X|]. destruct X as (_ & _ & _ & _ & -> & -> & _). repeat split; assumption.
Qed.
Print Assumptions C132_in_rom.

(** any other way is not changed: two ways lead to different places if on some level the same
    archive is entered and different files are taken *)
Inductive apart : bytes -> way -> way -> Prop :=
| Parts : forall c z a q q' k k' l l', holds z c a -> found (narc_names a) 0 q k -> found (narc_names a) 0 q' k' -> k <> k' -> apart c ((z, q) :: l) ((z, q') :: l')
| Deeper : forall c z a q k l l', holds z c a -> found (narc_names a) 0 q k -> k < word a 0x18 -> apart (ViewSpec.narc_file a (Z.to_nat k)) l l' -> apart c ((z, q) :: l) ((z, q) :: l').
Lemma holds_unpack z c a : is_bytes c -> holds z c a -> unpack z c = Ok a.
Proof. intros B H. destruct z; cbn [unpack holds] in *; [apply C114_lz10; assumption|congruence]. Qed.
Theorem C132_others : forall depth l l' c v' c', is_bytes c -> Forall (fun s => writable_path (snd s)) l -> Forall (fun s => writable_path (snd s)) l' -> is_bytes v' -> replace depth c l v' = Ok c' -> apart c l l' ->
  forall w, fetch depth c l' = Ok w -> fetch depth c' l' = Ok w.
Proof.
  intros depth l l' c v' c' B W W' BV R A. revert v' c' B W W' BV R. induction A as [c z a q q' k k' l l' HO F F' NE|c z a q k l l' HO F KK A IH]; intros v' c' B W W' BV R w FW; cbn [replace fetch] in *.
  - apply Forall_cons_iff in W as (WQ & W). apply Forall_cons_iff in W' as (WQ' & W'). cbn [snd] in WQ, WQ'. rewrite (holds_unpack _ _ _ B HO) in R, FW. cbn [bind] in R, FW.
    apply PyLemmas.bind_ok in R as (n & NL & R). apply PyLemmas.bind_ok in R as (f & GF & R). apply PyLemmas.bind_ok in R as (f' & RF & R). apply PyLemmas.bind_ok in R as (n' & SF & R). apply PyLemmas.bind_ok in R as (a' & SV & PK).
    rewrite NL in FW. cbn [bind] in FW. apply PyLemmas.bind_ok in FW as (g & GG & FW). pose proof (proj1 (unpack_holds _ _ _ B (holds_unpack _ _ _ B HO))) as BA.
    destruct (C118_narc_by_name depth a n q' BA NL WQ') as (GN' & _). pose proof GG as GG'. apply GN' in GG' as (j & FJ & JL & ->).
    assert (BF : is_bytes f). { destruct (C118_narc_by_name depth a n q BA NL WQ) as (GN & _). apply GN in GF as (id & _ & _ & ->). apply is_bytes_part; exact BA. }
    destruct (C132_replaced depth l f v' f' BF W BV RF) as (v & _ & _ & BF' & _). destruct (narc_exchange depth a n q f f' n' a' BA NL WQ GF BF' SF SV) as (_ & BA' & i & X).
    pose proof (narc_denotes depth a n BA NL) as D. assert (BT : is_bytes (narc_names a)) by (apply is_bytes_part; exact BA).
    destruct X as (FI & FI' & IR & WK & _ & _ & O). assert (i = k) as -> by (apply (id_found _ q 0 _ D) in F, FI; congruence). assert (j = k') as -> by (apply (id_found _ q' 0 _ D) in FJ, F'; congruence).
    pose proof (found_nonneg _ _ _ _ BT F' _ D) as K0. rewrite (unpack_pack _ _ _ BA' PK). cbn [bind]. pose proof (saved_loads depth a n _ _ n' a' BA NL SF SV) as NL'. rewrite NL'. cbn [bind].
    assert (G2 : getFileByName n' (join_slash q') = Ok (ViewSpec.narc_file a (Z.to_nat k'))).
    { destruct (C118_narc_by_name depth a' n' q' BA' NL' WQ') as (GN & _). apply GN. destruct (C119_narc depth a n [(q, f')] n' a' BA NL) as (g & _ & _ & _ & R1 & _); [constructor; [split; assumption|constructor]| |exact SV|].
      { unfold NarcLemmas.set_all. cbn [map foldM fst snd]. rewrite SF. reflexivity. }
      exists k'. split; [apply R1; exact F'|]. split; [lia|]. symmetry. apply O; [lia|congruence]. }
    rewrite G2. exact FW.
  - apply Forall_cons_iff in W as (WQ & W). apply Forall_cons_iff in W' as (WQ' & W'). cbn [snd] in WQ. rewrite (holds_unpack _ _ _ B HO) in R, FW. cbn [bind] in R, FW.
    apply PyLemmas.bind_ok in R as (n & NL & R). apply PyLemmas.bind_ok in R as (f & GF & R). apply PyLemmas.bind_ok in R as (f' & RF & R). apply PyLemmas.bind_ok in R as (n' & SF & R). apply PyLemmas.bind_ok in R as (a' & SV & PK).
    rewrite NL in FW. cbn [bind] in FW. rewrite GF in FW. cbn [bind] in FW. pose proof (proj1 (unpack_holds _ _ _ B (holds_unpack _ _ _ B HO))) as BA.
    assert (E : f = ViewSpec.narc_file a (Z.to_nat k)).
    { destruct (C118_narc_by_name depth a n q BA NL WQ) as (GN & _). assert (Y : getFileByName n (join_slash q) = Ok (ViewSpec.narc_file a (Z.to_nat k))) by (apply GN; exists k; repeat split; assumption). congruence. }
    assert (BF : is_bytes f) by (rewrite E; apply is_bytes_part; exact BA). rewrite <- E in IH.
    destruct (C132_replaced depth l f v' f' BF W BV RF) as (v & _ & _ & BF' & _). destruct (narc_exchange depth a n q f f' n' a' BA NL WQ GF BF' SF SV) as (_ & BA' & i & X).
    rewrite (unpack_pack _ _ _ BA' PK). cbn [bind]. pose proof (saved_loads depth a n _ _ n' a' BA NL SF SV) as NL'. rewrite NL'. cbn [bind].
    assert (GF' : getFileByName n' (join_slash q) = Ok f').
    { destruct (C118_narc_by_name depth a' n' q BA' NL' WQ) as (GN & _). apply GN. destruct X as (_ & FX & K & WK & _ & EX & _). exists i. split; [exact FX|]. split; [lia|]. symmetry. exact EX. }
    rewrite GF'. cbn [bind]. exact (IH v' f' BF W W' BV RF w FW).
Qed.
Print Assumptions C132_others.

(** an archive in a compressed archive in the ROM of C15: the file "d/y" in the file "x" in the
    file "b" is exchanged, the file "x" beside it is not *)
Definition ex_box (inner : bytes) : res bytes := n <- setFileByName (NarcProps.ex_narc LE) (asc "x") inner ;; narc_save n.
Definition ex_nest : bytes :=
  data_of (i <- narc_save (NarcProps.ex_narc BE) ;; i <- lz10_compress i ;; a <- ex_box i ;; r <- rom_setFileByName RomProps.ex_rom (asc "b") a ;; rom_save false r).
Definition ex_way : way := [(false, [asc "x"]); (true, [asc "d"; asc "y"])].
Definition ex_side : way := [(false, [asc "x"]); (true, [asc "x"])].
Definition ex_deep : res (rom * bytes * bytes * bytes) :=
  r <- rom_load 5 ex_nest ;; c <- rom_getFileByName r (asc "b") ;; c' <- replace 5 c ex_way [8; 9; 10] ;; r' <- rom_setFileByName r (asc "b") c' ;; '(data, _) <- rom_save false r' ;; Ok (r, c, c', data).
Example C132_ex : Forall (fun s => writable_path (snd s)) ex_way /\ Forall (fun s => writable_path (snd s)) ex_side /\
  match ex_deep with Err _ => False | Ok (r, c, c', data) =>
    zlen (arm9PostData r) mod 12 = 0 /\ (zlen (arm9 r) + zlen (arm9PostData r)) mod 0x200 <> 0 /\ rom_file data 0 = [100] /\ rom_file data 1 = c' /\ rom_file data 2 = [102; 102; 102] /\
    fetch 5 c ex_way = Ok [] /\ fetch 5 c' ex_way = Ok [8; 9; 10] /\ fetch 5 c ex_side = Ok [1; 2; 3; 4; 5] /\ fetch 5 c' ex_side = Ok [1; 2; 3; 4; 5] end.
Proof.
  split; [|split]; [| |vm_compute; repeat split; discriminate];
    repeat constructor; cbn; try discriminate; intuition discriminate.
Qed.
(** these two ways part in the inner archive *)
Definition get_ok {A} (d : A) (x : res A) : A := match x with Ok a => a | Err _ => d end.
Definition ex_i : bytes := get_ok [] (m <- narc_save (NarcProps.ex_narc BE) ;; lz10_compress m).
Definition ex_c : bytes := get_ok [] (ex_box ex_i).
Definition ex_n : narc := get_ok (NarcProps.ex_narc LE) (narc_load 5 ex_c).
Definition ex_m : bytes := get_ok [] (narc_save (NarcProps.ex_narc BE)).
Lemma path_x : writable_path [asc "x"].
Proof. repeat constructor; cbn; try discriminate; intuition discriminate. Qed.
Example C132_apart_ex : is_bytes ex_c /\ apart ex_c ex_way ex_side /\ fetch 5 ex_c ex_side = Ok [1; 2; 3; 4; 5] /\ match replace 5 ex_c ex_way [8; 9; 10] with Ok c' => c' <> ex_c | Err _ => False end.
Proof.
  assert (B : is_bytes ex_c) by (apply Forall_forall; intros x X; apply (proj1 (forallb_forall byteb ex_c)) in X; [unfold byteb in X; unfold is_byte; lia|vm_compute; reflexivity]).
  split; [exact B|]. split; [|split; [vm_compute; reflexivity|vm_compute; discriminate]].
  assert (NL : narc_load 5 ex_c = Ok ex_n) by (vm_compute; reflexivity). assert (GX : getFileByName ex_n (join_slash [asc "x"]) = Ok ex_i) by (vm_compute; reflexivity).
  assert (UI : unpack true ex_i = Ok ex_m) by (vm_compute; reflexivity). assert (NM : narc_load 5 ex_m = Ok (NarcProps.ex_narc BE)) by (vm_compute; reflexivity).
  pose proof path_x as WX.
  destruct (C118_narc_by_name 5 ex_c ex_n _ B NL WX) as (GN & _). apply GN in GX as (k & FK & KL & EI).
  assert (BI : is_bytes ex_i) by (rewrite EI; apply is_bytes_part; exact B). destruct (unpack_holds _ _ _ BI UI) as (BM & HM).
  apply (Deeper ex_c false ex_c _ k); [reflexivity|exact FK|exact KL|]. change (ViewSpec.narc_file ex_c (Z.to_nat k)) with (narc_file ex_c (Z.to_nat k)). rewrite <- EI. pose proof (narc_denotes 5 ex_m _ BM NM) as D.
  apply (Parts ex_i true ex_m _ _ 1 0); [exact HM| | |discriminate]; apply (id_found _ _ 0 _ D); vm_compute; reflexivity.
Qed.

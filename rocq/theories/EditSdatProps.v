(** * C120: sound archives are changed

    From the bytes read to the bytes written: an arbitrary sound archive (of a ROM, or
    not) is loaded, changed in any way and saved.  If that succeeds, then the file
    written can be read, and gives what was saved. *)
From Coq Require Import String.
From Verif Require Import PyBase PyLemmas PyTac FntModel LzModel WaveModel SeqModel SsarModel SbnkModel SdatModel RomModel RomSpec RomEditSpec SbnkSpec SbnkProps SbnkInaccProps SdatSpec SdatLayout SdatSave SdatProps ViewSpec ViewLzSpec ViewLemmas ViewSdatSpec ViewSdatProps
  RomResave RomEditLemmas RomProps ViewProps RomViewSpec RomView RomViewProps EditSpec EditView EditViewProps EditSdatSpec EditSdat.

(** every instrument of a bank that was read (listed, or found between the others) can be
    written *)
Theorem C120_bank_read : forall order d u w b i, is_bytes d -> sbnk_load order d u w = Ok b -> member b i -> expressible (iBody i).
Proof. exact bank_loaded. Qed.
Print Assumptions C120_bank_read.
(** and a bank of such instruments is read as it was saved, whatever follows its file *)
Theorem C120_bank : forall order b d u w wars post, (forall i, member b i -> expressible (iBody i)) -> sbnk_save b = Ok (d, u, w) ->
  u = bUnk b /\ w = bWars b /\ exists b', sbnk_load order (d ++ post) u wars = Ok b' /\ map (option_map iBody) (bInsts b') = map (option_map iBody) (bInsts b) /\
    bUnk b' = u /\ bWars b' = match wars with Some l => strip_none l | None => [] end.
Proof. exact bank_saved. Qed.
Print Assumptions C120_bank.

Theorem C120_edited : forall order order' d s s1 d', is_bytes d -> sdat_load order d = Ok s -> made_from s s1 -> sdat_save s1 = Ok d' ->
  exists s', sdat_load order' d' = Ok s' /\ same_entries d' s1 s'.
Proof.
  intros order order' d s s1 d' B H M S. pose proof (made_readable s s1 (loaded_readable order d s B H) M) as R. destruct (sdat_save_inv s1 d' S) as (y & bss & FS & o1 & o2 & o3 & SV).
  destruct (read_back s1 d' y bss FS o1 o2 o3 SV order' R) as (s' & E & _ & C). exists s'. split; assumption.
Qed.
Print Assumptions C120_edited.
(** in particular, without a change *)
Theorem C120_resaved : forall order order' d s d', is_bytes d -> sdat_load order d = Ok s -> sdat_save s = Ok d' -> exists s', sdat_load order' d' = Ok s' /\ same_entries d' s s'.
Proof.
  intros order order' d s d' B H. apply (C120_edited order order' d s s d' B H). constructor; intros; left.
  - assumption.
  - exists n, m, b. split; assumption.
  - exists n, l. split; assumption.
  - exists n, m. assumption.
Qed.
Print Assumptions C120_resaved.
(** the archive is, compressed or not, a file of a ROM *)
Theorem C120_in_rom : forall depth upd order order' d r p z c a s s1 a' c' r' data r1, is_bytes d -> 0x200 <= zlen d -> (1 <= depth)%nat -> rom_load depth d = Ok r -> writable_path p ->
  rom_getFileByName r (join_slash p) = Ok c -> unpack z c = Ok a -> sdat_load order a = Ok s -> made_from s s1 -> sdat_save s1 = Ok a' -> is_bytes a' ->
  pack z a' = Ok c' -> rom_setFileByName r (join_slash p) c' = Ok r' -> rom_save upd r' = Ok (data, r1) ->
  zlen (arm9PostData r) mod 12 = 0 -> ~ stored data (word data 0x20 + zlen (arm9 r) + zlen (arm9PostData r)) magic ->
  exists id s', found (fnt_part d) 0 p id /\ found (fnt_part data) 0 p id /\ holds z (rom_file d id) a /\ holds z (rom_file data id) a' /\
    sdat_load order' a' = Ok s' /\ same_entries a' s1 s' /\ (forall i, 0 <= i -> i <> id -> has_file d i -> has_file data i /\ rom_file data i = rom_file d i).
Proof.
  intros depth upd order order' d r p z c a s s1 a' c' r' data r1 B L D H W GF U NL M NS BA' PK SF SV PM NM.
  destruct (C118_by_name depth d r p B L H W) as (GN & _). apply GN in GF as (id & F & HF & EC). assert (BC : is_bytes c) by (rewrite EC; apply is_bytes_part; exact B).
  apply unpack_holds in U as (BA & HO); [|exact BC]. destruct (C120_edited order order' a s s1 a' BA NL M NS) as (s' & E & C).
  apply pack_holds in PK as (BC' & HO'); [|exact BA'].
  destruct (C119_rom depth upd d r [(p, c')] r' data r1 B L D H) as (h & E' & _ & R1 & R2 & _); [constructor; [split; assumption|constructor]| |exact SV|exact PM|exact NM|].
  { unfold rom_set_all. cbn [map foldM fst snd]. rewrite SF. reflexivity. }
  inversion E' as [|f0 p0 v0 ops0 id' g0 F' HF' E'' X1 X2 X3]; subst. inversion E'' as [f0 Y1 Y2 Y3|]; subst. assert (id' = id) as -> by (exact (found_once depth d r B L H p id' id F' F)).
  pose proof (name_nonneg depth d r B L H p id F) as I0. exists id, s'. split; [exact F|]. split; [apply R1; exact F|]. split; [exact HO|]. split.
  { destruct (R2 id I0) as (_ & Q). rewrite (Q HF), Z.eqb_refl. exact HO'. }
  split; [exact E|]. split; [exact C|]. intros i I NI HI. destruct (R2 i I) as (Q1 & Q2). split; [apply Q1; exact HI|]. rewrite (Q2 HI). rewrite (proj2 (Z.eqb_neq i id) NI). reflexivity.
Qed.
Print Assumptions C120_in_rom.

(** the archive of C60 is read, its third sequence is exchanged, a group with a name is
    added, and the result is saved and read again *)
Definition ex_new (s : sdat) : sdat :=
  {| dSeqs := upd (dSeqs s) 2 (Some [66; 67], Some (1, ex_seq [0x80; 9; 0xFF; 0])); dArchs := dArchs s; dBanks := dBanks s; dWars := dWars s; dPlayers := dPlayers s;
     dGroups := dGroups s ++ [(Some [77], Some ex_group)]; dSPlayers := dSPlayers s; dStrms := dStrms s;
     firstAlign := firstAlign s; fileAlign := fileAlign s; fatPad := fatPad s; padEnd := padEnd s; padSymb := padSymb s |}.
Lemma in_upd {A} (x y : A) l : forall n, In y (upd l n x) -> In y l \/ y = x.
Proof. induction l as [|a l IH]; intros [|n] I; cbn [upd] in I; [destruct I|destruct I|destruct I as [<-|I]; [right; reflexivity|left; right; exact I]|]. destruct I as [<-|I]; [left; left; reflexivity|]. destruct (IH n I) as [J|J]; [left; right; exact J|right; exact J]. Qed.
Lemma ex_made s : made_from s (ex_new s).
Proof.
  constructor.
  - unfold names. cbn [ex_new dSeqs dArchs dBanks dWars dPlayers dGroups dSPlayers dStrms]. intros n I. rewrite !in_app_iff in *. rewrite map_app, in_app_iff in I.
    destruct I as [I|[I|[I|[I|[I|[[I|I]|I]]]]]]; try (left; tauto); [|destruct I as [<-|[]]; right; cbn; intuition discriminate].
    apply in_map_iff in I as (e & <- & I). apply in_upd in I as [I| ->]; [left; left; apply in_map; exact I|right; cbn; intuition discriminate].
  - intros n m b i I M. left. exists n, m, b. split; assumption.
  - intros n l g I G. cbn [ex_new dGroups] in I. apply in_app_or in I as [I|[I|[]]]; [left; exists n, l; split; assumption|]. right. injection I as <- <-. destruct G as [<-|[<-|[]]]; cbn; lia.
  - intros n m x I. left. exists n, m. exact I.
Qed.
Example C120_ex : is_bytes SdatProps.ex_file /\ (forall s, made_from s (ex_new s)) /\
  match (s <- sdat_load [1; 16; 17] SdatProps.ex_file ;; d' <- sdat_save (ex_new s) ;; s' <- sdat_load [] d' ;; Ok (s, s')) with Err _ => False | Ok (s, s') =>
    map (fun e => option_map (fun x => qData (snd x)) (snd e)) (dSeqs s) = [Some [0x80; 5; 0xFF]; None; Some [0xFF]; Some [0x80; 5; 0xFF]] /\
    map (fun e => option_map (fun x => qData (snd x)) (snd e)) (dSeqs s') = [Some [0x80; 5; 0xFF]; None; Some [0x80; 9; 0xFF; 0]; Some [0x80; 5; 0xFF]] /\
    map fst (dGroups s') = [None; Some [74]; Some [77]] /\ map fst (dWars s') = map fst (dWars s) /\ dStrms s' = dStrms s end.
Proof. split; [all_bytes|]. split; [exact ex_made|]. vm_compute. repeat split. Qed.
(** the same in a ROM, where the archive is compressed *)
Definition ex_build : res (bytes * rom) := c <- lz10_compress SdatProps.ex_file ;; r <- rom_setFileByName ex_rom (asc "b") c ;; rom_save false r.
Definition data_of (x : res (bytes * rom)) : bytes := match x with Ok p => fst p | Err _ => [] end.
Definition ex_house : bytes := data_of ex_build.
Definition ex_change : res (rom * bytes) :=
  r <- rom_load 5 ex_house ;; c <- rom_getFileByName r (asc "b") ;; a <- lz10_decompress c ;; s <- sdat_load [] a ;; a' <- sdat_save (ex_new s) ;; c' <- lz10_compress a' ;;
  r' <- rom_setFileByName r (asc "b") c' ;; '(data, _) <- rom_save false r' ;; Ok (r, data).
Example C120_rom_ex : match ex_change with Err _ => False | Ok (r, data) =>
    zlen (arm9PostData r) mod 12 = 0 /\ (zlen (arm9 r) + zlen (arm9PostData r)) mod 0x200 <> 0 /\ rom_file data 0 = [100] /\ rom_file data 2 = [102; 102; 102] /\
    match (a <- lz10_decompress (rom_file data 1) ;; sdat_load [] a) with Ok s' => map fst (dGroups s') = [None; Some [74]; Some [77]] | Err _ => False end end.
Proof. vm_compute. repeat split. discriminate. Qed.

(** * Sound archives *)
From Coq Require Import String.
From Verif Require Import PyBase PyLemmas WaveModel WaveProps SeqModel SsarModel SbnkModel SbnkProps RomSpec SdatModel SdatSave SdatSpec SdatLayout SdatReload SdatRound.

(** ** C44: files *)

(** every sequence, sequence archive, bank, wave archive and stream has a file ID,
    under which exactly its saved bytes are found, aligned, inside the FILE block *)
Theorem C44_file_stored : forall s d k j f m, sdat_save s = Ok d -> saves_as s k j f m ->
  let i := file_id d k j in
  0 < entry_offset d k j /\ 0 <= i < file_count d /\
  stored d (file_start d i) f /\ (fileAlign s | file_start d i) /\ word d 0x28 + 0xC <= file_start d i /\
  (if fatPad s then zlen f <= file_length d i < zlen f + Z.abs (fileAlign s) /\ (fileAlign s | file_length d i) else file_length d i = zlen f).
Proof.
  intros s d k j f m H S. destruct (sdat_save_inv s d H) as (y & bss & FS & o1 & o2 & o3 & SV). cbv zeta.
  split; [exact (proj1 (saves_refers s d y bss FS o1 o2 o3 SV _ _ _ _ S))|]. split; [exact (id_range s d y bss FS o1 o2 o3 SV _ _ _ _ S)|]. exact (file_ok s d y bss FS o1 o2 o3 SV _ _ _ _ S).
Qed.
Print Assumptions C44_file_stored.

(** two objects, of the same or different kinds, share a file exactly when the
    bytes and the merge IDs are the same *)
Theorem C44_sharing : forall s d k j f m k' j' f' m', sdat_save s = Ok d -> saves_as s k j f m -> saves_as s k' j' f' m' ->
  (file_id d k j = file_id d k' j' <-> f = f' /\ m = m').
Proof. intros s d k j f m k' j' f' m' H. destruct (sdat_save_inv s d H) as (y & bss & FS & o1 & o2 & o3 & SV). exact (sharing s d y bss FS o1 o2 o3 SV _ _ _ _ _ _ _ _). Qed.
Print Assumptions C44_sharing.

Theorem C44_no_overlap : forall s d i i', sdat_save s = Ok d -> 0 <= i < i' -> i' < file_count d -> file_start d i + file_length d i <= file_start d i'.
Proof. intros s d i i' H. destruct (sdat_save_inv s d H) as (y & bss & FS & o1 & o2 & o3 & SV). exact (no_overlap s d y bss FS o1 o2 o3 SV i i'). Qed.
Print Assumptions C44_no_overlap.

(** there are no other files *)
Theorem C44_all_used : forall s d i, sdat_save s = Ok d -> 0 <= i < file_count d -> exists k j f m, saves_as s k j f m /\ file_id d k j = i.
Proof. intros s d i H. destruct (sdat_save_inv s d H) as (y & bss & FS & o1 & o2 & o3 & SV). exact (all_used s d y bss FS o1 o2 o3 SV i). Qed.
Print Assumptions C44_all_used.

(** what the loader cuts out for an object: its bytes, then zeros up to the
    alignment, none unless the lengths include padding *)
Theorem C44_file_view : forall s d k j f m, sdat_save s = Ok d -> saves_as s k j f m ->
  exists z, 0 <= z < Z.abs (fileAlign s) /\ file_view d (file_id d k j) = f ++ zeros z /\ (fatPad s = false -> z = 0).
Proof. intros s d k j f m H. destruct (sdat_save_inv s d H) as (y & bss & FS & o1 & o2 & o3 & SV). exact (views_file s d y bss FS o1 o2 o3 SV k j f m). Qed.
Print Assumptions C44_file_view.

(** ** C59: the INFO block *)
Theorem C59_counts : forall s d k, sdat_save s = Ok d -> (k < 8)%nat -> entry_count d k = part_length s k.
Proof. intros s d k H. destruct (sdat_save_inv s d H) as (y & bss & FS & o1 & o2 & o3 & SV). exact (counts s d y bss FS o1 o2 o3 SV k). Qed.
Print Assumptions C59_counts.
Theorem C59_none : forall s d k j p, sdat_save s = Ok d -> present s k j = Some p -> (entry_offset d k j = 0 <-> p = false).
Proof. intros s d k j p H. destruct (sdat_save_inv s d H) as (y & bss & FS & o1 & o2 & o3 & SV). exact (parts_present s d y bss FS o1 o2 o3 SV k j p). Qed.
Print Assumptions C59_none.
Theorem C59_sequences : forall s d j n m x f u b v cp pp pl, sdat_save s = Ok d ->
  nth_error (dSeqs s) j = Some (n, Some (m, x)) -> sseq_save x = Ok (f, (u, b, v, cp, pp, pl)) -> let p := entry d 0 j in
  half d (p + 2) = u /\ half d (p + 4) = b /\ byte d (p + 6) = v /\ byte d (p + 7) = cp /\ byte d (p + 8) = pp /\ byte d (p + 9) = pl.
Proof. intros s d j n m x f u b v cp pp pl H. destruct (sdat_save_inv s d H) as (y & bss & FS & o1 & o2 & o3 & SV). exact (seq_fields s d y bss FS o1 o2 o3 SV j n m x f u b v cp pp pl). Qed.
Print Assumptions C59_sequences.
Theorem C59_sequence_archives : forall s d j n m x f u l, sdat_save s = Ok d ->
  nth_error (dArchs s) j = Some (n, Some (m, x)) -> ssar_save x = Ok (f, u, l) -> half d (entry d 1 j + 2) = u.
Proof. intros s d j n m x f u l H. destruct (sdat_save_inv s d H) as (y & bss & FS & o1 & o2 & o3 & SV). exact (arch_fields s d y bss FS o1 o2 o3 SV j n m x f u l). Qed.
Print Assumptions C59_sequence_archives.
(** a bank has up to four wave archive IDs; None, and those missing, are -1 *)
Theorem C59_banks : forall s d j n m x f u l, sdat_save s = Ok d ->
  nth_error (dBanks s) j = Some (n, Some (m, x)) -> sbnk_save x = Ok (f, u, l) -> let p := entry d 2 j in
  half d (p + 2) = u /\ zlen l <= 4 /\ forall i, 0 <= i < 4 -> short d (p + 4 + 2 * i) = match nth_error l (Z.to_nat i) with Some (Some w) => w | _ => -1 end.
Proof. intros s d j n m x f u l H. destruct (sdat_save_inv s d H) as (y & bss & FS & o1 & o2 & o3 & SV). exact (bank_fields s d y bss FS o1 o2 o3 SV j n m x f u l). Qed.
Print Assumptions C59_banks.
Theorem C59_wave_archives : forall s d j n m x f u, sdat_save s = Ok d ->
  nth_error (dWars s) j = Some (n, Some (m, x)) -> swar_save x = Ok (f, u) -> half d (entry d 3 j + 2) = u.
Proof. intros s d j n m x f u H. destruct (sdat_save_inv s d H) as (y & bss & FS & o1 & o2 & o3 & SV). exact (war_fields s d y bss FS o1 o2 o3 SV j n m x f u). Qed.
Print Assumptions C59_wave_archives.
Theorem C59_streams : forall s d j n m x f u v pr pl u7, sdat_save s = Ok d ->
  nth_error (dStrms s) j = Some (n, Some (m, x)) -> strm_save0 x = Ok (f, (u, v, pr, pl, u7)) -> let p := entry d 7 j in
  half d (p + 2) = u /\ byte d (p + 4) = v /\ byte d (p + 5) = pr /\ byte d (p + 6) = pl /\ byte d (p + 7) = u7.
Proof. intros s d j n m x f u v pr pl u7 H. destruct (sdat_save_inv s d H) as (y & bss & FS & o1 & o2 & o3 & SV). exact (strm_fields s d y bss FS o1 o2 o3 SV j n m x f u v pr pl u7). Qed.
Print Assumptions C59_streams.
(** bit [i] of the mask: channel [i] is in the set *)
Theorem C59_players : forall s d j n a c h, sdat_save s = Ok d -> nth_error (dPlayers s) j = Some (n, Some (a, c, h)) -> let p := entry d 4 j in
  half d p = a /\ word d (p + 4) = h /\ forall i, 0 <= i -> (Z.testbit (half d (p + 2)) i = true <-> i < 16 /\ In i c).
Proof. intros s d j n a c h H. destruct (sdat_save_inv s d H) as (y & bss & FS & o1 & o2 & o3 & SV). exact (player_fields s d y bss FS o1 o2 o3 SV j n a c h). Qed.
Print Assumptions C59_players.
Theorem C59_groups : forall s d j n l i g, sdat_save s = Ok d ->
  nth_error (dGroups s) j = Some (n, Some l) -> nth_error l i = Some g -> let p := entry d 5 j in
  word d p = zlen l /\ let q := p + 4 + 8 * Z.of_nat i in
  byte d q = gType g /\ half d (q + 1) = (if gLoadSSEQ g then 1 else 0) + (if gSwarIds g then 2 else 0) + (if gLoadSWAR g then 4 else 0) + (if gLoadSSAR g then 8 else 0) /\ word d (q + 4) = gId g.
Proof. intros s d j n l i g H. destruct (sdat_save_inv s d H) as (y & bss & FS & o1 & o2 & o3 & SV). exact (group_fields_at s d y bss FS o1 o2 o3 SV j n l i g). Qed.
Print Assumptions C59_groups.
Theorem C59_stream_players : forall s d j n l, sdat_save s = Ok d ->
  nth_error (dSPlayers s) j = Some (n, Some l) -> stored d (entry d 6 j) (zlen l :: l ++ rep 0xFF (16 - zlen l) ++ zeros 4).
Proof. intros s d j n l H. destruct (sdat_save_inv s d H) as (y & bss & FS & o1 & o2 & o3 & SV). exact (splayer_fields s d y bss FS o1 o2 o3 SV j n l). Qed.
Print Assumptions C59_stream_players.

(** ** C60: loading what was saved *)

(** exactly what the loader makes of it, and exactly when it succeeds: see
    [reloaded] in SdatSpec.v *)
Theorem C60_reload : forall order s d s', sdat_save s = Ok d -> Forall nul_free (names s) ->
  (sdat_load order d = Ok s' <-> reloaded order d s s').
Proof.
  intros order s d s' H N. destruct (sdat_save_inv s d H) as (y & bss & FS & o1 & o2 & o3 & SV).
  apply (reload_iff s d y bss FS o1 o2 o3 SV). rewrite names_eq. exact N.
Qed.
Print Assumptions C60_reload.

(** with banks and streams that can be loaded it always succeeds, and every object is
    the same: see [loadable] and [same_contents] in SdatRound.v *)
Theorem C60_roundtrip : forall order s d, sdat_save s = Ok d -> loadable s ->
  exists s', sdat_load order d = Ok s' /\ same_contents d s s'.
Proof.
  intros order s d H L. destruct (sdat_save_inv s d H) as (y & bss & FS & o1 & o2 & o3 & SV).
  destruct (roundtrip s d y bss FS o1 o2 o3 SV order L) as (s' & E & _ & C). exists s'. split; assumption.
Qed.
Print Assumptions C60_roundtrip.

Definition ex_seq (d : bytes) : sseq := {| qParsed := false; qEvents := []; qData := d; qInfo := (1, 2, 100, 64, 50, 3) |}.
Definition ex_ssar : ssar :=
  {| rParsed := false; rEvents := []; rData := [0x80; 5; 0xFF]; rUnk := 4;
     rSeqs := [(Some [97; 98], aseq_unparsed (Some 0) (1, 2, 3, 4, 5)); (None, aseq_unparsed (Some 2) (6, 7, 8, 9, 10))] |}.
Definition ex_swar : swar := {| rWaves := [ex_swav; ex_swav2]; rUnk02 := 7 |}.
Definition ex_group : list groupEntry :=
  [{| gType := 0; gId := 1; gLoadSSEQ := true; gSwarIds := false; gLoadSWAR := true; gLoadSSAR := false |};
   {| gType := 3; gId := 70000; gLoadSSEQ := false; gSwarIds := true; gLoadSWAR := false; gLoadSSAR := true |}].
Definition ex_sdat : sdat :=
  {| dSeqs := [(Some [65], Some (0, ex_seq [0x80; 5; 0xFF])); (None, None); (Some [66; 67], Some (0, ex_seq [0xFF])); (None, Some (0, ex_seq [0x80; 5; 0xFF]))];
     dArchs := [(Some [68], Some (0, ex_ssar)); (Some [69], None)];
     dBanks := [(None, Some (0, demo_bank))];
     dWars := [(Some [70], Some (0, ex_swar)); (Some [71], Some (1, ex_swar)); (Some [72], Some (0, ex_swar))];
     dPlayers := [(Some [73], Some (3, [15; 0; 2], 0x12345)); (None, None)];
     dGroups := [(None, Some ex_group); (Some [74], Some [])];
     dSPlayers := [(None, Some [0; 1]); (None, None); (None, Some [7])];
     dStrms := [(Some [75; 76], Some (0, ex_strm PCM8 ex_chans))];
     fatPad := false; firstAlign := Some 0x40; fileAlign := 0x20; padEnd := true; padSymb := true |}.
Definition ex_file : bytes := Eval vm_compute in match sdat_save ex_sdat with Ok d => d | Err _ => [] end.
Lemma ex_save : sdat_save ex_sdat = Ok ex_file.
Proof. vm_compute. reflexivity. Qed.
Lemma ex_loadable : loadable ex_sdat.
Proof.
  constructor.
  - apply Forall_forall. intros [n|] H; [|exact I]. cbn in H.
    repeat (destruct H as [H|H]; [try discriminate H; try (injection H as <-; cbn; intros C; repeat (destruct C as [C|C]; [discriminate C|]); exact C)|]). destruct H.
  - intros n m b [H|[]]. injection H as <- <- <-. exact (proj1 C42_bank_ex).
  - intros n l g [H|[H|[]]]; injection H as <- <-; intros [G|[G|[]]] || intros []; subst g; cbn; lia.
  - intros n m x [H|[]]. injection H as <- <- <-. reflexivity.
Qed.

(** the first, third and fourth objects that save the same bytes share a file; the
    second wave archive has another merge ID *)
Example C44_ex : sdat_save ex_sdat = Ok ex_file /\ file_count ex_file = 7 /\
  map (file_id ex_file 0) [0; 2; 3]%nat = [0; 1; 0] /\ file_id ex_file 1 0 = 2 /\ file_id ex_file 2 0 = 3 /\ map (file_id ex_file 3) [0; 1; 2]%nat = [4; 5; 4] /\
  file_id ex_file 7 0 = 6 /\ file_start ex_file 0 mod 0x40 = 0 /\ file_start ex_file 1 mod 0x40 = 0x20 /\
  (exists f, saves_as ex_sdat 0 0 f 0 /\ saves_as ex_sdat 0 3 f 0 /\ file_view ex_file 0 = f) /\
  (exists f, saves_as ex_sdat 3 0 f 0 /\ saves_as ex_sdat 3 1 f 1).
Proof.
  split; [exact ex_save|]. do 8 (split; [vm_compute; reflexivity|]). split.
  - eexists. split; [do 3 eexists; split; [reflexivity|vm_compute; reflexivity]|]. split; [do 3 eexists; split; [reflexivity|vm_compute; reflexivity]|]. vm_compute. reflexivity.
  - eexists. split; do 3 eexists; (split; [reflexivity|vm_compute; reflexivity]).
Qed.
Example C59_ex : map (entry_count ex_file) [0; 1; 2; 3; 4; 5; 6; 7]%nat = [4; 2; 1; 3; 2; 2; 3; 1] /\
  present ex_sdat 0 1 = Some false /\ entry_offset ex_file 0 1 = 0 /\ present ex_sdat 6 2 = Some true /\ 0 < entry_offset ex_file 6 2 /\
  half ex_file (entry ex_file 0 2 + 4) = 2 /\ byte ex_file (entry ex_file 0 2 + 6) = 100 /\
  map (fun i => short ex_file (entry ex_file 2 0 + 4 + 2 * i)) [0; 1; 2; 3] = [2; -1; 3; -1] /\
  half ex_file (entry ex_file 4 0 + 2) = 0x8005 /\ half ex_file (entry ex_file 5 0 + 4 + 8 + 1) = 10 /\ word ex_file (entry ex_file 5 0 + 4 + 8 + 4) = 70000 /\
  (* five wave archives *)
  sdat_save {| dSeqs := []; dArchs := []; dBanks := [(None, Some (0, sbnk_fromInstruments [] 0 (Some [Some 1; Some 2; Some 3; Some 4; Some 5])))]; dWars := []; dPlayers := []; dGroups := []; dSPlayers := []; dStrms := [];
     fatPad := false; firstAlign := None; fileAlign := 0x20; padEnd := true; padSymb := false |} = Err ValueError.
Proof. do 11 (split; [vm_compute; reflexivity|]). vm_compute. reflexivity. Qed.
Example C60_ex : sdat_save ex_sdat = Ok ex_file /\ loadable ex_sdat /\
  exists s', sdat_load [1; 16; 17] ex_file = Ok s' /\ dWars s' = [(Some [70], Some (4, ex_swar)); (Some [71], Some (5, ex_swar)); (Some [72], Some (4, ex_swar))] /\
    dPlayers s' = [(Some [73], Some (3, [0; 2; 15], 0x12345)); (None, None)] /\ dStrms s' = [(Some [75; 76], Some (6, ex_strm PCM8 ex_chans))] /\
    map fst (dSeqs s') = map fst (dSeqs ex_sdat) /\ fileAlign s' = 0x20 /\ firstAlign s' = Some 0x100 /\ fatPad s' = false /\ padEnd s' = true /\ padSymb s' = true /\
    sdat_save s' = Ok ex_file.
Proof.
  split; [exact ex_save|]. split; [exact ex_loadable|]. eexists. split; [vm_compute; reflexivity|]. do 9 (split; [vm_compute; reflexivity|]). vm_compute. reflexivity.
Qed.

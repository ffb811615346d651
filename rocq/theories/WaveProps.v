(** * Sound waves, wave archives, streams and group entries *)
From Coq Require Import String.
From Verif Require Import PyBase PyLemmas WaveModel WaveLemmas.

(** C34: SWAV.  [swav_ok w]: 16-bit rate, time and loop offset, total length at least
    the loop offset and less than 2^32 above it, file size below 2^32. *)
Theorem C34_swav_roundtrip : forall w post, swav_ok w ->
  exists d, swav_save0 w = Ok d /\ zlen d = 0x24 + zlen (wData w) /\ swav_load (d ++ post) = Ok w.
Proof. exact swav_roundtrip. Qed.
Print Assumptions C34_swav_roundtrip.

(** whatever can be saved, with or without the update options, loads back as the
    object left behind by save *)
Theorem C34_swav_save_options : forall w ut ul w' d post, swav_save w ut ul = Ok (w', d) ->
  swav_load (d ++ post) = Ok w' /\ zlen d = 0x24 + zlen (wData w) /\
  w' = {| wType := wType w; wLooped := wLooped w; wRate := wRate w; wTime := if ut then Z.quot 16756991 (wRate w) else wTime w;
          wLoop := wLoop w; wTotal := if ul then zlen (wData w) / 4 else wTotal w; wData := wData w |}.
Proof. exact swav_roundtrip_upd. Qed.
Print Assumptions C34_swav_save_options.

(** the objects that can be saved are exactly the [swav_ok] ones *)
Theorem C34_swav_savable : forall w d, swav_save0 w = Ok d -> swav_ok w.
Proof. intros w d H. exact (proj1 (swav_save0_inv w d H)). Qed.
Print Assumptions C34_swav_savable.

(** every loaded SWAV can be saved again *)
Theorem C34_swav_loaded : forall d w, is_bytes d -> swav_load d = Ok w -> swav_ok w.
Proof. exact swav_load_ok. Qed.
Print Assumptions C34_swav_loaded.

Theorem C34_swav_bad_loop : forall w, wTotal w < wLoop w -> swav_save0 w = Err ValueError.
Proof. exact swav_save0_loop. Qed.
Print Assumptions C34_swav_bad_loop.

Definition ex_swav : swav :=
  {| wType := ADPCM; wLooped := true; wRate := 32728; wTime := 511; wLoop := 2; wTotal := 70000; wData := [1; 2; 3; 4; 5; 250; 7] |}.
Definition ex_swav2 : swav :=
  {| wType := PCM16; wLooped := false; wRate := 8000; wTime := 0; wLoop := 0; wTotal := 0; wData := [] |}.
Example C34_ex : swav_ok ex_swav /\
  (exists d, swav_save0 ex_swav = Ok d /\ slice d 0 4 = asc "SWAV" /\ swav_load (d ++ [9; 9]) = Ok ex_swav) /\
  (exists w d, swav_save ex_swav2 true true = Ok (w, d) /\ wTime w = 2094) /\
  swav_save0 {| wType := PCM8; wLooped := true; wRate := 1; wTime := 1; wLoop := 5; wTotal := 4; wData := [1] |} = Err ValueError.
Proof.
  split; [repeat split; vm_compute; congruence|]. split.
  { eexists. split; [vm_compute; reflexivity|]. split; [vm_compute; reflexivity|vm_compute; reflexivity]. }
  split; [|vm_compute; reflexivity]. eexists. eexists. split; [vm_compute; reflexivity|vm_compute; reflexivity].
Qed.

(** C35: SWAR.  [swar_ok]: savable waves, file size below 2^32. *)
Theorem C35_swar_roundtrip : forall r post, swar_ok r ->
  exists d, swar_save r = Ok (d, rUnk02 r) /\ swar_load (d ++ post) (rUnk02 r) = Ok r.
Proof. exact swar_roundtrip. Qed.
Print Assumptions C35_swar_roundtrip.

(** only those can be saved *)
Theorem C35_swar_savable : forall r d u, swar_save r = Ok (d, u) -> swar_ok r.
Proof. exact swar_save_inv. Qed.
Print Assumptions C35_swar_savable.

Example C35_ex : swar_ok {| rWaves := [ex_swav; ex_swav2; ex_swav]; rUnk02 := 7 |} /\ swar_ok {| rWaves := []; rUnk02 := 0 |} /\
  (exists d, swar_save {| rWaves := [ex_swav; ex_swav2; ex_swav]; rUnk02 := 7 |} = Ok (d, 7) /\
             swar_load d 7 = Ok {| rWaves := [ex_swav; ex_swav2; ex_swav]; rUnk02 := 7 |}).
Proof.
  split. { split; [|vm_compute; congruence]. repeat (apply Forall_cons; [repeat split; vm_compute; congruence|]). apply Forall_nil. }
  split; [split; [apply Forall_nil|vm_compute; congruence]|].
  eexists. split; [vm_compute; reflexivity|vm_compute; reflexivity].
Qed.

(** C51: SWAR.fromFile(path, unk02) should be SWAR(contents, unk02); the second
    argument is ignored *)
Theorem C51_swar_fromFile_refuted : exists contents unk02, swar_fromFile contents unk02 <> swar_load contents unk02 /\
  swar_load contents unk02 = Ok {| rWaves := []; rUnk02 := unk02 |}.
Proof.
  exists (std_bytes (asc "SWAR") 0x100 0x3C 1 ++ asc "DATA" ++ le 4 0x2C ++ zeros 36), 5.
  split; [vm_compute; discriminate|vm_compute; reflexivity].
Qed.
Print Assumptions C51_swar_fromFile_refuted.

(** what does hold: the waves are the same, and unk02 is 0 *)
Theorem C51_swar_fromFile_partial : forall contents unk02, swar_fromFile contents unk02 =
  match swar_load contents unk02 with Ok r => Ok {| rWaves := rWaves r; rUnk02 := 0 |} | Err e => Err e end.
Proof. exact swar_fromFile_waves. Qed.
Print Assumptions C51_swar_fromFile_partial.

(** C36: STRM.  Whatever can be saved loads back (the eight unknown header words are
    [sUnks]); with updateTime the object left behind by save is what is loaded. *)
Theorem C36_strm_roundtrip : forall s up s' d i post, zlen (sUnks s) = 8 -> strm_save s up = Ok (s', (d, i)) ->
  strm_load (d ++ post) i = Ok s' /\ (up = false -> s' = s) /\
  (up = true -> sTime s' = Z.quot 16756991 (32 * sRate s) /\ sChannels s' = sChannels s /\ sRate s' = sRate s).
Proof. exact strm_roundtrip. Qed.
Print Assumptions C36_strm_roundtrip.

(** streams with consistent block sizes [blocks_ok nb pb il] and in-range fields can be
    saved *)
Theorem C36_strm_savable : forall s nb pb il, blocks_ok nb pb il (sChannels s) -> sChannels s <> [] -> 0 < nb ->
  strm_ranges s nb (if nb =? 1 then il else pb) il -> exists d, strm_save s false = Ok (s, (d, sInfo s)).
Proof. exact strm_savable. Qed.
Print Assumptions C36_strm_savable.

(** with updateTime: what is saved is the stream with the time of its rate *)
Theorem C36_strm_update : forall s s', sRate s <> 0 ->
  s' = {| sType := sType s; sLooped := sLooped s; sChannels := sChannels s; sUnk03 := sUnk03 s; sRate := sRate s; sTime := Z.quot 16756991 (32 * sRate s);
          sLoop := sLoop s; sPerBlock := sPerBlock s; sInLast := sInLast s; sUnks := sUnks s; sInfo := sInfo s |} ->
  strm_save s true = strm_save s' false.
Proof.
  intros s s' N ->. unfold strm_save, strm_update. replace (sRate s =? 0) with false by lia. cbn [bind]. unfold strm_save0. cbn [sChannels].
  destruct (strm_sizes (sChannels s)) as [[[nb pb] il]|e]; [|reflexivity]. cbn [bind fst]. destruct (std_pack _ _ _ _); reflexivity.
Qed.
Print Assumptions C36_strm_update.
Theorem C36_strm_rate_zero : forall s nb pb il, sRate s = 0 -> blocks_ok nb pb il (sChannels s) -> sChannels s <> [] -> 0 < nb ->
  0x68 + zlen (wave (sChannels s) (Z.to_nat nb)) < 4294967296 -> strm_save s true = Err ZeroDivisionError.
Proof.
  intros s nb pb il R B N P L. pose proof (strm_sizes_ok _ _ _ _ B N P) as E. unfold strm_save, strm_update. rewrite E. cbn [bind fst]. rewrite wave_eq.
  pose proof (zlen_nonneg (wave (sChannels s) (Z.to_nat nb))). rewrite std_pack_ok by lia. cbn [bind]. rewrite R. reflexivity.
Qed.
Print Assumptions C36_strm_rate_zero.

(** inconsistent block sizes or counts *)
Theorem C36_strm_inconsistent : forall s up, (forall nb pb il, ~ blocks_ok nb pb il (sChannels s)) -> strm_save s up = Err ValueError.
Proof. exact strm_inconsistent. Qed.
Print Assumptions C36_strm_inconsistent.

Definition ex_strm (t : waveType) (ch : list (list bytes)) : strm :=
  {| sType := t; sLooped := true; sChannels := ch; sUnk03 := 1; sRate := 16000; sTime := 32; sLoop := 3; sPerBlock := 10; sInLast := 4;
     sUnks := [1; 2; 3; 4; 5; 6; 7; 0xFFFFFFFF]; sInfo := (0, 127, 64, 0, 0) |}.
Definition ex_chans : list (list bytes) := [[[1; 2; 3]; [4; 5; 6]; [7]]; [[11; 12; 13]; [14; 15; 16]; [17]]].
Example C36_ex : blocks_ok 3 3 1 ex_chans /\
  (exists d, strm_save (ex_strm PCM8 ex_chans) false = Ok (ex_strm PCM8 ex_chans, (d, (0, 127, 64, 0, 0))) /\
     strm_load (d ++ [1; 2]) (0, 127, 64, 0, 0) = Ok (ex_strm PCM8 ex_chans)) /\
  (exists d, strm_save (ex_strm ADPCM [[[1; 2; 3; 4; 5]]]) false = Ok (ex_strm ADPCM [[[1; 2; 3; 4; 5]]], (d, (0, 127, 64, 0, 0))) /\
     unpack_u 4 d 0x30 = Ok 1) /\
  strm_ranges (ex_strm PCM8 ex_chans) 3 3 1 /\
  strm_save (ex_strm PCM8 [[[1]]; [[1; 2]]]) false = Err ValueError /\
  (exists s d, strm_save (ex_strm PCM8 ex_chans) true = Ok (s, (d, (0, 127, 64, 0, 0))) /\ sTime s = 32).
Proof.
  split.
  { intros c Hc. cbn in Hc. destruct Hc as [<-|[<-|[]]]; (split; [reflexivity|]); intros j b Hj;
      (destruct j as [|[|[|j]]]; cbn in Hj; [injection Hj as <-; reflexivity..|destruct j; discriminate]). }
  split. { eexists. split; [vm_compute; reflexivity|vm_compute; reflexivity]. }
  split. { eexists. split; [vm_compute; reflexivity|vm_compute; reflexivity]. }
  split; [|split; [vm_compute; reflexivity|eexists _, _; split; vm_compute; reflexivity]].
  unfold strm_ranges, u8r, u16r, u32r. repeat match goal with |- _ /\ _ => split end;
    lazymatch goal with |- Forall _ _ => idtac | _ => vm_compute; congruence end.
  repeat (apply Forall_cons; [split; vm_compute; congruence|]). apply Forall_nil.
Qed.

(** C43: group entries.  Only the low four option bits matter, and exactly they are kept. *)
Theorem C43_group_roundtrip : forall t o i g, group_new t o i = Ok g ->
  group_save g = (t, o mod 16, i) /\ group_new t (o mod 16) i = Ok g.
Proof. exact group_roundtrip. Qed.
Print Assumptions C43_group_roundtrip.

Theorem C43_group_save_load : forall g, 0 <= gType g < 4 ->
  let '(t, o, i) := group_save g in group_new t o i = Ok g /\ 0 <= o < 16.
Proof. exact group_save_new. Qed.
Print Assumptions C43_group_save_load.

Theorem C43_group_bad_type : forall t o i, ~ (0 <= t < 4) -> group_new t o i = Err ValueError.
Proof. exact group_bad. Qed.
Print Assumptions C43_group_bad_type.

Example C43_ex : (exists g, group_new 3 0xF5 42 = Ok g /\ group_save g = (3, 5, 42) /\ gLoadSWAR g = true /\ gLoadSSAR g = false) /\
  group_new 4 0 0 = Err ValueError.
Proof. split; [eexists; repeat split; vm_compute; reflexivity|reflexivity]. Qed.

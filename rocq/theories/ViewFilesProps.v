(** * C104 - C107: what arbitrary archives, overlay tables, touch area files, image
    position files, waves, wave archives and streams are read as *)
From Coq Require Import String.
From Verif Require Import PyBase PyLemmas PyTac FntModel NarcModel CodeModel BnModel WaveModel RomSpec ViewSpec ViewLemmas ViewFiles ViewWave.

Ltac all_bytes := apply Forall_forall; intros ? I; match goal with |- is_byte ?x => match type of I with In x ?d =>
  let Q := fresh in pose proof (proj1 (forallb_forall (fun b => (0 <=? b) && (b <? 256)) d) ltac:(vm_compute; reflexivity) x I) as Q; cbv beta in Q; unfold is_byte; lia end end.

(** ** C104: NARC archives *)
Theorem C104_read : forall depth d n, is_bytes d -> narc_load depth d = Ok n <->
  narc_shape d /\ nEndian n = (if half d 4 =? 0xFFFE then BE else LE) /\ nFiles n = map (narc_file d) (seq 0 (Z.to_nat (word d 0x18))) /\
  FntModel.load depth (part d (narc_fntb d + 8) (word d (narc_fntb d + 4) - 8)) = Ok (nFilenames n).
Proof.
  intros depth d n B. split; [apply narc_inv, B|]. intros (S & E & F & N). rewrite (narc_fwd depth d _ B S N). destruct n. cbn in *. subst. reflexivity.
Qed.
Print Assumptions C104_read.
(** so each byte of a file is the byte of the archive at the place its entry tells *)
Theorem C104_file_byte : forall depth d n i f k, is_bytes d -> narc_load depth d = Ok n -> nth_error (nFiles n) i = Some f -> (k < List.length f)%nat ->
  let start := word d (0x1C + 8 * Z.of_nat i) in let stop := word d (0x20 + 8 * Z.of_nat i) in let base := 0x18 + word d 0x14 + word d (0x14 + word d 0x14) in
  nth_error f k = nth_error d (Z.to_nat (base + start) + k) /\ start + Z.of_nat k < stop.
Proof.
  intros depth d n i f k B H F K start stop base. apply C104_read in H as (S & _ & E & _); [|exact B]. rewrite E in F. rewrite nth_error_map in F. destruct (nth_error (seq 0 _) i) as [j|] eqn:J; [|discriminate]. cbn in F. injection F as <-.
  assert (I : (i < Z.to_nat (word d 0x18))%nat) by (rewrite <- (seq_length (Z.to_nat (word d 0x18)) 0); apply nth_error_Some; congruence). rewrite (nth_error_nth' _ 0%nat), seq_nth in J by (rewrite ?seq_length; exact I). injection J as <-.
  unfold narc_file in *. cbn [Nat.add] in *. fold start stop in K |- *. assert (Eb : narc_fimg d + 8 = base) by (unfold narc_fimg, narc_fntb, base; replace (0x10 + word d 0x14 + 4) with (0x14 + word d 0x14) by lia; lia). rewrite Eb in K |- *.
  unfold part in K |- *. rewrite firstn_length, skipn_length in K. split; [|lia]. rewrite <- (firstn_skipn (Z.to_nat (base + start)) d) at 2. rewrite nth_error_app2 by (rewrite firstn_length; lia). rewrite firstn_length.
  replace (Z.to_nat (base + start) + k - Nat.min (Z.to_nat (base + start)) (List.length d))%nat with k by lia.
  rewrite <- (firstn_skipn (Z.to_nat (stop - start)) (skipn (Z.to_nat (base + start)) d)) at 2. rewrite nth_error_app1 by (rewrite firstn_length, skipn_length; lia). reflexivity.
Qed.
Print Assumptions C104_file_byte.
(** entries that overlap, run backwards or past the end *)
Definition odd_narc : bytes := asc "NARC" ++ [0xFE; 0xFF; 0; 1] ++ le 4 0 ++ le 2 16 ++ le 2 3 ++
  asc "BTAF" ++ le 4 0x2C ++ le 2 4 ++ le 2 0 ++ concat (map (le 4) [0; 3; 1; 9; 2; 1; 0; 0]) ++
  asc "BTNF" ++ le 4 15 ++ le 4 6 ++ le 2 0 ++ [0] ++ asc "GMIF" ++ le 4 0 ++ [10; 20; 30; 40].
Example C104_ex : is_bytes odd_narc /\ exists n, narc_load 1 odd_narc = Ok n /\ nFiles n = [[10; 20; 30]; [20; 30; 40]; []; []] /\ nEndian n = BE.
Proof. split; [all_bytes|]. eexists. split; [vm_compute; reflexivity|]. split; vm_compute; reflexivity. Qed.

(** ** C105: overlay tables *)
(** the table has the overlays that were asked for in the order of their first rows;
    of rows with the same number the last one counts *)
Theorem C105_read : forall d cb ids t, loadOverlayTable d cb ids = Ok t -> zlen d mod 32 = 0 /\
  let n := Z.to_nat (zlen d / 32) in
  map fst t = firsts (filter (fun id => match ids with None => true | Some f => f id end) (map (fun i => row d i 0) (seq 0 n))) /\
  forall id ov, In (id, ov) t -> exists i, (i < n)%nat /\ row d i 0 = id /\ wanted ids id /\ overlay_at d cb i ov /\ forall j, (i < j < n)%nat -> row d j 0 <> id.
Proof. intros d cb ids t H. destruct (overlays_read d cb ids t H) as (M & _ & K & R & _). split; [exact M|]. split; [exact K|exact R]. Qed.
Print Assumptions C105_read.
Theorem C105_accepted : forall d cb ids, (exists t, loadOverlayTable d cb ids = Ok t) <->
  zlen d mod 32 = 0 /\ forall i, 32 * Z.of_nat i < zlen d -> wanted ids (row d i 0) -> exists ov, overlay_at d cb i ov.
Proof. intros d cb ids. exact (overlays_accepted d cb ids). Qed.
Print Assumptions C105_accepted.
Definition odd_table : bytes := concat (map (le 4) [7; 1; 2; 3; 4; 5; 0; 0x02000009;  5; 0; 0; 0; 0; 0; 1; 0;  7; 11; 12; 13; 14; 15; 2; 8;  6; 0; 0; 0; 0; 0; 1; 0]).
Example C105_ex : is_bytes odd_table /\ exists t, loadOverlayTable odd_table (fun id fid => Ok [id; fid]) (Some (fun id => negb (id =? 6))) = Ok t /\ map fst t = [7; 5] /\
  map (fun x => (oData (snd x), oRamAddress (snd x), oCompressedSize (snd x))) t = [([7; 2], 11, 8); ([5; 1], 0, 0)].
Proof. split; [all_bytes|]. eexists. split; [vm_compute; reflexivity|]. split; vm_compute; reflexivity. Qed.

(** ** C106: touch areas and image positions *)
Theorem C106_bnbl : forall d b, is_bytes d -> bnbl_load d = Ok b <->
  part d 0 4 = asc "JNBL" /\ 8 <= zlen d /\ 8 + 6 * half d 6 <= zlen d /\
  b = {| blUnk04 := half d 4; blAreas := map (fun i => area_at d (8 + 6 * Z.of_nat i)) (seq 0 (Z.to_nat (half d 6))) |}.
Proof. exact bnbl_view. Qed.
Print Assumptions C106_bnbl.
Theorem C106_bncl : forall d b, is_bytes d -> bncl_load d = Ok b <->
  part d 0 4 = asc "JNCL" /\ 8 <= zlen d /\ 8 + 8 * half d 6 <= zlen d /\
  b = {| clUnk04 := half d 4; clPositions := map (fun i => position_at d (8 + 8 * Z.of_nat i)) (seq 0 (Z.to_nat (half d 6))) |}.
Proof. exact bncl_view. Qed.
Print Assumptions C106_bncl.
(** two areas, bytes after the end, all four values of the two bits and set bits that
    are not used *)
Definition odd_areas : bytes := asc "JNBL" ++ [5; 0; 2; 0] ++ [0x34; 0xD2; 1; 0x30; 9; 8] ++ [255; 0x2F; 0; 0x40; 255; 0] ++ [1; 2].
Definition odd_positions : bytes := asc "JNCL" ++ [5; 0; 1; 0] ++ [0x34; 0xD2; 1; 0x20; 1; 2; 0; 1] ++ [1; 2; 3].
Example C106_ex : is_bytes odd_areas /\ is_bytes odd_positions /\
  bnbl_load odd_areas = Ok {| blUnk04 := 5; blAreas := [{| taX := 0x234; taY := 1; taW := 9; taH := 8; taAlign := 0x14 |}; {| taX := 0xFFF; taY := 0; taW := 255; taH := 0; taAlign := 0x12 |}] |} /\
  bncl_load odd_positions = Ok {| clUnk04 := 5; clPositions := [{| ipX := 0x234; ipY := 1; ipImageID := 0x01000201; ipAlign := 0x24 |}] |}.
Proof. split; [all_bytes|]. split; [all_bytes|]. split; vm_compute; reflexivity. Qed.

(** ** C107: waves, wave archives and streams *)
Theorem C107_swav : forall d w, is_bytes d -> swav_load d = Ok w <-> swav_shape d /\ wave_at d 0x18 (word d 8 - 0x18) w.
Proof. exact swav_view. Qed.
Print Assumptions C107_swav.
Theorem C107_swar : forall d u r, is_bytes d -> swar_load d u = Ok r <-> swar_shape d /\ rUnk02 r = u /\ zlen (rWaves r) = word d 0x38 /\
  forall i w, nth_error (rWaves r) i = Some w -> 0x44 + 4 * Z.of_nat i <= zlen d /\ 12 <= swar_stop d i - swar_start d i /\
    swar_start d i + 12 <= zlen d /\ wave_at d (swar_start d i) (swar_stop d i - swar_start d i) w.
Proof. exact swar_view. Qed.
Print Assumptions C107_swar.
Theorem C107_strm : forall d info s, is_bytes d -> strm_load d info = Ok s <-> strm_shape d /\
  wt_val (sType s) = byte d 0x18 /\ sLooped s = negb (byte d 0x19 =? 0) /\ sUnk03 s = byte d 0x1B /\ sRate s = half d 0x1C /\ sTime s = half d 0x1E /\
  sLoop s = word d 0x20 /\ sPerBlock s = word d 0x34 /\ sInLast s = word d 0x3C /\ sUnks s = map (fun i => word d (0x40 + 4 * Z.of_nat i)) (seq 0 8) /\
  sInfo s = info /\ sChannels s = map (strm_channel d) (seq 0 (Z.to_nat (byte d 0x1A))).
Proof. exact strm_view. Qed.
Print Assumptions C107_strm.
Definition sound_start (m b : string) (size : Z) : bytes := asc m ++ [7; 7; 0; 1] ++ le 4 size ++ [9; 9; 9; 9] ++ asc b.
(** the size in the header counts, not that of the file *)
Definition odd_wave : bytes := sound_start "SWAV" "DATA" 0x26 ++ [0; 0; 0; 0] ++ [1; 2; 3; 0; 4; 0; 5; 0; 6; 0; 0; 0] ++ [1; 2; 3; 4].
(** two waves of two bytes and a byte after the end *)
Definition odd_archive : bytes := sound_start "SWAR" "DATA" 0x60 ++ [0; 0; 0; 0] ++ zeros 32 ++ le 4 2 ++ le 4 0x44 ++ le 4 0x52 ++ [0; 1; 0; 1; 0; 1; 0; 1; 0; 0; 0; 0; 5; 6; 2; 0; 1; 0; 0; 0; 0; 0; 0; 0; 0; 0; 7; 8; 9].
(** three rows of blocks of two channels with three bytes each, one byte in the last *)
Definition odd_stream : bytes := sound_start "STRM" "HEAD" 0 ++ le 4 0x50 ++ [1; 2; 2; 0; 1; 0; 2; 0] ++ concat (map (le 4) [3; 4; 0x68; 3; 3; 5; 1; 6; 11; 12; 13; 14; 15; 16; 17; 18]) ++
  asc "DATA" ++ le 4 27 ++ [1; 2; 3; 4; 5; 6; 0; 0; 7; 8; 9; 10; 11; 12; 0; 0; 13; 14; 15].
Example C107_ex : is_bytes odd_wave /\ is_bytes odd_archive /\ is_bytes odd_stream /\
  swav_load odd_wave = Ok {| wType := PCM16; wLooped := true; wRate := 3; wTime := 4; wLoop := 5; wTotal := 11; wData := [1; 2] |} /\
  (exists r, swar_load odd_archive 3 = Ok r /\ map (fun w => (wRate w, wData w)) (rWaves r) = [(0x100, [5; 6]); (1, [7; 8])]) /\
  (exists s, strm_load odd_stream (1, 2, 3, 4, 5) = Ok s /\ sChannels s = [[[1; 2; 3]; [7; 8; 9]; [13]]; [[4; 5; 6]; [10; 11; 12]; [14]]]).
Proof.
  split; [all_bytes|]. split; [all_bytes|]. split; [all_bytes|]. split; [vm_compute; reflexivity|]. split; eexists; (split; [vm_compute; reflexivity|]); vm_compute; reflexivity.
Qed.

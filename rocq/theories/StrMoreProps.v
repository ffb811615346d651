(** * C101, continued: waves, streams, textures, palettes, main code files, titles,
    regions, archives that are not parsed, tracks and narcs *)
From Coq Require Import String Lia.
From Verif Require Import PyBase PyLemmas PyTac TextModel TextSpec TextLemmas SeqTextModel SeqTextSpec SeqTextLemmas ReprModel ReprLemmas BnText StrSpec StrLemmas.
From Verif Require CodeModel WaveModel TexModel SbnkModel SsarModel SeqModel ColorModel NarcModel RomModel TextProps SeqTextProps FntModel FntSpec.

Lemma mention_in t s c : mentions t s -> In c t -> In c s.
Proof. intros (a & b & ->) I. rewrite !in_app_iff. auto. Qed.
Lemma no_mention t s c : In c t -> ~ In c s -> ~ mentions t s.
Proof. intros I N M. exact (N (mention_in t s c M I)). Qed.
Lemma mention_r t a s : mentions t s -> mentions t (a ++ s).
Proof. intros (x & y & ->). exists (a ++ x), y. rewrite <- app_assoc. reflexivity. Qed.
Lemma not_in_lit c s : existsb (Z.eqb c) s = false -> ~ In c s.
Proof. intros E I. assert (existsb (Z.eqb c) s = true) by (apply existsb_exists; exists c; split; [exact I|apply Z.eqb_refl]). congruence. Qed.
Lemma not_in_app (c : Z) a b : ~ In c a -> ~ In c b -> ~ In c (a ++ b).
Proof. intros A B I. apply in_app_iff in I. tauto. Qed.
Ltac absent := repeat match goal with
  | |- ~ In _ (_ ++ _) => apply not_in_app
  | |- ~ In _ (str_int _) => apply not_in_num; lia
  | |- ~ In _ (if ?b then _ else _) => destruct b
  | |- ~ In _ (match ?b with _ => _ end) => destruct b
  | |- ~ In _ _ => apply not_in_lit; reflexivity
  end.

(** the bits of a sample that the name of its format tells *)
Definition shown_bits (w : WaveModel.waveType) : list Z := match w with WaveModel.PCM8 => [8] | WaveModel.PCM16 => [16] | WaveModel.ADPCM => [] end.

Lemma shown_8 : wave_name WaveModel.PCM8 = asc "PCM" ++ str_int 8.
Proof. reflexivity. Qed.
Lemma shown_16 : wave_name WaveModel.PCM16 = asc "PCM" ++ str_int 16.
Proof. reflexivity. Qed.
Lemma shown_adpcm : wave_name WaveModel.ADPCM = asc "ADPCM".
Proof. reflexivity. Qed.

(** waves: the format, the sample rate, and whether they are looped *)
Theorem C101_wave : forall w, 0 <= WaveModel.wRate w ->
  numbers (swav_str w) = shown_bits (WaveModel.wType w) ++ [WaveModel.wRate w] /\
  (mentions (asc "ADPCM") (swav_str w) <-> WaveModel.wType w = WaveModel.ADPCM) /\
  (mentions (asc "looped") (swav_str w) <-> WaveModel.wLooped w = true).
Proof.
  intros w R. unfold swav_str. split; [destruct (WaveModel.wType w), (WaveModel.wLooped w); rewrite ?shown_8, ?shown_16, ?shown_adpcm; numbered; reflexivity|]. split.
  - destruct (WaveModel.wType w); cbn [wave_name]; split; intro H; try discriminate H; try reflexivity;
      try (exfalso; revert H; apply (no_mention _ _ 65); [cbn; tauto|absent]).
    exists (asc "<swav "). eexists. reflexivity.
  - destruct (WaveModel.wLooped w); split; intro H; try discriminate H; try reflexivity.
    + exists (asc "<swav " ++ wave_name (WaveModel.wType w) ++ asc " " ++ str_int (WaveModel.wRate w) ++ asc "Hz "), (asc ">"). rewrite <- !app_assoc. reflexivity.
    + exfalso; revert H; apply (no_mention _ _ 108); [cbn; tauto|]. unfold wave_name. absent.
Qed.
Print Assumptions C101_wave.
(** sequences of archives: whether they are parsed *)
Theorem C101_archive_sequence_state : forall s, mentions (asc "unparsed") (aseq_str s) <-> SsarModel.aParsed s = false.
Proof.
  intro s. unfold aseq_str. destruct (SsarModel.aParams s) as [[[[b v] c] p] y]. destruct (SsarModel.aParsed s); split; intro H; try discriminate H; try reflexivity.
  - exfalso; revert H; apply (no_mention _ _ 100); [cbn; tauto|absent].
  - exists (asc "<ssar-sequence "). eexists. reflexivity.
Qed.
Example C101_archive_sequence_state_ex :
  aseq_str {| SsarModel.aParsed := false; SsarModel.aFirst := None; SsarModel.aOffset := Some 12; SsarModel.aParams := (1, 127, 64, 50, 0) |} = asc "<ssar-sequence unparsed bank=1 volume=127 playerID=0>".
Proof. reflexivity. Qed.
Print Assumptions C101_archive_sequence_state.
(** wave archives: one line for each wave, with its number *)
Theorem C101_waves : forall s, exists L, split 10 (swar_str s) = asc "<swar" :: L ++ [asc ">"] /\ zlen L = zlen (WaveModel.rWaves s) /\
  forall k w, nth_error (WaveModel.rWaves s) k = Some w -> exists pad d, nth_error L k = Some (spaces 4 ++ [91] ++ spaces pad ++ d ++ [93; 32] ++ swav_str w) /\ Forall (fun c => 48 <= c < 58) d /\ undec d = Z.of_nat k.
Proof.
  intro s. exists (enumeratedListOfStrs (map swav_str (WaveModel.rWaves s)) 4). destruct (TextProps.C81_enumerated (map swav_str (WaveModel.rWaves s)) 4 ltac:(lia)) as (Z0 & wd & H). rewrite zlen_map in Z0. split; [|split; [exact Z0|]].
  - unfold swar_str. apply split_join; [|discriminate]. constructor; [apply flat_text; reflexivity|]. apply Forall_app. split; [|constructor; [apply flat_text; reflexivity|constructor]].
    apply Forall_forall. intros x X. apply In_nth_error in X as (k & X). assert (K : (k < List.length (WaveModel.rWaves s))%nat) by (assert (k < List.length (enumeratedListOfStrs (map swav_str (WaveModel.rWaves s)) 4))%nat by (apply nth_error_Some; intro Q; pose proof (eq_trans (eq_sym X) Q); discriminate); unfold zlen in Z0; lia).
    destruct (nth_error (WaveModel.rWaves s) k) as [w|] eqn:E; [|apply nth_error_None in E; lia]. destruct (H k (swav_str w)) as (pad & d & N & D & _); [rewrite nth_error_map, E; reflexivity|]. pose proof (eq_trans (eq_sym X) N) as XN. apply (f_equal (fun o => match o with Some v => v | None => [] end)) in XN; cbv beta iota in XN; rewrite XN.
    unfold flat. repeat match goal with |- ~ In _ (_ ++ _) => apply not_in_app end; try (apply not_in_lit; reflexivity).
    + intro I. apply repeat_spec in I. discriminate.
    + intro I. rewrite Forall_forall in D. apply D in I. lia.
    + unfold swav_str, wave_name. absent.
  - intros k w E. destruct (H k (swav_str w)) as (pad & d & N & D & U & _); [rewrite nth_error_map, E; reflexivity|]. exists pad, d. auto.
Qed.
Print Assumptions C101_waves.
(** streams: the format, the sample rate, the number of channels, the number of blocks of
    each when that is the same for all, the volume, and whether they are looped *)
Definition same_blocks (s : WaveModel.strm) : option Z :=
  match WaveModel.sChannels s with c :: r => if forallb (fun d => zlen d =? zlen c) r then Some (zlen c) else None | [] => None end.
Theorem C101_stream : forall s unk02 volume priority player unk07, WaveModel.sInfo s = (unk02, volume, priority, player, unk07) -> 0 <= WaveModel.sRate s -> 0 <= volume ->
  numbers (strm_str s) = shown_bits (WaveModel.sType s) ++ [WaveModel.sRate s; zlen (WaveModel.sChannels s)]
    ++ match same_blocks s with Some n => [n] | None => [] end ++ [volume] /\
  (mentions (asc "differing") (strm_str s) <-> exists c d, In c (WaveModel.sChannels s) /\ In d (WaveModel.sChannels s) /\ zlen c <> zlen d) /\
  (mentions (asc "looped") (strm_str s) <-> WaveModel.sLooped s = true).
Proof.
  intros s unk02 volume priority player unk07 I R V. unfold strm_str, same_blocks. rewrite I. split; [|split].
  - destruct (WaveModel.sChannels s) as [|c r]; [change (asc "[0 channels]") with (asc "[" ++ str_int 0 ++ asc " channels]"); destruct (WaveModel.sType s), (WaveModel.sLooped s); rewrite ?shown_8, ?shown_16, ?shown_adpcm; numbered; reflexivity|].
    cbn [forallb]. rewrite Z.eqb_refl. cbn [andb]. set (m := zlen (c :: r)). assert (M : 0 <= m) by apply zlen_nonneg. pose proof (zlen_nonneg c) as C.
    destruct (WaveModel.sType s), (WaveModel.sLooped s), (forallb _ r), (zlen c =? 1), (m =? 1); rewrite ?shown_8, ?shown_16, ?shown_adpcm; numbered; reflexivity.
  - destruct (WaveModel.sChannels s) as [|c r] eqn:E.
    + split; [|intros (? & ? & [] & _)]. intro H. exfalso. revert H. apply (no_mention _ _ 102); [cbn; tauto|]. unfold wave_name. absent.
    + assert (A : forallb (fun d => zlen d =? zlen c) (c :: r) = true <-> ~ exists a b, In a (c :: r) /\ In b (c :: r) /\ zlen a <> zlen b).
      { rewrite forallb_forall. split.
        - intros H (a & b & IA & IB & N). apply N. pose proof (H a IA). pose proof (H b IB). lia.
        - intros N x X. destruct (Z.eqb_spec (zlen x) (zlen c)) as [Q|Q]; [reflexivity|]. exfalso. apply N. exists x, c. split; [exact X|]. split; [left; reflexivity|exact Q]. }
      destruct (forallb _ (c :: r)) eqn:F.
      * split; [|intro H; exfalso; exact (proj1 A eq_refl H)]. intro H. exfalso. revert H. apply (no_mention _ _ 103); [cbn; tauto|]. unfold wave_name. absent.
      * split; [|].
        -- intros _. apply not_true_iff_false in F. clear A. assert (G : exists x, In x (c :: r) /\ zlen x <> zlen c).
           { clear - F. induction (c :: r) as [|x l IH]; [contradiction F; reflexivity|]. cbn [forallb] in F. destruct (Z.eqb_spec (zlen x) (zlen c)) as [Q|Q]; [|exists x; split; [left; reflexivity|exact Q]]. destruct (IH F) as (y & Y & N). exists y. split; [right; exact Y|exact N]. }
           destruct G as (x & X & N). exists x, c. split; [exact X|]. split; [left; reflexivity|exact N].
        -- intros _. eexists (asc "<strm " ++ wave_name (WaveModel.sType s) ++ asc " " ++ str_int (WaveModel.sRate s) ++ asc "Hz [" ++ str_int (zlen (c :: r)) ++ asc " " ++ (if zlen (c :: r) =? 1 then asc "channel" else asc "channels") ++ asc " of "), (asc " numbers of blocks each] volume=" ++ str_int volume ++ (if WaveModel.sLooped s then asc " looped" else []) ++ asc ">"). rewrite <- !app_assoc. reflexivity.
  - destruct (WaveModel.sLooped s) eqn:L; split; intro H; try discriminate H; try reflexivity.
    + repeat first [exists [32], (asc ">"); reflexivity|apply mention_r].
    + exfalso. revert H. apply (no_mention _ _ 112); [cbn; tauto|]. unfold wave_name. absent.
Qed.
Print Assumptions C101_stream.

(** textures: the format and the size *)
Theorem C101_texture : forall t t', 0 <= TexModel.txFmt t < 8 -> 0 <= TexModel.txFmt t' < 8 ->
  (texture_str t = texture_str t' <-> TexModel.txFmt t = TexModel.txFmt t' /\ TexModel.txW t = TexModel.txW t' /\ TexModel.txH t = TexModel.txH t').
Proof.
  intros t t' F F'. split; [|intros (A & B & C); unfold texture_str; rewrite A, B, C; reflexivity]. intro E. unfold texture_str in E. apply app_inv_head in E.
  set (nm := fun f => if f =? 0 then asc "unknown-0" else if f =? 1 then asc "a3i5" else if f =? 2 then asc "i2" else if f =? 3 then asc "i4" else if f =? 4 then asc "i8" else if f =? 5 then asc "texeled" else if f =? 6 then asc "a5i3" else if f =? 7 then asc "a1bgr5" else asc "invalid").
  change (nm (TexModel.txFmt t) ++ 32 :: (str_int (TexModel.txW t) ++ 120 :: (str_int (TexModel.txH t) ++ 62 :: [])) = nm (TexModel.txFmt t') ++ 32 :: (str_int (TexModel.txW t') ++ 120 :: (str_int (TexModel.txH t') ++ 62 :: []))) in E.
  assert (NS : forall f, Forall (fun c => c <> 32) (nm f)) by (intro f; apply Forall_forall; intros c I Q; subst c; revert I; change (~ In 32 (nm f)); unfold nm; absent).
  destruct (cut_at (fun c => c <> 32) _ _ _ _ _ _ (NS _) (NS _)  (fun H => H eq_refl) (fun H => H eq_refl) E) as (A & _ & E2).
  assert (X : ~ numchar 120) by (unfold numchar; lia). assert (G : ~ numchar 62) by (unfold numchar; lia).
  destruct (cut_at numchar _ _ _ _ _ _ (str_int_chars _) (str_int_chars _) X X E2) as (B & _ & E3).
  destruct (cut_at numchar _ _ _ _ _ _ (str_int_chars _) (str_int_chars _) G G E3) as (C & _ & _).
  split; [|split; [pose proof (number_str (TexModel.txW t)) as W; rewrite B, number_str in W; congruence|pose proof (number_str (TexModel.txH t)) as W; rewrite C, number_str in W; congruence]].
  clear - F F' A. assert (H : forall f g, In f [0; 1; 2; 3; 4; 5; 6; 7] -> In g [0; 1; 2; 3; 4; 5; 6; 7] -> nm f = nm g -> f = g).
  { intros f g H K. cbn [In] in H, K. destruct H as [<-|[<-|[<-|[<-|[<-|[<-|[<-|[<-|[]]]]]]]]], K as [<-|[<-|[<-|[<-|[<-|[<-|[<-|[<-|[]]]]]]]]]; intro Q; first [reflexivity|vm_compute in Q; discriminate Q]. }
  apply H; [cbn [In]; lia..|exact A].
Qed.
Print Assumptions C101_texture.
Lemma color_numbers l : forall s, Forall (fun c => let '(ColorModel.C4 r g b a) := c in 0 <= r /\ 0 <= g /\ 0 <= b /\ 0 <= a) l ->
  numbers_from None (joined (asc ", ") (map color_repr l) ++ s) = flat_map (fun c => let '(ColorModel.C4 r g b a) := c in [r; g; b; a]) l ++ numbers_from None s.
Proof.
  assert (K : forall c s, (let '(ColorModel.C4 r g b a) := c in 0 <= r /\ 0 <= g /\ 0 <= b /\ 0 <= a) -> numbers_from None (color_repr c ++ s) = (let '(ColorModel.C4 r g b a) := c in [r; g; b; a]) ++ numbers_from None s).
  { intros [r g b a] s H. unfold color_repr. rewrite <- !app_assoc, numbers_none by reflexivity. rewrite numbers_ints; [|repeat constructor; lia|reflexivity|discriminate|reflexivity]. rewrite numbers_none by reflexivity. reflexivity. }
  intros s H. revert s. induction H as [|c l C H IH]; intro s; [reflexivity|]. destruct l as [|d l].
  - cbn [map joined flat_map app]. rewrite K by exact C. rewrite app_nil_r. reflexivity.
  - change (joined (asc ", ") (map color_repr (c :: d :: l))) with (color_repr c ++ asc ", " ++ joined (asc ", ") (map color_repr (d :: l))). rewrite <- !app_assoc, K by exact C. rewrite numbers_none by reflexivity. rewrite IH. cbn [flat_map]. rewrite <- !app_assoc. reflexivity.
Qed.
Lemma not_in_joined (c : Z) sep l : ~ In c sep -> Forall (fun t => ~ In c t) l -> ~ In c (joined sep l).
Proof. intros S F. induction F as [|x l X F IH]; [exact (fun I => I)|]. destruct l as [|y l]; cbn [joined]; [exact X|]. apply not_in_app; [exact X|]. apply not_in_app; [exact S|exact IH]. Qed.
(** palettes: the number of colours, and up to twenty of them *)
Theorem C101_palette : forall p, Forall (fun c => let '(ColorModel.C4 r g b a) := c in 0 <= r /\ 0 <= g /\ 0 <= b /\ 0 <= a) (TexModel.plColors p) ->
  numbers (palette_str p) = zlen (TexModel.plColors p) :: flat_map (fun c => let '(ColorModel.C4 r g b a) := c in [r; g; b; a]) (firstn 20 (TexModel.plColors p)) /\
  (mentions (asc "...") (palette_str p) <-> 20 < zlen (TexModel.plColors p)).
Proof.
  intros p H. unfold palette_str, shortColorsListRepr. set (l := TexModel.plColors p) in *. assert (S20 : slice l 0 20 = firstn 20 l) by (apply (slice_firstn l 20); lia). rewrite S20.
  assert (P : 0 <= zlen l) by apply zlen_nonneg. split.
  - rewrite <- !app_assoc. numbered. rewrite color_numbers.
    + destruct (20 <? zlen l); numbered; apply f_equal; apply app_nil_r.
    + rewrite Forall_forall in H |- *. intros c I. apply H. rewrite <- (firstn_skipn 20 l). apply in_app_iff. left. exact I.
  - destruct (Z.ltb_spec 20 (zlen l)) as [L|L]; split; intro M; try lia.
    + rewrite <- !app_assoc. repeat first [exists (asc ", "), (asc "]>"); reflexivity|apply mention_r].
    + exfalso. revert M. apply (no_mention _ _ 46); [cbn; tauto|]. absent. apply not_in_joined; [apply not_in_lit; reflexivity|]. apply Forall_forall. intros t I. apply in_map_iff in I as ([r g b a] & <- & _). unfold color_repr. absent. apply not_in_joined; [apply not_in_lit; reflexivity|].
      apply Forall_forall. intros t I. apply in_map_iff in I as (n & <- & _). apply not_in_num; lia.
Qed.
Print Assumptions C101_palette.

(** main code files: the address, and a line for each section, with its address and with
    whether it is the implicit one *)
Lemma short_flat d n t : is_bytes d -> shortBytesRepr d n = Ok t -> flat t /\ exists c r, rev t = c :: r /\ (c = 39 \/ c = 46).
Proof.
  intros B H. unfold shortBytesRepr in H. apply bind_ok in H as (body & E & H).
  assert (F : flat body).
  { assert (S : is_bytes (slice d 0 n)) by (apply PyLemmas.is_bytes_slice, B). clear H. revert S E. generalize (slice d 0 n) as l0. intros l0 S. generalize 0 as i. revert body. induction S as [|b l Hb S IH]; intros body i E; cbn [short_bytes] in E; [apply ok_inj in E; subst; exact (fun I => I)|].
    apply bind_ok in E as (x & X & E). apply bind_ok in E as (y & Y & E). apply ok_inj in E. subst body. apply flat_app; [|eapply IH, Y].
    assert (R : flat (repr_byte b)) by exact (proj1 (Forall_forall _ _) repr_flat_all b (proj2 (in_range_z 0 256 b) Hb)).
    assert (N : flat (asc "\" ++ str_nat b)). { apply flat_app; [apply flat_text; reflexivity|]. intro I. pose proof (str_nat_digits b ltac:(unfold is_byte in Hb; lia)) as D. rewrite Forall_forall in D. apply D in I. lia. }
    unfold short_byte in X. destruct (b <? 8); [|apply ok_inj in X; subst; exact R]. destruct (i =? zlen d - 1); [apply ok_inj in X; subst; exact N|]. apply bind_ok in X as (nx & _ & X). destruct (negb _); apply ok_inj in X; subst; assumption. }
  destruct (n <? zlen d); apply ok_inj in H; subst t; (split; [repeat apply flat_app; try (apply flat_text; reflexivity); exact F|]).
  - exists 46, (46 :: 46 :: rev (asc "b'" ++ body ++ asc "'")). split; [|tauto]. rewrite rev_app_distr. reflexivity.
  - exists 39, (rev (asc "b'" ++ body)). split; [|tauto]. rewrite app_assoc, rev_app_distr. reflexivity.
Qed.
Theorem C101_main_code : forall m, 0 <= CodeModel.mRam m -> Forall (fun s => is_bytes (CodeModel.sData s) /\ 0 <= CodeModel.sRam s) (CodeModel.mSections m) ->
  exists t a L, mcf_str m = Ok t /\ split 10 t = (asc "<main-code at 0x" ++ a) :: L ++ [asc ">"] /\ hexes 0 a = Some (CodeModel.mRam m) /\
  zlen L = zlen (CodeModel.mSections m) /\
  forall k s, nth_error (CodeModel.mSections m) k = Some s -> exists line b d e, nth_error L k = Some line /\
    line = spaces 4 ++ asc "<code-section at 0x" ++ b ++ asc ": " ++ d ++ e /\ hexes 0 b = Some (CodeModel.sRam s) /\ shortBytesRepr (CodeModel.sData s) 32 = Ok d /\
    (e = asc " implicit>" <-> CodeModel.sImplicit s = true) /\ (e = asc ">" <-> CodeModel.sImplicit s = false).
Proof.
  intros m R F. destruct (fmt_X_digits 8 _ R) as [D V].
  assert (M : exists L, mapM section_str (CodeModel.mSections m) = Ok L /\ zlen L = zlen (CodeModel.mSections m) /\ Forall flat L /\
    forall k s, nth_error (CodeModel.mSections m) k = Some s -> exists line b d e, nth_error L k = Some line /\
      line = asc "<code-section at 0x" ++ b ++ asc ": " ++ d ++ e /\ hexes 0 b = Some (CodeModel.sRam s) /\ shortBytesRepr (CodeModel.sData s) 32 = Ok d /\
      (e = asc " implicit>" <-> CodeModel.sImplicit s = true) /\ (e = asc ">" <-> CodeModel.sImplicit s = false)).
  { induction F as [|s l [B S] F IH]; [exists []; split; [reflexivity|]; split; [reflexivity|]; split; [constructor|]; intros [|k] s; discriminate|].
    destruct IH as (L & E & Z0 & FL & H). destruct (short_total (CodeModel.sData s) 32 ltac:(lia)) as (d & Ed). destruct (fmt_X_digits 8 _ S) as [D1 V1]. destruct (short_flat _ _ _ B Ed) as [Fd _].
    cbn [mapM]. unfold section_str at 1. change 0x20 with 32. rewrite Ed. cbn [bind]. rewrite E. eexists. split; [reflexivity|]. split; [rewrite !zlen_cons, Z0; reflexivity|]. split.
    - constructor; [|exact FL]. repeat match goal with |- flat (_ ++ _) => apply flat_app end; try (apply flat_text; reflexivity); try exact Fd.
      + intro I. rewrite Forall_forall in D1. apply D1 in I. unfold hexdig in I. lia.
      + destruct (CodeModel.sImplicit s); apply flat_text; reflexivity.
    - intros [|k] s' N; [|exact (H k s' N)]. cbn [nth_error] in N. injection N as <-. eexists _, (fmt_X 8 (CodeModel.sRam s)), d, ((if CodeModel.sImplicit s then asc " implicit" else []) ++ asc ">").
      split; [reflexivity|]. split; [reflexivity|]. split; [exact V1|]. split; [exact Ed|]. destruct (CodeModel.sImplicit s); split; split; intro Q; try discriminate Q; reflexivity. }
  destruct M as (L & E & Z0 & FL & H). unfold mcf_str. rewrite E. cbn [bind]. eexists _, (fmt_X 8 (CodeModel.mRam m)), (map (fun s => rep 32 4 ++ s) L). split; [reflexivity|]. split; [|split; [exact V|split; [rewrite zlen_map; exact Z0|]]].
  - apply split_join; [|discriminate]. constructor.
    + apply flat_app; [apply flat_text; reflexivity|]. intro I. rewrite Forall_forall in D. apply D in I. unfold hexdig in I. lia.
    + apply Forall_app. split; [|constructor; [apply flat_text; reflexivity|constructor]]. apply Forall_forall. intros x X. apply in_map_iff in X as (y & <- & Y). apply flat_app; [apply flat_text; reflexivity|]. rewrite Forall_forall in FL. apply FL, Y.
  - intros k s N. destruct (H k s N) as (line & b & d & e & A & -> & rest). eexists _, b, d, e. split; [exact (map_nth_error (fun s => rep 32 4 ++ s) k L A)|]. split; [reflexivity|exact rest].
Qed.
Print Assumptions C101_main_code.

(** the title and the code of a ROM, when they are made of plain characters: the spaces at
    the end of the title are left out *)
Definition plain_char (c : Z) : Prop := 32 <= c < 127 /\ c <> 92 /\ c <> 39.
Theorem C101_title : forall r title n, RomModel.name r = title ++ spaces n -> last title 0 <> 32 -> Forall plain_char title -> Forall plain_char (RomModel.idCode r) ->
  rom_str r = asc "<rom " ++ [34] ++ title ++ [34] ++ asc " (" ++ RomModel.idCode r ++ asc ")>".
Proof.
  assert (P : forall d, Forall plain_char d -> inside (repr_bytes d) = d).
  { intros d F. assert (Q : quote_of d = 39). { unfold quote_of. replace (existsb (Z.eqb 39) d) with false; [reflexivity|]. symmetry. apply not_true_iff_false. intro H. apply existsb_exists in H as (x & I & X). rewrite Forall_forall in F. apply F in I. unfold plain_char in I. lia. }
    assert (G : flat_map (quoted_byte 39) d = d).
    { clear Q. induction F as [|c d C F IH]; [reflexivity|]. cbn [flat_map]. rewrite IH. unfold plain_char in C. unfold quoted_byte, repr_byte. replace (c =? 39) with false by lia. replace (c =? 9) with false by lia. replace (c =? 10) with false by lia. replace (c =? 13) with false by lia. replace (c =? 92) with false by lia. replace ((c <? 32) || (127 <=? c)) with false by lia. reflexivity. }
    unfold inside, repr_bytes. rewrite Q, G. change (asc "b" ++ [39] ++ d ++ [39]) with ([98; 39] ++ d ++ [39]). apply slice_mid; [reflexivity|]. rewrite !zlen_app. cbn [zlen List.length]. unfold zlen. cbn [List.length]. lia. }
  assert (S : forall title k, last title 0 <> 32 -> rstrip (title ++ repeat 32 k) = title).
  { intros title k L. unfold rstrip. rewrite rev_app_distr. assert (R : rev (repeat 32 k) = repeat 32 k).
    { induction k; [reflexivity|]. cbn [repeat rev]. rewrite IHk. clear. induction k; [reflexivity|]. cbn [repeat app]. f_equal. exact IHk. }
    rewrite R. clear R. induction k as [|k IH]; [|exact IH]. cbn [repeat app]. destruct (rev title) as [|c t] eqn:E; [apply (f_equal (@rev Z)) in E; rewrite rev_involutive in E; subst title; reflexivity|].
    assert (T : title = rev t ++ [c]) by (apply (f_equal (@rev Z)) in E; rewrite rev_involutive in E; exact E). rewrite T, last_last in L.
    replace (rstrip_rev (c :: t)) with (c :: t); [rewrite T; reflexivity|]. cbn [rstrip_rev]. destruct c as [|c|c]; try reflexivity. do 6 (destruct c as [c|c|]; try reflexivity). contradiction. }
  intros r title n N L F G. unfold rom_str. rewrite (P _ G), (P (RomModel.name r)).
  - rewrite N. unfold spaces, rep. rewrite S by exact L. reflexivity.
  - rewrite N. apply Forall_app. split; [exact F|]. unfold spaces, rep. apply Forall_forall. intros x X. apply repeat_spec in X. subst x. unfold plain_char. lia.
Qed.
Print Assumptions C101_title.

(** regions, tracks, archives that are not parsed, and narcs *)
Theorem C101_region : forall r, exists p t, region_str r = Ok (asc "<region through " ++ p ++ asc " " ++ t ++ asc ">") /\ helmholtz p = Some (fst r) /\ note_str (snd r) = Ok t.
Proof.
  intro r. unfold region_str. destruct (note_back (fst r)) as (p & E & H). destruct (note_str_total (snd r)) as (t & T). exists p, t. rewrite E. cbn [bind]. rewrite T. auto.
Qed.
Print Assumptions C101_region.
Theorem C101_track : forall ids heap depth events, events <> [] -> closed events -> Forall (fun p => proper (snd p) /\ ~ ambiguous (snd p)) events ->
  exists body R, track_str ids heap depth events = Ok (asc "<track" ++ [10] ++ body ++ [10] ++ asc ">") /\
    read_list (spaces 2) body = Some R /\ Forall2 (fun p q => same_line events (snd p) (snd q)) events R.
Proof.
  intros ids heap depth events N C P. destruct (SeqTextProps.C93_list ids heap depth events (spaces 2) N C ltac:(vm_compute; lia) P) as (t & R & T & A & B & _).
  exists t, R. split; [|split; assumption]. unfold track_str. change (rep 32 2) with (spaces 2). rewrite T. reflexivity.
Qed.
Print Assumptions C101_track.
Theorem C101_unparsed_archive : forall s names, map fst (SsarModel.rSeqs s) = map Some names -> names <> [] -> Forall (fun n => ~ In 44 n /\ ~ In 32 n) names ->
  exists inner, ssar_unparsed_str s = asc "<ssar unparsed [" ++ inner ++ asc "]>" /\ split 44 (filter (fun c => negb (c =? 32)) inner) = names.
Proof.
  intros s names E NE F. exists (joined (asc ", ") names). split.
  - unfold ssar_unparsed_str. f_equal. f_equal. f_equal. etransitivity; [symmetry; apply (map_map fst str_name)|]. etransitivity; [exact (f_equal (map str_name) E)|]. rewrite map_map. cbn [str_name]. apply map_id.
  - clear E. assert (W : forall n, ~ In 32 n -> filter (fun c => negb (c =? 32)) n = n).
    { induction n as [|c n IH]; intro H; [reflexivity|]. cbn [filter]. cbn [In] in H. destruct (Z.eqb_spec c 32); [tauto|]. cbn [negb]. rewrite IH by tauto. reflexivity. }
    induction F as [|n l [N1 N2] F IH]; [contradiction|]. destruct l as [|n2 l].
    + cbn [joined]. rewrite W by exact N2. apply split_none, N1.
    + change (joined (asc ", ") (n :: n2 :: l)) with (n ++ asc ", " ++ joined (asc ", ") (n2 :: l)). rewrite !filter_app, W by exact N2. change (filter (fun c => negb (c =? 32)) (asc ", ")) with [44]. cbn [app]. rewrite split_cons by exact N1. f_equal. apply IH. discriminate.
Qed.
Print Assumptions C101_unparsed_archive.
Theorem C101_narc : forall n, nat_ids (NarcModel.nFilenames n) -> exists lines, strList 0 (Some (NarcModel.nFiles n)) (NarcModel.nFilenames n) = Ok lines /\
  narc_str n = Ok (asc "<narc" ++ (match NarcModel.nEndian n with LE => [] | BE => asc " endiannessOfBeginning='>'" end) ++ [10] ++ spaces 4 ++ joined (10 :: spaces 4) lines ++ [10] ++ asc ">").
Proof.
  intros n N. destruct (TextProps.C80_previews 0 (NarcModel.nFiles n) (NarcModel.nFilenames n) N) as (P & S & col & _ & E & _). exists S. split; [exact E|]. unfold narc_str. rewrite E. reflexivity.
Qed.
Print Assumptions C101_narc.

Example C101_more_ex :
  swav_str {| WaveModel.wType := WaveModel.ADPCM; WaveModel.wLooped := true; WaveModel.wRate := 32728; WaveModel.wTime := 511; WaveModel.wLoop := 1; WaveModel.wTotal := 4; WaveModel.wData := [1; 2; 3; 4] |} = asc "<swav ADPCM 32728Hz looped>" /\
  swar_str {| WaveModel.rUnk02 := 0; WaveModel.rWaves := [{| WaveModel.wType := WaveModel.PCM8; WaveModel.wLooped := false; WaveModel.wRate := 8000; WaveModel.wTime := 0; WaveModel.wLoop := 0; WaveModel.wTotal := 0; WaveModel.wData := [] |}] |} =
    join_lines [asc "<swar"; asc "    [0] <swav PCM8 8000Hz>"; asc ">"] /\
  palette_str {| TexModel.pl00 := 0; TexModel.pl02 := 0; TexModel.plH02 := 0; TexModel.plColors := [ColorModel.C4 1 2 3 4; ColorModel.C4 31 0 0 1] |} = asc "<palette (2 colors) [(1,2,3,4), (31,0,0,1)]>" /\
  strm_str {| WaveModel.sType := WaveModel.PCM16; WaveModel.sLooped := true; WaveModel.sChannels := [[[1]]; [[2]]]; WaveModel.sUnk03 := 0; WaveModel.sRate := 16000; WaveModel.sTime := 0; WaveModel.sLoop := 0; WaveModel.sPerBlock := 1;
    WaveModel.sInLast := 1; WaveModel.sUnks := []; WaveModel.sInfo := (0, 100, 0, 0, 0) |} = asc "<strm PCM16 16000Hz [2 channels of 1 block each] volume=100 looped>" /\
  strm_str {| WaveModel.sType := WaveModel.PCM16; WaveModel.sLooped := false; WaveModel.sChannels := [[[1]; [3]]]; WaveModel.sUnk03 := 0; WaveModel.sRate := 16000; WaveModel.sTime := 0; WaveModel.sLoop := 0; WaveModel.sPerBlock := 1;
    WaveModel.sInLast := 1; WaveModel.sUnks := []; WaveModel.sInfo := (0, 100, 0, 0, 0) |} = asc "<strm PCM16 16000Hz [1 channel of 2 blocks each] volume=100>" /\
  strm_str {| WaveModel.sType := WaveModel.PCM8; WaveModel.sLooped := false; WaveModel.sChannels := [[[1]; [3]]; []]; WaveModel.sUnk03 := 0; WaveModel.sRate := 16000; WaveModel.sTime := 0; WaveModel.sLoop := 0; WaveModel.sPerBlock := 1;
    WaveModel.sInLast := 1; WaveModel.sUnks := []; WaveModel.sInfo := (0, 100, 0, 0, 0) |} = asc "<strm PCM8 16000Hz [2 channels of differing numbers of blocks each] volume=100>" /\
  map (fun f => texture_str (TexModel.tex_fromFlags 0 0 false false false false 8 16 f false 0 0 [] [])) [0; 1; 2; 3; 4; 5; 6; 7] =
    [asc "<texture unknown-0 8x16>"; asc "<texture a3i5 8x16>"; asc "<texture i2 8x16>"; asc "<texture i4 8x16>"; asc "<texture i8 8x16>"; asc "<texture texeled 8x16>"; asc "<texture a5i3 8x16>"; asc "<texture a1bgr5 8x16>"] /\
  mcf_str {| CodeModel.mSections := [{| CodeModel.sData := [9; 65]; CodeModel.sRam := 0x2000AB0; CodeModel.sBss := 0x1C; CodeModel.sImplicit := true |}]; CodeModel.mRam := 0x2000000; CodeModel.mCso := None |} =
    Ok (join_lines [asc "<main-code at 0x02000000"; asc "    <code-section at 0x02000AB0: b'\tA' implicit>"; asc ">"]) /\
  rom_str RomModel.rom_new = asc "<rom " ++ [34; 34] ++ asc " (####)>" /\
  region_str (59, {| SbnkModel.nWave := 2; SbnkModel.nArch := 1; SbnkModel.nPitch := 60; SbnkModel.nAttack := 127; SbnkModel.nDecay := 127; SbnkModel.nSustain := 127; SbnkModel.nRelease := 127; SbnkModel.nPan := 64; SbnkModel.nType := 2 |}) =
    Ok (asc "<region through b <note def c' (PSG square wave: 37.5% duty cycle)>>") /\
  track_str (fun _ => 0) (fun _ => SeqModel.Rest 0) 100 [(1, SeqModel.Rest 2); (2, SeqModel.Bare 0xFF)] = Ok (join_lines [asc "<track"; asc "     [0] <rest 2>,"; asc "     [1] <end track>"; asc ">"]) /\
  narc_str {| NarcModel.nFilenames := FntModel.Folder [] [asc "x"] 0; NarcModel.nFiles := [[1; 50; 255]]; NarcModel.nEndian := BE |} = Ok (join_lines [asc "<narc endiannessOfBeginning='>'"; asc "    0000 x    b'\x012\xff'"; asc ">"]).
Proof. repeat split; vm_compute; reflexivity. Qed.
Example C101_repr_ex : let note t := {| SbnkModel.nWave := 2; SbnkModel.nArch := 1; SbnkModel.nPitch := 60; SbnkModel.nAttack := 127; SbnkModel.nDecay := 126; SbnkModel.nSustain := 125; SbnkModel.nRelease := 124; SbnkModel.nPan := 64; SbnkModel.nType := t |} in
  let inst b := {| SbnkModel.iBody := b; SbnkModel.iKey := 0; SbnkModel.iMerge := 0 |} in
  let ids := fun _ => 0 in let heap := fun _ => SeqModel.Rest 0 in let evs := [(1, SeqModel.Rest 2); (2, SeqModel.Bare 0xFF)] in
  sbnk_repr {| SbnkModel.bInsts := [Some (inst (SbnkModel.Single (note 4))); None; Some (inst (SbnkModel.Ranged 60 [note 2])); Some (inst (SbnkModel.Regional [(59, note 3)]))]; SbnkModel.bInacc := []; SbnkModel.bUnk := 0; SbnkModel.bWars := [Some 3; None] |} =
    asc "SBNK.fromInstruments([SingleNoteInstrument(NoteDefinition(2, 1, 60, 127, 126, 125, 124, 64, 4)), None, RangeInstrument(60, [NoteDefinition(2, 1, 60, 127, 126, 125, 124, 64, <NoteType.PSG_SQUARE_WAVE: 2>)]), RegionalInstrument([Region(59, NoteDefinition(2, 1, 60, 127, 126, 125, 124, 64, <NoteType.PSG_WHITE_NOISE: 3>))])], waveArchiveIDs=[3, None])" /\
  swar_repr {| WaveModel.rUnk02 := 0; WaveModel.rWaves := [{| WaveModel.wType := WaveModel.PCM16; WaveModel.wLooped := false; WaveModel.wRate := 8000; WaveModel.wTime := 5; WaveModel.wLoop := 6; WaveModel.wTotal := 7; WaveModel.wData := [65] |}] |} =
    Ok (asc "SWAR.fromWaves([SWAV.fromData(b'A', waveType=<WaveType.PCM16: 1>, isLooped=False, sampleRate=8000, time=5, loopOffset=6, totalLength=7)])") /\
  track_repr ids heap 9 evs = Ok (asc "Track([RestSequenceEvent(2), EndTrackSequenceEvent()])") /\
  music_repr ids heap 9 {| SsarModel.qParsed := true; SsarModel.qEvents := evs; SsarModel.qData := []; SsarModel.qInfo := (1, 2, 3, 4, 5, 6) |} =
    Ok (asc "SSEQMusic(SSEQ.fromEvents([RestSequenceEvent(2), EndTrackSequenceEvent()], 1, 2, 3, 4, 5, 6))") /\
  sseq_repr ids heap 9 {| SsarModel.qParsed := true; SsarModel.qEvents := evs ++ evs ++ evs ++ evs ++ evs; SsarModel.qData := []; SsarModel.qInfo := (1, 2, 3, 4, 5, 6) |} =
    Ok (asc "SSEQ.fromEvents([RestSequenceEvent(2), EndTrackSequenceEvent(), RestSequenceEvent(2), EndTrackSequenceEvent(), RestSequenceEvent(2), EndTrackSequenceEvent(), RestSequenceEvent(2), EndTrackSequenceEvent(), ...], 1, 2, 3, 4, 5, 6)") /\
  ssar_repr (fun _ => true) ids heap 9 {| SsarModel.rParsed := false; SsarModel.rEvents := []; SsarModel.rData := [65]; SsarModel.rSeqs := [(Some (asc "X"), SsarModel.aseq_unparsed (Some 3) (1, 2, 3, 4, 5)); (None, SsarModel.aseq_unparsed None (1, 2, 3, 4, 5))]; SsarModel.rUnk := 0 |} =
    Ok (asc "SSAR(b'A', names=['X', 'None'])").
Proof. cbv zeta. repeat split; vm_compute; reflexivity. Qed.

(** * Text in BMG files: strict decoding (C95), and saving what was loaded (C96) *)
From Coq Require Import String.
From Verif Require Import PyBase PyLemmas PyTac AtLemmas BmgModel BmgSpec BmgText BmgScan BmgFile BmgLoad BmgSave BmgProps BmgExact BmgResave BmgReload.

(** C95: bytes decode to a text exactly when that text encodes to those bytes:
    no over-long forms, no stray continuation bytes, no lone surrogates and no
    undefined code pages entries are let through, and nothing else is refused *)
Theorem C95_decode_iff_encode : forall sj x e d s,
  x <> ShiftJis -> is_bytes d ->
  (c_dec (full_codec sj x e) d = Ok s <-> is_text s /\ encode (full_codec sj x e) s = Ok d).
Proof.
  intros sj x e d s NS B. split; [apply exact_full; assumption|]. intros [T E]. apply reads_chars_dec; [apply reads_full; exact NS|exact T|exact E].
Qed.
Print Assumptions C95_decode_iff_encode.
(** U+00E9 U+20AC U+1F600 in the three encodings; E2 82 and C0 80 are refused *)
Example C95_decode_ex :
  c_dec (full_codec sj_ascii Utf8 LE) [0xC3; 0xA9; 0xE2; 0x82; 0xAC; 0xF0; 0x9F; 0x98; 0x80] = Ok [0xE9; 0x20AC; 0x1F600] /\
  encode (full_codec sj_ascii Utf16 BE) [0xE9; 0x20AC; 0x1F600] = Ok [0; 0xE9; 0x20; 0xAC; 0xD8; 0x3D; 0xDE; 0] /\
  c_dec (full_codec sj_ascii Cp1252 LE) [0xE9; 0x80] = Ok [0xE9; 0x20AC] /\
  c_dec (full_codec sj_ascii Utf8 LE) [0xE2; 0x82] = Err UnicodeError /\
  c_dec (full_codec sj_ascii Utf8 LE) [0xC0; 0x80] = Err UnicodeError /\
  c_dec (full_codec sj_ascii Utf8 LE) [0xC3; 0xC0] = Err UnicodeError /\
  c_dec (full_codec sj_ascii Utf16 LE) [0; 0xD8] = Err UnicodeError /\
  c_dec (full_codec sj_ascii Cp1252 LE) [0x81] = Err UnicodeError.
Proof. vm_compute. repeat split. Qed.

(** text that cannot be decoded or encoded raises UnicodeError and nothing else *)
Theorem C95_unicode_errors : forall sj x e,
  x <> ShiftJis ->
  (forall d k, c_dec (full_codec sj x e) d = Err k -> k = UnicodeError) /\
  (forall s k, encode (full_codec sj x e) s = Err k -> k = UnicodeError).
Proof. intros sj x e NS. split; intros; [apply (dec_unicode sj x e d)|apply (encode_unicode sj x e s)]; assumption. Qed.
Print Assumptions C95_unicode_errors.
Example C95_unicode_errors_ex :
  encode (full_codec sj_ascii Cp1252 LE) [0x3042] = Err UnicodeError /\ encode (full_codec sj_ascii Utf8 LE) [0xD800] = Err UnicodeError.
Proof. vm_compute. repeat split. Qed.

(** utf-16 and utf-8 can encode every text without surrogates, and only those *)
Theorem C95_utf_encodable : forall sj x e s,
  x = Utf16 \/ x = Utf8 ->
  ((exists d, encode (full_codec sj x e) s = Ok d) <-> forall ch, In ch s -> ~ 0xD800 <= ch <= 0xDFFF).
Proof.
  intros sj x e s HX. rewrite encode_total. split; intros H ch I.
  - destruct (H ch I) as (u & E). intros R. assert (S : surrogateb ch = true) by (unfold surrogateb; lia).
    destruct HX as [->| ->]; cbn [full_codec c_char] in E; unfold utf16_char, utf8_char in E; rewrite S in E; discriminate.
  - specialize (H ch I). assert (S : surrogateb ch = false) by (unfold surrogateb; lia).
    destruct HX as [->| ->]; cbn [full_codec c_char]; unfold utf16_char, utf8_char; rewrite S.
    + destruct (ch <? 65536); eexists; reflexivity.
    + destruct (ch <? 128); [eexists; reflexivity|]. destruct (ch <? 2048); [eexists; reflexivity|]. destruct (ch <? 65536); eexists; reflexivity.
Qed.
Print Assumptions C95_utf_encodable.
Example C95_utf_encodable_ex : exists d, encode (full_codec sj_ascii Utf8 LE) [0x10FFFF; 0] = Ok d /\ d = [0xF4; 0x8F; 0xBF; 0xBF; 0].
Proof. eexists. split; vm_compute; reflexivity. Qed.

(** C96: a message read from any text section at a non-zero offset is saved as
    exactly the bytes it was read from, terminator included, provided the stated
    length of every escape covers the escape's own header *)
Theorem C96_message_resave : forall sj x e nul esc dat off info m,
  x <> ShiftJis -> is_bytes dat ->
  encode (full_codec sj x e) [0] = Ok nul -> encode (full_codec sj x e) [0x1A] = Ok esc ->
  0 < off -> stored nul esc dat off ->
  load_message (full_codec sj x e) nul esc dat (off, info) = Ok m ->
  mInfo m = info /\ mNull m = false /\
  exists stop, off <= stop /\ slice dat stop (stop + zlen nul) = nul /\
    message_save (full_codec sj x e) m = Ok (slice dat off (stop + zlen nul)).
Proof.
  intros sj x e nul esc dat off info m NS B EN EE O S L.
  destruct (marks_of sj x e nul) as (esc' & MK & _); [intros ->; contradiction|exact EN|].
  assert (esc' = esc) by (destruct MK as (_ & E & _); congruence). subst esc'.
  apply (message_saves _ nul esc dat MK (exact_full sj x e NS) (whole_full sj x e nul NS EN) B off info m O S L).
Qed.
Print Assumptions C96_message_resave.
(** "A", an escape of four bytes (type 7, data [9]), "é" *)
Example C96_message_resave_ex :
  let dat := [0; 65; 26; 4; 7; 9; 0xC3; 0xA9; 0; 66] in
  stored [0] [26] dat 1 /\
  load_message (full_codec sj_ascii Utf8 LE) [0] [26] dat (1, [5]) = Ok (mkMessage [5] [Txt [65]; Esc 7 [9]; Txt [0xE9]] false) /\
  message_save (full_codec sj_ascii Utf8 LE) (mkMessage [5] [Txt [65]; Esc 7 [9]; Txt [0xE9]] false) = Ok (slice dat 1 9).
Proof.
  cbv zeta. split; [|split; vm_compute; reflexivity].
  apply stored_unit; [vm_compute; repeat split; discriminate|]. eapply stored_escape; [vm_compute; reflexivity|vm_compute; reflexivity|vm_compute; discriminate|].
  do 2 (apply stored_unit; [vm_compute; repeat split; discriminate|]). apply stored_end. vm_compute. reflexivity.
Qed.

(** an escape whose stated length is too short is not saved as it was read *)
Theorem C96_short_escape_refuted : exists dat m,
  is_bytes dat /\ load_message (full_codec sj_ascii Utf8 LE) [0] [26] dat (1, []) = Ok m /\
  message_save (full_codec sj_ascii Utf8 LE) m = Ok [26; 3; 7; 7; 0] /\ slice dat 1 5 = [26; 2; 7; 0].
Proof.
  exists [0; 26; 2; 7; 0], (mkMessage [] [Esc 7 []; Txt [7]] false). split; [repeat (constructor; [unfold is_byte; lia|]); constructor|]. split; [vm_compute; reflexivity|]. split; vm_compute; reflexivity.
Qed.
Print Assumptions C96_short_escape_refuted.

(** loading, saving and loading again: whatever bytes the file was made of, the
    second load gives what the first one gave; a big-endian file with scripts is
    the one exception (C21) *)
Theorem C96_reload : forall sj id0 id1 data b data',
  is_bytes data -> bmg_load sj id0 data = Ok b -> bEncoding b <> ShiftJis ->
  bmg_save sj b = Ok data' -> length_tells (bEndian b) (claimed_len data') ->
  (bEndian b = BE -> bScripts b = []) ->
  bmg_load sj id1 data' = Ok b.
Proof.
  intros sj id0 id1 data b data' B L NS S LT BE0. destruct (load_canonical sj id0 data b B NS L) as (T & C1 & C2 & C3 & C4).
  apply C21_canonical_roundtrip; [exact S|exact T|intros X; contradiction|exact LT|].
  assert (I8 : forall i, In i (bInstructions b) -> zlen i = 8) by (apply (save_fits sj b data' ltac:(intros X; contradiction) S)).
  split; [exact C1|]. split; [|split; [exact C3|]].
  - intros i Hi. rewrite <- forallb_zero_eq by (apply I8; exact Hi). rewrite BmgScan.beq_neq by (apply C2; exact Hi). reflexivity.
  - intros s Hs. destruct (bEndian b); [left; split; [reflexivity|apply (C4 s Hs)]|]. rewrite (BE0 eq_refl) in Hs. destruct Hs.
Qed.
Print Assumptions C96_reload.
(** a file whose sections come in the other order *)
Definition swapped_file : bytes :=
  asc "MESGbmg1" ++ le 4 0x60 ++ le 4 2 ++ [4] ++ zeros 15 ++
  asc "DAT1" ++ le 4 0x20 ++ [0; 0; 0; 72; 26; 5; 7; 1; 2; 105; 0] ++ zeros 13 ++
  asc "INF1" ++ le 4 0x20 ++ le 2 2 ++ le 2 4 ++ le 4 9 ++ le 4 3 ++ le 4 0 ++ zeros 8.
Example C96_reload_ex : exists b data',
  bmg_load sj_ascii 0 swapped_file = Ok b /\ bEncoding b = Utf8 /\ bEndian b = LE /\
  bMessages b = [mkMessage [] [Txt [72]; Esc 7 [1; 2]; Txt [105]] false; mkMessage [] [] true] /\
  bmg_save sj_ascii b = Ok data' /\ length_tells (bEndian b) (claimed_len data') /\ data' <> swapped_file.
Proof. eexists. eexists. split; [vm_compute; reflexivity|]. repeat (split; [vm_compute; reflexivity|]). vm_compute. discriminate. Qed.

(** * Model of the printing of the remaining objects: [__repr__] of bnbl.py and bncl.py,
    [__repr__] and [__str__] of fnt.py, narc.py, rom.py, code.py, bmg.py, texture.py, soundWave.py, soundWaveArchive.py,
    soundStream.py, soundGroup.py, soundSequencePlayer.py, soundStreamPlayer.py,
    soundBank.py, soundArchive.py, soundSequence.py, soundSequenceArchive.py and
    extras/music.py

    Definitions only.  A [str] is the list of its code points (TextModel).
    Simplifications: classes are not subclassed, so [type(self).__name__] is the name
    of the class; Python's recursion limit is not modelled here except for the events
    (see SeqTextModel); a set is shown in the order of the list that stands for it.
    CPython's table of printable characters from U+0080 on is a parameter. *)
From Coq Require Import String.
From Verif Require Import PyBase TextModel SeqTextModel.
From Verif Require CommonModel BnModel ColorModel FntModel NarcModel RomModel CodeModel BmgModel TexModel WaveModel SbnkModel SeqModel SsarModel SdatModel MusicModel.

(** ** Python's own representations *)

(** [n:08X], [n:X] of an integer, in upper case *)
Definition hex_digit_up (n : Z) : Z := if n <? 10 then 48 + n else 55 + n.
Fixpoint hexdigits_up (fuel : nat) (n : Z) : text :=
  match fuel with
  | O => []
  | S k => if n <? 16 then [hex_digit_up n] else hexdigits_up k (n / 16) ++ [hex_digit_up (n mod 16)]
  end.
Definition hex_up (n : Z) : text := hexdigits_up (S (Z.to_nat (Z.log2 n))) n.
Definition fmt_X (width n : Z) : text :=
  if n <? 0 then 45 :: rep 48 (width - 1 - zlen (hex_up (- n))) ++ hex_up (- n)
  else rep 48 (width - zlen (hex_up n)) ++ hex_up n.
(** [hex(n)] without sign and prefix, at least [width] digits *)
Fixpoint hex_fixed (width : nat) (n : Z) : text :=
  match width with O => [] | S k => hex_fixed k (n / 16) ++ [hex_digit (n mod 16)] end.

(** [repr] of a bool, and of a list, tuple or set of things with these representations *)
Definition repr_bool (b : bool) : text := if b then asc "True" else asc "False".
Definition repr_list (l : list text) : text := asc "[" ++ joined (asc ", ") l ++ asc "]".
Definition repr_pair (a b : text) : text := asc "(" ++ a ++ asc ", " ++ b ++ asc ")".
Definition repr_set (l : list Z) : text :=
  match l with [] => asc "set()" | _ => asc "{" ++ joined (asc ", ") (map str_int l) ++ asc "}" end.
(** a call *)
Definition call (f : text) (args : list text) : text := f ++ asc "(" ++ joined (asc ", ") args ++ asc ")".
(** [repr] of an enumeration member *)
Definition enum_repr (cls member : text) (v : Z) : text := asc "<" ++ cls ++ asc "." ++ member ++ asc ": " ++ str_int v ++ asc ">".
(** [repr] and [str] of None or an integer *)
Definition repr_opt (o : option Z) : text := match o with Some n => str_int n | None => asc "None" end.

(** ** bnbl.py, bncl.py *)

(** BNBLTouchArea and BNBL (bnbl.py:52-54, 177-183), BNCLImagePosition and BNCL
    (bncl.py:45-47, 119-125); alignments are plain integers *)
Definition area_repr (t : BnModel.touchArea) : text :=
  call (asc "BNBLTouchArea") (map str_int [BnModel.taX t; BnModel.taY t; BnModel.taW t; BnModel.taH t; BnModel.taAlign t]).
Definition bnbl_repr (b : BnModel.bnbl) : text :=
  asc "BNBL.fromTouchAreas(" ++ repr_list (map area_repr (BnModel.blAreas b))
  ++ (if BnModel.blUnk04 b =? 0 then [] else asc ", " ++ str_int (BnModel.blUnk04 b)) ++ asc ")".
Definition position_repr (p : BnModel.imagePosition) : text :=
  call (asc "BNCLImagePosition") (map str_int [BnModel.ipX p; BnModel.ipY p; BnModel.ipAlign p; BnModel.ipImageID p]).
Definition bncl_repr (b : BnModel.bncl) : text :=
  asc "BNCL.fromImagePositions(" ++ repr_list (map position_repr (BnModel.clPositions b))
  ++ (if BnModel.clUnk04 b =? 0 then [] else asc ", " ++ str_int (BnModel.clUnk04 b)) ++ asc ")".

Section Repr.
Context (printable : Z -> bool).

(** [repr] of a str *)
Definition repr_char (q c : Z) : text :=
  if (c =? q) || (c =? 92) then [92; c]
  else if c =? 9 then asc "\t" else if c =? 10 then asc "\n" else if c =? 13 then asc "\r"
  else if (c <? 32) || (c =? 127) then asc "\x" ++ hex_fixed 2 c
  else if c <? 127 then [c]
  else if printable c then [c]
  else if c <? 0x100 then asc "\x" ++ hex_fixed 2 c
  else if c <? 0x10000 then asc "\u" ++ hex_fixed 4 c
  else asc "\U" ++ hex_fixed 8 c.
Definition repr_str (s : text) : text := let q := quote_of s in [q] ++ flat_map (repr_char q) s ++ [q].
Definition repr_name (n : option text) : text := match n with Some s => repr_str s | None => asc "None" end.

(** ** fnt.py, narc.py, rom.py *)

(** Folder.__repr__ (fnt.py:261-264) *)
Fixpoint folder_repr (f : FntModel.folder) : text :=
  match f with
  | FntModel.Folder folders files first =>
      call (asc "Folder")
        [repr_list ((fix go (l : list (list Z * FntModel.folder)) : list text :=
                       match l with [] => [] | (n, g) :: r => repr_pair (repr_str n) (folder_repr g) :: go r end) folders);
         repr_list (map repr_str files); str_int first]
  end.
(** NARC.__str__ and __repr__ (narc.py:197-224); shortBytesRepr does not fail, so the
    handler at narc.py:214 is never used *)
Definition narc_str (n : NarcModel.narc) : res text :=
  let notes := match NarcModel.nEndian n with LE => [] | BE => asc " endiannessOfBeginning='>'" end in
  lines <- strList 0 (Some (NarcModel.nFiles n)) (NarcModel.nFilenames n) ;;
  Ok (asc "<narc" ++ notes ++ [10] ++ rep 32 4 ++ joined (10 :: rep 32 4) lines ++ [10] ++ asc ">").
Definition narc_repr (n : NarcModel.narc) : res text :=
  files <- match NarcModel.nFiles n with
           | [] => Ok (asc "[]")
           | f :: r =>
               t <- match shortBytesRepr f 0x20 with Ok t => Ok t | Err _ => Ok (asc "b'...'") end ;;
               Ok (asc "[" ++ t ++ (match r with [] => [] | _ => asc ", ..." end) ++ asc "]")
           end ;;
  Ok (call (asc "NARC.fromFilesAndNames") [files; folder_repr (NarcModel.nFilenames n)]).

(** [s[2:-1]] and [s.rstrip(' ')] *)
Definition inside (s : text) : text := slice s 2 (zlen s - 1).
Fixpoint rstrip_rev (s : text) : text := match s with 32 :: r => rstrip_rev r | _ => s end.
Definition rstrip (s : text) : text := rev (rstrip_rev (rev s)).
(** NintendoDSRom.__str__ and __repr__ (rom.py:627-634) *)
Definition rom_str (r : RomModel.rom) : text :=
  asc "<rom " ++ [34] ++ rstrip (inside (repr_bytes (RomModel.name r))) ++ [34] ++ asc " (" ++ inside (repr_bytes (RomModel.idCode r)) ++ asc ")>".
Definition rom_repr (r : RomModel.rom) : text := call (asc "NintendoDSRom") [rom_str r].

(** ** code.py *)

(** MainCodeFile.Section (code.py:81-93) *)
Definition section_str (s : CodeModel.section) : res text :=
  d <- shortBytesRepr (CodeModel.sData s) 0x20 ;;
  Ok (asc "<code-section at 0x" ++ fmt_X 8 (CodeModel.sRam s) ++ asc ": " ++ d ++ (if CodeModel.sImplicit s then asc " implicit" else []) ++ asc ">").
Definition section_repr (s : CodeModel.section) : res text :=
  d <- shortBytesRepr (CodeModel.sData s) 0x20 ;;
  Ok (call (asc "Section") ([d; asc "0x" ++ fmt_X 8 (CodeModel.sRam s); asc "0x" ++ fmt_X 0 (CodeModel.sBss s)]
                            ++ if CodeModel.sImplicit s then [asc "implicit=True"] else [])).
(** MainCodeFile (code.py:302-315) *)
Definition mcf_str (m : CodeModel.mcf) : res text :=
  l <- mapM section_str (CodeModel.mSections m) ;;
  Ok (join_lines ((asc "<main-code at 0x" ++ fmt_X 8 (CodeModel.mRam m)) :: map (fun s => rep 32 4 ++ s) l ++ [asc ">"])).
Definition mcf_repr (m : CodeModel.mcf) : res text :=
  l <- mapM section_repr (CodeModel.mSections m) ;;
  Ok (call (asc "MainCodeFile.fromSections") [repr_list l; asc "0x" ++ fmt_X 8 (CodeModel.mRam m)]).
(** Overlay (code.py:397-419) *)
Definition overlay_str (o : CodeModel.overlay) : text :=
  asc "<overlay " ++ joined (asc " ") ([asc "at 0x" ++ fmt_X 8 (CodeModel.oRamAddress o); asc "file=" ++ str_int (CodeModel.oFileID o)]
    ++ (if CodeModel.flags_compressed (CodeModel.oFlags o) then [asc "compressed"] else [])
    ++ (if CodeModel.flags_verifyHash (CodeModel.oFlags o) then [asc "verify-hash"] else [])) ++ asc ">".
Definition overlay_repr (o : CodeModel.overlay) : res text :=
  d <- shortBytesRepr (CodeModel.oData o) 0x20 ;;
  Ok (call (asc "Overlay")
    [d; asc "0x" ++ fmt_X 8 (CodeModel.oRamAddress o); asc "0x" ++ fmt_X 0 (CodeModel.oRamSize o); asc "0x" ++ fmt_X 0 (CodeModel.oBssSize o);
     asc "0x" ++ fmt_X 8 (CodeModel.oSiStart o); asc "0x" ++ fmt_X 8 (CodeModel.oSiEnd o); str_int (CodeModel.oFileID o);
     asc "0x" ++ fmt_X 0 (CodeModel.oCompressedSize o); asc "0x" ++ fmt_X 0 (CodeModel.oFlags o)]).

(** ** bmg.py *)

(** Message.Escape (bmg.py:417-421) *)
Definition escape_repr (type : Z) (data : bytes) : text := call (asc "Escape") [str_int type; repr_bytes data].
Definition escape_str (type : Z) (data : bytes) : text := asc "[" ++ str_int type ++ asc ":" ++ flat_map (hex_fixed 2) data ++ asc "]".
(** Message (bmg.py:460-464) *)
Definition part_repr (p : BmgModel.part) : text :=
  match p with BmgModel.Txt s => repr_str s | BmgModel.Esc t d => escape_repr t d end.
Definition message_repr (m : BmgModel.message) : text :=
  call (asc "Message") [repr_bytes (BmgModel.mInfo m); repr_list (map part_repr (BmgModel.mParts m))].
Definition message_str (m : BmgModel.message) : text :=
  flat_map (fun p => match p with BmgModel.Txt s => s | BmgModel.Esc t d => escape_str t d end) (BmgModel.mParts m).
(** BMG (bmg.py:354-379) *)
Definition bmg_str (b : BmgModel.bmg) : text :=
  asc "<bmg id=" ++ str_int (BmgModel.bId b) ++ asc " (" ++ str_int (zlen (BmgModel.bMessages b)) ++ asc " messages, "
  ++ str_int (zlen (BmgModel.bScripts b)) ++ asc " scripts)>".
Definition pairs_repr (l : list (Z * Z)) : text := repr_list (map (fun q => repr_pair (str_int (fst q)) (str_int (snd q))) l).
Definition bmg_repr (b : BmgModel.bmg) : text :=
  let args := [repr_list (map message_repr (BmgModel.bMessages b))] in
  let args := match BmgModel.bInstructions b with [] => args | l => args ++ [repr_list (map repr_bytes l)] end in
  let args := match BmgModel.bLabels b with [] => args | l => args ++ [(if zlen args <? 2 then asc "labels=" else []) ++ pairs_repr l] end in
  let args := match BmgModel.bScripts b with [] => args | l => args ++ [(if zlen args <? 3 then asc "scripts=" else []) ++ pairs_repr l] end in
  call (asc "BMG.fromMessages") (args ++ [asc "id=" ++ hex (BmgModel.bId b)]).

(** ** texture.py *)

(** shortColorsListRepr (_common.py:125-133) *)
Definition color_repr (c : ColorModel.color) : text :=
  let '(ColorModel.C4 r g b a) := c in asc "(" ++ joined (asc ",") (map str_int [r; g; b; a]) ++ asc ")".
Definition shortColorsListRepr (colors : list ColorModel.color) : text :=
  asc "[" ++ joined (asc ", ") (map color_repr (slice colors 0 20)) ++ (if 20 <? zlen colors then asc ", ..." else []) ++ asc "]".
(** Palette (texture.py:263-272) *)
Definition palette_str (p : TexModel.palette) : text :=
  asc "<palette (" ++ str_int (zlen (TexModel.plColors p)) ++ asc " colors) " ++ shortColorsListRepr (TexModel.plColors p) ++ asc ">".
Definition palette_repr (p : TexModel.palette) : text :=
  call (asc "Palette.fromColors") [str_int (TexModel.pl00 p); str_int (TexModel.pl02 p); str_int (TexModel.plH02 p); shortColorsListRepr (TexModel.plColors p)].
(** Texture (texture.py:207-237); an exception gives [...] *)
Definition texture_str (t : TexModel.texture) : text :=
  let f := TexModel.txFmt t in
  asc "<texture " ++ (if f =? 0 then asc "unknown-0" else if f =? 1 then asc "a3i5" else if f =? 2 then asc "i2" else if f =? 3 then asc "i4"
    else if f =? 4 then asc "i8" else if f =? 5 then asc "texeled" else if f =? 6 then asc "a5i3" else if f =? 7 then asc "a1bgr5" else asc "invalid")
  ++ asc " " ++ str_int (TexModel.txW t) ++ asc "x" ++ str_int (TexModel.txH t) ++ asc ">".
Definition texture_repr (t : TexModel.texture) : text :=
  let args := (p <- TexModel.tex_save t ;;
               let '(unk00, unk02, params, unk04, d1, d2) := p in
               d1 <- shortBytesRepr d1 0x20 ;; d2 <- shortBytesRepr d2 0x20 ;;
               Ok (joined (asc ", ") [str_int unk00; str_int unk02; hex params; str_int unk04; d1; d2])) in
  asc "Texture(" ++ (match args with Ok a => a | Err _ => asc "..." end) ++ asc ")".

(** ** sound *)

(** members of WaveType (ndspy/__init__.py:44-50) *)
Definition wave_name (w : WaveModel.waveType) : text :=
  match w with WaveModel.PCM8 => asc "PCM8" | WaveModel.PCM16 => asc "PCM16" | WaveModel.ADPCM => asc "ADPCM" end.
(** SWAV (soundWave.py:135-155) *)
Definition swav_str (w : WaveModel.swav) : text :=
  asc "<swav " ++ wave_name (WaveModel.wType w) ++ asc " " ++ str_int (WaveModel.wRate w) ++ asc "Hz" ++ (if WaveModel.wLooped w then asc " looped" else []) ++ asc ">".
Definition swav_repr (w : WaveModel.swav) : res text :=
  d <- shortBytesRepr (WaveModel.wData w) 0x20 ;;
  Ok (call (asc "SWAV.fromData")
    [d; asc "waveType=" ++ enum_repr (asc "WaveType") (wave_name (WaveModel.wType w)) (WaveModel.wt_val (WaveModel.wType w));
     asc "isLooped=" ++ repr_bool (WaveModel.wLooped w); asc "sampleRate=" ++ str_int (WaveModel.wRate w); asc "time=" ++ str_int (WaveModel.wTime w);
     asc "loopOffset=" ++ str_int (WaveModel.wLoop w); asc "totalLength=" ++ str_int (WaveModel.wTotal w)]).
(** SWAR (soundWaveArchive.py:148-156) *)
Definition swar_str (s : WaveModel.swar) : text :=
  join_lines (asc "<swar" :: enumeratedListOfStrs (map swav_str (WaveModel.rWaves s)) 4 ++ [asc ">"]).
Definition swar_repr (s : WaveModel.swar) : res text :=
  l <- mapM swav_repr (WaveModel.rWaves s) ;; Ok (call (asc "SWAR.fromWaves") [repr_list l]).
(** STRM (soundStream.py:265-307) *)
Definition strm_str (s : WaveModel.strm) : text :=
  let ch := WaveModel.sChannels s in
  let info := match ch with
              | [] => asc "[0 channels]"
              | c :: _ =>
                  let blocks := if forallb (fun d => zlen d =? zlen c) ch
                                then asc "of " ++ str_int (zlen c) ++ asc " " ++ (if zlen c =? 1 then asc "block" else asc "blocks") ++ asc " each"
                                else asc "of differing numbers of blocks each" in
                  asc "[" ++ str_int (zlen ch) ++ asc " " ++ (if zlen ch =? 1 then asc "channel" else asc "channels") ++ asc " " ++ blocks ++ asc "]"
              end in
  let '(_, volume, _, _, _) := WaveModel.sInfo s in
  asc "<strm " ++ wave_name (WaveModel.sType s) ++ asc " " ++ str_int (WaveModel.sRate s) ++ asc "Hz " ++ info ++ asc " volume=" ++ str_int volume
  ++ (if WaveModel.sLooped s then asc " looped" else []) ++ asc ">".
Definition strm_repr (s : WaveModel.strm) : res text :=
  c <- match WaveModel.sChannels s with
       | [] => Ok []
       | c :: r =>
           b <- match c with
                | [] => Ok []
                | b :: rb => t <- shortBytesRepr b 0x20 ;; Ok (t ++ match rb with [] => [] | _ => asc ", ..." end)
                end ;;
           Ok (asc "[" ++ b ++ asc "]" ++ match r with [] => [] | _ => asc ", ..." end)
       end ;;
  let '(unk02, volume, priority, playerID, unk07) := WaveModel.sInfo s in
  Ok (call (asc "STRM.fromChannels") [asc "[" ++ c ++ asc "]"; str_int unk02; str_int volume; str_int priority; str_int playerID; str_int unk07]).

(** GroupEntryType (soundGroup.py:25-33) and GroupEntry (soundGroup.py:102-140);
    SWARLoadMethod.FILE_IDS is 0, so it counts as false at soundGroup.py:112 *)
Definition group_types : list text := [asc "SSEQ"; asc "SBNK"; asc "SWAR"; asc "SSAR"].
Definition lower_types : list text := [asc "sseq"; asc "sbnk"; asc "swar"; asc "ssar"].
Definition group_str (g : WaveModel.groupEntry) : text :=
  let typeName := nth (Z.to_nat (WaveModel.gType g)) lower_types (str_int (WaveModel.gType g)) in
  let options := joined (asc " ") ((if WaveModel.gLoadSSEQ g then [asc "load-sseq"] else []) ++ (if WaveModel.gSwarIds g then [asc "load-swars-by-swar-id"] else [])
                   ++ (if WaveModel.gLoadSWAR g then [asc "load-swar"] else []) ++ (if WaveModel.gLoadSSAR g then [asc "load-ssar"] else [])) in
  asc "<group-entry-" ++ typeName ++ asc " " ++ str_int (WaveModel.gId g) ++ (match options with [] => [] | _ => asc " " end) ++ options ++ asc ">".
Definition group_repr (g : WaveModel.groupEntry) : text :=
  call (asc "GroupEntry.fromFlags")
    ([enum_repr (asc "GroupEntryType") (nth (Z.to_nat (WaveModel.gType g)) group_types []) (WaveModel.gType g); str_int (WaveModel.gId g)]
     ++ (if WaveModel.gLoadSSEQ g then [asc "loadSSEQ=True"] else [])
     ++ (if WaveModel.gSwarIds g then [] else [asc "loadSBNKSWARsFrom=" ++ enum_repr (asc "SWARLoadMethod") (asc "FILE_IDS") 0])
     ++ (if WaveModel.gLoadSWAR g then [asc "loadSWAR=True"] else []) ++ (if WaveModel.gLoadSSAR g then [asc "loadSSAR=True"] else [])).

(** SequencePlayer (soundSequencePlayer.py:40-46) *)
Definition player_str (p : SdatModel.player) : text :=
  let '(maxSequences, channels, heapSize) := p in
  asc "<sequence-player maxSequences=" ++ str_int maxSequences ++ asc " channels=" ++ repr_list (map str_int (sorted_set channels)) ++ asc " heapSize=" ++ str_int heapSize ++ asc ">".
Definition player_repr (p : SdatModel.player) : text :=
  let '(maxSequences, channels, heapSize) := p in
  call (asc "SequencePlayer") [str_int maxSequences; repr_set channels; str_int heapSize].
(** StreamPlayer (soundStreamPlayer.py:26-46): the list of channels *)
Definition splayer_new (channels : option (list Z)) : list Z := match channels with Some c => c | None => [] end.
Definition splayer_save (channels : list Z) : list Z := channels.
Definition splayer_str (channels : list Z) : text := asc "<stream-player " ++ repr_list (map str_int channels) ++ asc ">".
Definition splayer_repr (channels : list Z) : text :=
  match channels with [] => call (asc "StreamPlayer") [repr_list (map str_int channels)] | _ => call (asc "StreamPlayer") [] end.

(** ** soundBank.py *)

(** the percentages (soundBank.py:115-122) *)
Definition duty_cycles : list text :=
  [asc "12.5%"; asc "25%"; asc "37.5%"; asc "50%"; asc "62.5%"; asc "75%"; asc "87.5%"; asc "0%"].
(** NoteDefinition (soundBank.py:111-137); the types 1 to 3 are members of NoteType *)
Definition note_str (n : SbnkModel.note) : res text :=
  p <- noteName (SbnkModel.nPitch n) ;;
  extra <- (if SbnkModel.nType n =? 2 then pct <- get duty_cycles (Z.land (SbnkModel.nWave n) 7) ;; Ok (asc "PSG square wave: " ++ pct ++ asc " duty cycle")
            else if SbnkModel.nType n =? 3 then Ok (asc "PSG white noise")
            else Ok (asc "PCM: SWAR " ++ str_int (SbnkModel.nArch n) ++ asc ", SWAV " ++ str_int (SbnkModel.nWave n))) ;;
  Ok (asc "<note def " ++ p ++ asc " (" ++ extra ++ asc ")>").
Definition note_type_repr (t : Z) : text :=
  if t =? 1 then enum_repr (asc "NoteType") (asc "PCM") t
  else if t =? 2 then enum_repr (asc "NoteType") (asc "PSG_SQUARE_WAVE") t
  else if t =? 3 then enum_repr (asc "NoteType") (asc "PSG_WHITE_NOISE") t
  else str_int t.
Definition note_repr (n : SbnkModel.note) : text :=
  call (asc "NoteDefinition")
    (map str_int [SbnkModel.nWave n; SbnkModel.nArch n; SbnkModel.nPitch n; SbnkModel.nAttack n; SbnkModel.nDecay n; SbnkModel.nSustain n;
                  SbnkModel.nRelease n; SbnkModel.nPan n] ++ [note_type_repr (SbnkModel.nType n)]).
(** betterNoteName (soundBank.py:366-369) *)
Definition better_name (n : Z) : res text := if n =? 0 then Ok (asc "min") else if n =? 127 then Ok (asc "max") else noteName n.
(** the loops of RangeInstrument.__str__ (soundBank.py:276-279) and
    RegionalInstrument.__str__ (soundBank.py:365-373) *)
Fixpoint range_texts (pitch : Z) (l : list SbnkModel.note) : res (list text) :=
  match l with
  | [] => Ok []
  | d :: r => n <- noteName pitch ;; t <- note_str d ;; ts <- range_texts (pitch + 1) r ;; Ok ((n ++ asc ": " ++ t) :: ts)
  end.
Fixpoint region_texts (last : Z) (l : list (Z * SbnkModel.note)) : res (list text) :=
  match l with
  | [] => Ok []
  | (p, d) :: r =>
      a <- better_name last ;; b <- better_name p ;; t <- note_str d ;;
      ts <- region_texts (p + 1) r ;; Ok ((a ++ asc "-" ++ b ++ asc ": " ++ t) :: ts)
  end.
(** RegionalInstrument.Region (soundBank.py:307-315) *)
Definition region_str (r : Z * SbnkModel.note) : res text :=
  p <- noteName (fst r) ;; t <- note_str (snd r) ;; Ok (asc "<region through " ++ p ++ asc " " ++ t ++ asc ">").
Definition region_repr (r : Z * SbnkModel.note) : text := call (asc "Region") [str_int (fst r); note_repr (snd r)].
(** the instruments (soundBank.py:219-224, 275-291, 362-379) *)
Definition inst_str (i : SbnkModel.inst) : res text :=
  match SbnkModel.iBody i with
  | SbnkModel.Single n => t <- note_str n ;; Ok (asc "<single-note instrument " ++ t ++ asc ">")
  | SbnkModel.Ranged first l =>
      ts <- range_texts first l ;; f <- noteName first ;;
      Ok (asc "<range instrument starting at " ++ f ++ asc " {" ++ joined (asc ", ") ts ++ asc "}>")
  | SbnkModel.Regional l => ts <- region_texts 0 l ;; Ok (asc "<regional instrument {" ++ joined (asc ", ") ts ++ asc "}>")
  end.
Definition inst_repr (i : SbnkModel.inst) : text :=
  match SbnkModel.iBody i with
  | SbnkModel.Single n => call (asc "SingleNoteInstrument") [note_repr n]
  | SbnkModel.Ranged first l => call (asc "RangeInstrument") [str_int first; repr_list (map note_repr l)]
  | SbnkModel.Regional l =>
      call (asc "RegionalInstrument") [repr_list (map region_repr l)]
  end.
(** SBNK (soundBank.py:795-805) *)
Definition sbnk_str (b : SbnkModel.sbnk) : res text :=
  l <- mapM (fun o => match o with Some i => inst_str i | None => Ok (asc "None") end) (SbnkModel.bInsts b) ;;
  Ok (join_lines ((asc "<sbnk waveArchiveIDs=" ++ repr_list (map repr_opt (SbnkModel.bWars b))) :: enumeratedListOfStrs l 4 ++ [asc ">"])).
Definition sbnk_repr (b : SbnkModel.sbnk) : text :=
  call (asc "SBNK.fromInstruments")
    [repr_list (map (fun o => match o with Some i => inst_repr i | None => asc "None" end) (SbnkModel.bInsts b));
     asc "waveArchiveIDs=" ++ repr_list (map repr_opt (SbnkModel.bWars b))].

(** ** soundArchive.py *)

(** SDAT (soundArchive.py:850-867) *)
Definition sdat_str (s : SdatModel.sdat) : text :=
  asc "<sdat " ++ str_int (zlen (SdatModel.dSeqs s)) ++ asc " sequences " ++ str_int (zlen (SdatModel.dArchs s)) ++ asc " sequence archives "
  ++ str_int (zlen (SdatModel.dBanks s)) ++ asc " banks " ++ str_int (zlen (SdatModel.dWars s)) ++ asc " wave archives "
  ++ str_int (zlen (SdatModel.dPlayers s)) ++ asc " sequence players " ++ str_int (zlen (SdatModel.dGroups s)) ++ asc " groups "
  ++ str_int (zlen (SdatModel.dSPlayers s)) ++ asc " stream players " ++ str_int (zlen (SdatModel.dStrms s)) ++ asc " streams>".
Definition sdat_repr (s : SdatModel.sdat) : text :=
  call (asc "SDAT") [match d <- SdatModel.sdat_save s ;; shortBytesRepr d 0x20 with Ok t => t | Err _ => asc "..." end].

(** ** soundSequence.py, soundSequenceArchive.py, extras/music.py *)
Context (ids : SeqModel.ref -> Z) (heap : Z -> SeqModel.ev) (depth : nat).

Definition events_repr (l : list (Z * SeqModel.ev)) : res (list text) := mapM (fun e => ev_repr ids heap depth (snd e)) l.
(** SSEQ.__repr__ (soundSequence.py:182-200) *)
Definition sseq_repr (s : SsarModel.sseq) : res text :=
  let '(unk02, bank, volume, cp, pp, player) := SsarModel.qInfo s in
  if SsarModel.qParsed s then
    l <- events_repr (slice (SsarModel.qEvents s) 0 8) ;;
    let ev := if 8 <? zlen (SsarModel.qEvents s) then slice_to (repr_list l) (-1) ++ asc ", ...]" else repr_list l in
    Ok (call (asc "SSEQ.fromEvents") (ev :: map str_int [unk02; bank; volume; cp; pp; player]))
  else d <- shortBytesRepr (SsarModel.qData s) 0x20 ;; Ok (call (asc "SSEQ") [d]).
(** SSARSequence (soundSequenceArchive.py:328-347) *)
Definition aseq_str (s : SsarModel.aseq) : text :=
  let '(bank, volume, _, _, player) := SsarModel.aParams s in
  asc "<ssar-sequence" ++ (if SsarModel.aParsed s then [] else asc " unparsed") ++ asc " bank=" ++ str_int bank ++ asc " volume=" ++ str_int volume ++ asc " playerID=" ++ str_int player ++ asc ">".
Definition aseq_repr (s : SsarModel.aseq) : res text :=
  let '(bank, volume, cp, pp, player) := SsarModel.aParams s in
  first <- (if SsarModel.aParsed s then repr_ref ids heap depth (SsarModel.aFirst s) else Ok (repr_opt (SsarModel.aOffset s))) ;;
  Ok (call (asc "SSARSequence") ([first] ++ map str_int [bank; volume; cp; pp; player] ++ if SsarModel.aParsed s then [] else [asc "parsed=False"])).
(** SSAR.__repr__ (soundSequenceArchive.py:255-262) and __str__ of an archive that is not
    parsed (soundSequenceArchive.py:242-244) *)
Definition ssar_repr (s : SsarModel.ssar) : res text :=
  if SsarModel.rParsed s then
    l <- events_repr (SsarModel.rEvents s) ;;
    q <- mapM (fun p => t <- aseq_repr (snd p) ;; Ok (repr_pair (repr_name (fst p)) t)) (SsarModel.rSeqs s) ;;
    Ok (call (asc "SSAR.fromEventsAndSequences") [repr_list l; repr_list q])
  else d <- shortBytesRepr (SsarModel.rData s) 0x20 ;;
       Ok (call (asc "SSAR") [d; asc "names=" ++ repr_list (map (fun p => repr_str (str_name (fst p))) (SsarModel.rSeqs s))]).
Definition ssar_unparsed_str (s : SsarModel.ssar) : text :=
  asc "<ssar unparsed [" ++ joined (asc ", ") (map (fun p => str_name (fst p)) (SsarModel.rSeqs s)) ++ asc "]>".
(** Track and SSEQMusic (extras/music.py:643-652, 812-819) *)
Definition track_str (events : list (Z * SeqModel.ev)) : res text :=
  t <- printSequenceEventList ids heap depth events [] (rep 32 2) ;; Ok (join_lines [asc "<track"; t; asc ">"]).
Definition track_repr (events : list (Z * SeqModel.ev)) : res text := l <- events_repr events ;; Ok (call (asc "Track") [repr_list l]).
Definition music_str (tracks : list Z) : text := asc "<sseq music [tracks: " ++ joined (asc ", ") (map str_int (sorted_set tracks)) ++ asc "]>".
Definition music_repr (s : SsarModel.sseq) : res text := t <- sseq_repr s ;; Ok (call (asc "SSEQMusic") [t]).
End Repr.

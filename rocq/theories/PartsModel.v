(** * Constructors that take the parts of a file

    Keyword arguments that may be left out are options; the default is supplied
    here, as in the signature. The constructors of the other classes are in the
    models of those classes: NARC.fromFilesAndNames (NarcModel), SBNK.fromInstruments
    (SbnkModel), SSEQ.fromEvents and SSAR.fromEventsAndSequences (SsarModel),
    SWAV.fromData and GroupEntry.fromFlags (WaveModel), Texture.fromFlags (TexModel),
    ImageTile.fromPixels and TilemapTile.fromParameters (Gfx2DModel),
    MainCodeFile.fromSections (CodeModel). *)
From Verif Require Import PyBase ColorModel BmgModel BnModel WaveModel TexModel SsarModel.

Definition given {A} (o : option A) (d : A) : A := match o with Some x => x | None => d end.

(** BMG.__init__ without data (bmg.py:59-72) *)
Definition bmg_new (id : Z) : bmg :=
  {| bMessages := []; bInstructions := []; bLabels := []; bScripts := []; bId := id; bEncoding := Utf16; bEndian := LE; bUnk14 := 0; bUnk18 := 0; bUnk1C := 0 |}.
(** BMG.fromMessages (bmg.py:206-228) *)
Definition bmg_fromMessages (messages : list message) (instructions : option (list bytes)) (labels scripts : option (list (Z * Z))) (id : option Z) : bmg :=
  let self := bmg_new (given id 0) in
  {| bMessages := messages;
     bInstructions := match instructions with Some x => x | None => bInstructions self end;
     bLabels := match labels with Some x => x | None => bLabels self end;
     bScripts := match scripts with Some x => x | None => bScripts self end;
     bId := bId self; bEncoding := bEncoding self; bEndian := bEndian self; bUnk14 := bUnk14 self; bUnk18 := bUnk18 self; bUnk1C := bUnk1C self |}.

(** BNBL.fromTouchAreas (bnbl.py:79-83) *)
Definition bnbl_fromTouchAreas (touchAreas : list touchArea) (unk04 : option Z) : bnbl := {| blUnk04 := given unk04 0; blAreas := touchAreas |}.
(** BNCL.fromImagePositions (bncl.py:72-76) *)
Definition bncl_fromImagePositions (imagePositions : list imagePosition) (unk04 : option Z) : bncl := {| clUnk04 := given unk04 0; clPositions := imagePositions |}.

(** STRM.fromChannels (soundStream.py:73-81) *)
Definition strm_fromChannels (channels : list (list bytes)) (unk02 volume priority playerID unk07 : option Z) : strm :=
  let obj := strm_new (given unk02 0, given volume 127, given priority 64, given playerID 0, given unk07 0) in
  {| sType := sType obj; sLooped := sLooped obj; sChannels := channels; sUnk03 := sUnk03 obj; sRate := sRate obj; sTime := sTime obj; sLoop := sLoop obj;
     sPerBlock := sPerBlock obj; sInLast := sInLast obj; sUnks := sUnks obj; sInfo := sInfo obj |}.

(** SWAR.__init__ without data (soundWaveArchive.py:37-39) and SWAR.fromWaves (soundWaveArchive.py:89-95) *)
Definition swar_fromWaves (waves : list swav) (unk02 : option Z) : swar := {| rUnk02 := given unk02 0; rWaves := waves |}.

(** SSEQ.fromEvents with its defaults (soundSequence.py:69-77) *)
Definition sseq_fromEventsD (events : list (Z * SeqModel.ev)) (unk02 bankID volume channelPressure polyphonicPressure playerID : option Z) : sseq :=
  sseq_fromEvents events (given unk02 0, given bankID 0, given volume 127, given channelPressure 64, given polyphonicPressure 50, given playerID 0).

(** SWAV.fromData with its defaults (soundWave.py:73-86) *)
Definition swav_fromDataD (data : option bytes) (wt : option waveType) (looped : option bool) (rate time loop total : option Z) : swav :=
  swav_fromData (given data []) (given wt PCM8) (given looped false) (given rate 8000) (given time 0) (given loop 0) (given total 0).

(** Palette.fromColors (texture.py:257-260): the constructor first loads a palette from no data *)
Definition palette_fromColors (unk00 unk02 unkHeader02 : Z) (colors : list color) : res palette :=
  _ <- loadPalette [] ;; Ok {| pl00 := unk00; pl02 := unk02; plH02 := unkHeader02; plColors := colors |}.

(** NSBTX.fromTexturesAndPalettes (texture.py:324-334) *)
Definition nsbtx_fromTexturesAndPalettes (unk08 unk10 unk18 unk20 unk2C unk32 : Z) (textures : list (option bytes * texture)) (palettes : list (option bytes * palette)) : tex0 :=
  {| x08 := unk08; x10 := unk10; x18 := unk18; x20 := unk20; x2C := unk2C; x32 := unk32; xTextures := textures; xPalettes := palettes |}.

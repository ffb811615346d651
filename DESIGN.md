# Formal model of ndspy: design

Prover: Rocq/Coq 8.16.1, standard library only. Sources: `/verif/rocq/theories/`, listed in
`/verif/rocq/_CoqProject`. The code modelled is the package `/repo/ndspy`.

## Modelling conventions

* Python `int` is `Z` (unbounded). `bytes`/`bytearray` is `list Z`; the predicate `is_bytes` says
  every element is in 0..255. `str` is the list of its code points.
* Exceptions are values: `res A := Ok a | Err e`, with one constructor of `exc` per Python exception
  class that the modelled code can raise. Attributes and variables changed by a function are
  arguments and results of its model; the state of an object after an exception is not modelled.
* A loop is structural recursion, a fold, or recursion on explicit fuel. Running out of fuel is the
  separate error `OutOfFuel`, which is not a Python exception; theorems exclude it or show that it
  cannot happen.
* `struct.pack/unpack_from` are little- and big-endian encoders with explicit range checks
  (`StructError`). Slicing, indexing, `find`/`rfind`, `rstrip`, `ljust`, `bytes(n)` are modelled in
  `PyBase.v` with Python's clamping and negative-index rules.
* Files: `<X>Model.v` holds definitions only, each citing the lines of /repo it models;
  `<X>Spec.v` small specifications that do not use the model's helpers; `<X>Lemmas.v` and others the
  proofs; `<X>Props.v` the property theorems, each with `Print Assumptions` and an `Example` showing
  a concrete case that meets its hypotheses.
* A theorem named `Cnn_..._refuted` shows by a computed witness that the English property is false
  of the code; `Cnn_..._partial` proves part of it. The notes in `MANIFEST.json` say what is missing.
* `seeded/LOG.jsonl` records the wrong programs the theorems were tried against.


## Properties

For each property: what is modelled, how it is proved, in which file the theorems are. The exact
theorem names, and for partial claims what is missing, are in `MANIFEST.json`; the English
statements are in `properties.jsonl`.

| id | title | model, method | file | status |
|----|-------|---------------|------|--------|
| C01 | LZ10 compression is lossless | `_lzCommon.compress`, `lz10.*`; token-stream refinement: the compressor emits tokens whose replay is the input, the decoder replays the encoded tokens; induction on the remaining input | `LzProps.v` | proved |
| C02 | LZ10 decompression never returns a wrong amount of data | `lz10.decompress`; loop invariant on the length of the output and the flag byte | `LzProps.v` | proved |
| C03 | LZ10 output size is bounded and self-describing | `lz10.compress`; counting invariant per flag block | `LzProps.v` | proved |
| C04 | LZ match search is sound and only looks inside the window | `compressionSearch`; invariant of the binary search with the specification of `find`/`rfind` | `LzProps.v` | proved |
| C05 | Code compression is undone by code decompression | `codeCompression.*`; the token refinement of C01 on reversed data, invariant on `ignoreDict` | `LzProps.v` | proved |
| C06 | Code compression documented as exact inverse | `codeCompression.*`; refuted by computation | `LzProps.v` | partial |
| C07 | Incompressible code is stored verbatim with a zero trailer | `codeCompression.compress`; case analysis on the stored form | `LzProps.v` | proved |
| C08 | CRC-16 of headers | `crc16`; the loop is linear over xor and each step is a bijection on 16-bit words; induction on the data; the result is characterised as the remainder of a division of polynomials over GF(2) | `CommonProps.v` | proved |
| C09 | Filename table round trip | `fnt.*`; induction over folder trees with the global ID counter | `FntProps.v` | proved |
| C10 | Filename table rejects names that do not fit | `fnt.save`; induction over folder trees | `FntProps.v` | proved |
| C11 | Filename and ID lookups agree | `fnt.Folder` lookups; induction on paths | `FntProps.v` | proved |
| C12 | NARC archives round trip | `narc.*`; layout lemmas for concatenations, C09 for the names | `NarcProps.v` | proved |
| C13 | NARC get/set by name behave like a map | `narc` get/set; refinement to list update | `NarcProps.v` | proved |
| C14 | ROM save layout: every file is stored intact and files do not overlap | `rom.save`; layout invariant over the save steps | `RomProps.v` | proved |
| C15 | ROM round trip | `rom.save`, `rom._initFromData`; every read of the loader located in the layout of C14 | `RomProps.v` | partial |
| C16 | ROM header checksums and size are valid | `rom.save`; C08 and the layout | `RomProps.v` | proved |
| C17 | Overlay tables round trip | `code.*` overlay tables; record codec and fold over the sorted dictionary | `CodeProps.v` | proved |
| C18 | Overlay flag accessors are independent | `code.Overlay` flags; bit lemmas | `CodeProps.v` | proved |
| C19 | Main code files survive an uncompressed save/load | `code.MainCodeFile`; layout of section tables | `CodeProps.v` | proved |
| C20 | A main code file built from sections can be saved | `MainCodeFile.fromSections`; refuted for all sections, constructive part proved | `CodeProps.v` | partial |
| C21 | BMG message files round trip | `bmg.*`; layout of the sections, induction over the escape grammar, codecs | `BmgProps.v` | partial |
| C22 | BMG endianness is detected from the file itself | `bmg` endianness guess; arithmetic on the length word | `BmgProps.v` | partial |
| C23 | Named lists behave like a first-match map | named lists of `ndspy.__init__`; induction | `CommonProps.v` | proved |
| C24 | Position/alignment packing is invertible | position/alignment words of `_common`; bit lemmas | `CommonProps.v`, `TextProps.v` | proved |
| C25 | BNBL touch-area files round trip | `bnbl`; record codec, induction | `BnProps.v` | proved |
| C26 | BNCL cell-layout files round trip | `bncl`; record codec, induction | `BnProps.v` | proved |
| C27 | Colour packing and palette I/O are lossless | `color`; bit lemmas on 16-bit words, induction over palettes | `ColorProps.v` | proved |
| C28 | Info blocks (texture/model dictionaries) round trip | `_common.loadInfoBlock/saveInfoBlock`; layout of the three tables; induction | `CommonProps.v` | proved |
| C29 | Image tiles round trip | `graphics2D.ImageTile`; nibble codec, induction | `Gfx2DProps.v` | proved |
| C30 | Tilemap entries round trip | `graphics2D.TilemapTile`; bit fields | `Gfx2DProps.v` | proved |
| C31 | Tile flipping is a pixel permutation | tile flips; index permutation | `Gfx2DProps.v` | proved |
| C32 | Grid access to tile lists | `tileAt`/`putTile`; index arithmetic | `Gfx2DProps.v` | partial |
| C33 | Texture parameter words round trip | `texture.Texture` parameter words; bit fields | `TexProps.v` | proved |
| C34 | SWAV sound waves round trip | `soundWave`; record codec | `WaveProps.v` | proved |
| C35 | SWAR wave archives round trip | `soundWaveArchive`; offset table layout | `WaveProps.v` | proved |
| C36 | STRM streams round trip | `soundStream`; record codec, blocks | `WaveProps.v` | proved |
| C37 | Variable-length integers in sequences | variable-length integers; induction on the number of 7-bit groups | `SeqProps.v` | proved |
| C38 | Sequence events occupy exactly their announced length | event `save`; case analysis on the event classes | `SeqProps.v` | partial |
| C39 | Sequence events round trip through bytes | `readSequenceEvents`/`saveSequenceEvents`; invariant relating offsets to events | `SeqProps.v`, `SeqStraightProps.v` | partial |
| C40 | Unparsed SSEQ/SSAR files are preserved exactly | `SSEQ`, `SSAR` unparsed; layout | `SsarProps.v` | proved |
| C41 | A parsed SSAR can always be saved | `SSAR.parse/save`; characterisation of the savable archives | `SsarProps.v` | partial |
| C42 | SBNK instruments round trip | `soundBank`; record codecs, then the whole bank layout with shared instruments | `SbnkProps.v` | partial |
| C43 | Group entries round trip | `soundGroup`; record codec | `WaveProps.v` | proved |
| C44 | Sound archive files are deduplicated without loss | `soundArchive` file section; fold invariant of the deduplication | `SdatAlignProps.v`, `SdatProps.v` | proved |
| C45 | Music: duration is additive and time moves are exact | `extras.music` durationOf, moveInTime; induction on event lists | `MusicProps.v` | proved |
| C46 | Music: simultaneous edits are applied as if at once | `SimultaneousEventsModifier`; induction on the log | `MusicProps.v` | proved |
| C47 | Null-terminated strings | `loadNullTerminatedStringFrom`; specification of `find` | `CommonProps.v`, `FindProps.v` | partial |
| C48 | Tile sheet rendering places every pixel | tile sheets; index arithmetic | `Gfx2DProps.v` | partial |
| C49 | Code decompression is safe on arbitrary files | `codeCompression.decompress`; invariant, fuel shown sufficient | `LzProps.v` | proved |
| C50 | Colour conversion is total and lossless where possible | `color` conversions; bit lemmas | `ColorProps.v` | proved |
| C51 | Wave archives loaded from disk keep their parameters | `SWAR.fromFile`; refuted by computation, rest proved | `WaveProps.v` | partial |
| C52 | Reading sequence events terminates on all bytes | `readSequenceEvents`; measure on the unvisited offsets | `SeqProps.v` | proved |
| C53 | Loading a sound bank terminates on all bytes | `SBNK` loader; measure | `SbnkProps.v` | proved |
| C54 | Saving a loaded sound bank is stable | `SBNK` load then save then load; canonical form of the loaded bank | `SbnkProps.v` | proved |
| C55 | NSBTX texture files round trip | `NSBTX`; layout of TEX0, C28 | `TexProps.v` | proved |
| C56 | Rendering a texture colours each pixel by its format's formula | `renderTextureData`; per-format pixel formula, induction over blocks | `TexProps.v` | partial |
| C57 | BMG.save accepts exactly the representable BMGs and the file size is predictable | `BMG.save`; exact characterisation of success, size formula | `BmgProps.v` | proved |
| C58 | Loading a BMG ends or provably never ends | `BMG` section scan; either a measure decreases or the state repeats | `BmgProps.v` | partial |
| C59 | Sound archive INFO entries record the objects | `SDAT.save` INFO block; layout | `SdatProps.v` | proved |
| C60 | Sound archive round trip | `SDAT.save`, `SDAT._initFromData`; every read located in the layout | `SdatProps.v` | proved |
| C61 | Loaders reject files of another kind or version | all loaders; header checks | `HeaderProps.v`, `NsbmdProps.v` | proved |
| C63 | Music: looping a track keeps what it plays | `Track.loop`; playback semantics | `MusicProps.v` | proved |
| C64 | Music: initial values of a track | `Track.initial*`; search from the front | `MusicProps.v` | partial |
| C65 | Music: changing note velocities | `Track` velocities; map law | `MusicProps.v` | proved |
| C66 | Music: saving a sequence and finding its tracks again | `SSEQMusic` save and constructor; C39 and playback semantics | `MusicErrProps.v`, `MusicProps.v` | partial |
| C67 | Music: collapsing track numbers | `collapseTrackIDs`; renumbering | `MusicProps.v` | proved |
| C68 | Music: looping all tracks of a sequence | `SSEQMusic.loop`; C63 per track | `MusicProps.v` | partial |
| C69 | Music: minification keeps what is heard | `minify*`; each note resolved to its wave before and after | `MinifyProps.v` | partial |
| C70 | Display lists are split into the right commands | `model.py` display lists; induction over words | `NsbmdProps.v` | proved |
| C71 | Model files survive saving | `NSBMD` load and save; layout | `NsbmdProps.v` | partial |
| C72 | Well-formed model blocks are accepted and their names read | `_parseMDL0`; independent description of well-formed blocks | `NsbmdProps.v` | proved |
| C73 | ROM files are read and replaced by name | `rom` file access by name; refinement to list update, C15 | `RomEditProps.v` | proved |
| C74 | Code and overlays of an edited ROM | `rom` code and overlay access; C17, C19, C15 | `RomEditProps.v` | proved |
| C75 | Saving a loaded ROM again changes nothing | `rom` load then save; the saved file determines the order of the files | `RomEditProps.v` | partial |
| C62 | Saving a loaded sound archive again | the second load renumbers the shared files as the first did; alignments recomputed from the offsets are shown to reproduce them | `SdatResaveProps.v` | partial |
| C76 | Colours rendered as an image | `colorsToImage` loops, by induction over the rows; bit operations to arithmetic | `ImageProps.v` | proved |
| C77 | Tiles, tile maps and textures rendered as images | composition of C31, C48 and C56 with C76 | `ImageProps.v` | proved |
| C78 | Note names are unambiguous | closed form of the two loops of `noteName`, read by an independent decoder of Helmholtz notation | `TextProps.v` | proved |
| C79 | Short representations of bytes are Python literals | `shortBytesRepr`, read by an independent decoder of bytes literals | `TextProps.v` | partial |
| C80 | Folder listings are complete | induction over the tree; injectivity by parsing lines (digits, spaces, name) and comparing depths | `TextProps.v` | proved |
| C81 | Numbered lists line up | induction over the list; lengths of numerals are monotone | `TextProps.v` | proved |
| C82 | Unlisted instruments are found where they lie | `SbnkInacc`, `SbnkGuess`, `SbnkScan`: invariant of the scanning loop over the free bytes; the guess by cases on the sets of types | `SbnkInaccProps.v` | proved |
| C83 | Unlisted instruments survive saving and loading | `SbnkLayout`, `SbnkBack`, `SbnkBack2`: positions of deduplicated data, then the scan finds exactly the unlisted pieces; a stop byte bounds the room of each | `SbnkInaccProps.v`, `SbnkWrittenProps.v` | proved |
| C84 | Sound bank files are kept | `SbnkResave`, `SbnkLoaded`, `SbnkKept`: disjoint pieces that cover an interval tile it; canonical order of a loaded bank | `SbnkInaccProps.v` | proved |
| C85 | Loading any bytes ends, with a known set of exceptions | `LoadTotal`: a compositional may-raise predicate; pigeonhole on the 12-bit folder IDs for the recursion depth | `LoadProps.v` | proved |
| C86 | Files are written whole or not at all | `FilesModel`: the file system as a map from paths to contents; `writes`/`reads` specify one access; round trips from the format theorems | `FilesProps.v` | proved |
| C87 | The compression command lines undo each other | `FilesLemmas`: with_suffix characterised by the last full stop; two conversions composed; C01, C03 and C05 for the contents | `FilesProps.v` | partial |
| C88 | The filename table tool moves tables between files | Induction on the recursion limit for JSON; C09 and C15 for the tables and ROMs | `FntToolProps.v` | partial |
| C89 | fromCompressed reads compressed code | C05 and unfolding | `FilesProps.v` | partial |
| C90 | Objects created without data | symbolic evaluation of the savers on the fresh object, then the loaders on the result | `NewProps.v`, `SdatAlignProps.v` | partial |
| C91 | Where the settings of a main code file are found | `CsoLemmas`: the searching loop against an independent statement of the first occurrence; sections by induction over the table | `CsoProps.v` | proved |
| C92 | Printed sequence events tell which event they are | an independent reader of the printed events (`SeqTextSpec`), run on the printer's output event class by event class | `SeqTextProps.v` | partial |
| C93 | Printed lists of sequence events | induction over the events and over the labels; the reader of lines against the printed lines; pieces of labels by induction | `SeqTextProps.v` | partial |
| C94 | Representations of sequence events | an evaluator of constructor calls (`SeqTextSpec`) run on the representation; induction over the depth | `SeqTextProps.v` | partial |
| C95 | Message text is decoded strictly | induction over the bytes, one character at a time; arithmetic of the bit fields | `BmgTextProps.v` | proved |
| C96 | Loaded messages are saved as the bytes they came from | induction over the stored form of a message (`stored`); loaded files are canonical by induction over the scan and over the sections, then C21 | `BmgTextProps.v` | proved |
| C97 | Which exception the saving of an invalid event raises | inversion of each event class against `save_fault` / `length_fault`; for lists, the first failure of a left-to-right run is unique | `SeqErrProps.v` | proved |
| C98 | SSEQ and SSAR objects hold either data or events | simulation: each access commutes with the two-state machine `expected`; for SSAR, indistinguishability (`alike`) is preserved by every access | `SeqStateMoreProps.v`, `SeqStateProps.v` | proved |
| C99 | Text and drawing of touch areas | invariant over the areas drawn so far: each canvas cell shows the last area with a glyph there; injectivity of the texts by cutting at separators | `BnNumProps.v`, `BnTextProps.v` | proved |
| C100 | Representations are expressions that give the object back | a parser of Python expressions (`ReprSpec.expr`) run on the text; every printed part is shown to be read in any context that follows it, by induction over lists and folders | `ReprMoreProps.v`, `ReprProps.v`, `StrHexProps.v` | partial |
| C101 | What the short texts of objects tell | the numbers in a text are read off by a scanner (`StrSpec.numbers`); injectivity by cutting at separators; induction over the regions with the lowest key not yet covered | `StrBankProps.v`, `StrHexProps.v`, `StrMoreProps.v`, `StrProps.v` | proved |
| C102 | Which bytes of an arbitrary ROM each part of the object is | every read is rewritten to the slice it denotes (`ViewLemmas.slice_part`, `unpack_word`); the whole loader becomes one record (`ViewRom.rom_view`) | `ViewProps.v` | proved |
| C103 | Filename tables are read as the tree they describe | induction on the recursion depth in one direction, mutual induction on `denotes`/`entries` in the other; pigeonhole over the 4096 folder numbers for cycles | `ViewProps.v` | proved |
| C104 | Which bytes of an arbitrary NARC each file is | inversion of each successful read, and the same reads forwards | `ViewFilesProps.v` | proved |
| C105 | Which overlays an arbitrary overlay table gives | invariant over the rows read so far: keys are the first appearances, values come from the last row | `ViewFilesProps.v` | proved |
| C106 | What arbitrary touch area and image position files are read as | inversion of each successful read, and the same reads forwards; the four values of the bits by cases | `ViewFilesProps.v` | proved |
| C107 | Which bytes of an arbitrary wave, wave archive or stream the samples are | inversion of each successful read, and the same reads forwards; for streams an invariant over the rows of blocks | `ViewFilesProps.v` | proved |
| C108 | What arbitrary sequence files and sequence archives are read as | inversion of each successful read, and the same reads forwards | `ViewSdatProps.v` | proved |
| C109 | What an arbitrary sound archive is read as | inversion of each successful read, and the same reads forwards, part by part; the state after the file table by induction on the number of entries, with the greatest common divisor as invariant; the end of the names by composing the folds over the parts | `ViewSdatProps.v` | proved |
| C110 | What an arbitrary sound bank is read as | inversion of each successful read, and the same reads forwards; induction over the rows of the table and over the region ends; for the search between the instruments, induction on the bytes left, all inside the file | `ViewBankProps.v` | proved |
| C111 | What an arbitrary texture file is read as | inversion of each successful read, and the same reads forwards; the place where a palette stops by splitting the sorted list at the first occurrence and permutation invariance, the place where it starts by induction on the number of palettes | `ViewTexProps.v` | proved |
| C112 | What an arbitrary model file is read as | inversion of each successful read, and the same reads forwards; induction on the number of blocks from the end | `ViewNsbmdProps.v` | proved |
| C113 | What an arbitrary message file is read as | the message loop against an inductive spelling of messages, in both directions; induction on the number of sections | `ViewBmgProps.v` | proved |
| C114 | Arbitrary compressed data decompress to what the format says | An inductive relation for the format, written without the model; the loops of the model are shown to compute it by induction on fuel and flags in both directions; tokens in blocks by induction on the blocks. | `ViewLzProps.v` | proved |
| C115 | What arbitrary sequence data are read as | A table of what bytes say, an inductive relation for what can be played and one for the list, all written without the model; equivalence by cases on the type byte; an invariant of the recursive parser (with the events and fates in progress) by induction on the recursion depth and on the bytes left. | `ViewEvProps.v` | proved |
| C116 | What arbitrary palettes, tiles and tile maps are read as | Bit operations are turned into division and remainder; the lists are compared place by place. | `ViewGfxProps.v` | proved |
| C117 | Pictures of palette, tile, tile map and texture files | composition of the views of files (C116, C111) with the rendering theorems (C31, C48, C56, C76, C77); success characterised in both directions | `PictureProps.v` | proved |
| C118 | Files, overlays and code of an arbitrary ROM | inductive relations on the bytes of the filename table for the way of a path; composition with the views C102-C105, C114 and C91; equivalences in both directions | `RomViewProps.v` | proved |
| C119 | Named files of a ROM or archive are changed and nothing else is | an inductive relation for sequences of assignments on the bytes of the file read; loaded objects meet the hypotheses of the round-trip theorems C12 and C15 (names, heights, blocks, all parts consist of bytes); composition with the views C102, C104, C114, C118 | `EditViewProps.v` | proved |
| C120 | Sound archives read from any file can be changed and saved | the view of C109 shows that names have no NULs, group types are known and all instruments are expressible; banks with unlisted instruments are saved as in C83 and re-read by the layout of C29; composition with C119 for ROMs | `EditSdatProps.v` | proved |
| C121 | Messages of a ROM are changed and nothing else is | whatever is loaded is in normal form (C96); C21 for the changed object; composition with C118 and C119 | `EditBmgProps.v` | proved |
| C122 | Code and overlays of a ROM are changed and nothing else is | what is written consists of bytes (also what is compressed); C15 for the changed ROM; C74 and C19 for the parts; C102, C114 and C118 for the bytes | `EditCodeProps.v` | proved |
| C123 | Files made from parts contain the parts | the constructors computed; the round trips of C12, C21, C25, C26, C34 to C36, C40, C42 and C55 | `PartsProps.v` | proved |
| C124 | Which files are reproduced byte for byte | the views of C104 to C108 and the forms of the saved files; the file is cut into the fields one by one, each giving one condition | `ExactFntProps.v`, `ExactOvProps.v`, `ExactProps.v` | proved |
| C125 | Compressed code can be unpacked in the memory it lies in | an invariant of the compressor (no point up to a recorded one saves more) and a simulation of the unpacking machine token by token | `InPlaceProps.v` | proved |
| C126 | The tools for archives and sound archives do what they announce | a model of the file system as a map from paths to contents; induction over the sorted listing; the last point rests on C62 | `ExamplesProps.v`, `ToolsProps.v` | partial |
| C127 | Textures of a ROM are changed and nothing else is | what is loaded is storable (from C111); C55 for the changed object; composition with C118 and C119 | `EditTexProps.v` | proved |
| C128 | Sequences read from any file can be changed and saved | an invariant of the parser for the ranges; C39 for the changed list; C40 for the file around it | `EditBandProps.v`, `EditGameProps.v`, `EditSeqProps.v`, `EditSoundProps.v`, `EditSsarProps.v` | proved |
| C129 | Sound banks read from any file can be changed and saved | the ranges of what the readers give, by cases; C42, C54 and C83 for the changed bank | `EditBandProps.v`, `EditBankProps.v`, `EditBanksProps.v` | proved |
| C130 | Waves and streams read from any file can be changed and saved | C107 for the ranges of what is read; C34, C35 and C36 for what is written | `EditWaveProps.v` | proved |
| C131 | Layouts, palettes, tiles and tile maps read from any file can be changed and saved | C106 and C116 for the ranges of what is read; C25, C26, C27, C29 and C30 for the changed list; C121 for the file around it | `EditArtProps.v`, `EditPackedProps.v` | proved |
| C132 | Files in archives in archives are changed and nothing else is | induction on the levels; C119 and C12 for one archive, C114 for the compression, C121 for the ROM | `EditNestProps.v` | proved |

## What is modelled, by file of /repo/ndspy

| source | model | not modelled, or simplified |
|--------|-------|-----------------------------|
| `__init__.py` | `CommonModel` (named lists) | |
| `_common.py` | `CommonModel`, `ImageModel`, `TextModel` | `isIterable`, `ensurePIL` (PIL is taken to be installed; an image is its size and raw RGBA bytes) |
| `_lzCommon.py`, `lz10.py`, `codeCompression.py` | `LzModel`, `FilesModel` (files, command lines) | argparse |
| `color.py` | `ColorModel` | |
| `bnbl.py`, `bncl.py` | `BnModel`, `BnTextModel` (`_draw`, `__str__`) | |
| `fnt.py` | `FntModel`, `TextModel` (listings) | folders are immutable values, so a folder containing itself (RecursionError) cannot be expressed |
| `narc.py` | `NarcModel` | |
| `code.py` | `CodeModel` | |
| `rom.py` | `RomModel` | `math.log2` then `ceil` of the size is `Z.log2_up` (no floating point); the header is written at fixed offsets |
| `bmg.py` | `BmgModel` | values of `endianness`/`encoding` other than the supported ones; the `inst.save` hook of instructions; shift-jis is a parameter of the model, the other codecs are modelled |
| `graphics2D.py` | `Gfx2DModel`, `ImageModel` | formats are always enumeration members |
| `texture.py` | `TexModel`, `ImageModel` | Float divisions there are by powers of two of small integers, hence exact |
| `model.py` | `NsbmdModel` | the printed warning for unknown geometry commands; names are latin-1 codes. What `_parseMDL0` reads and drops is read (and may fail) and dropped in the model too |
| `soundWave.py`, `soundWaveArchive.py`, `soundStream.py`, `soundGroup.py` | `WaveModel` | `int(a / b)` on floats in the two `updateTime` branches is written as integer division truncating towards zero: the same for operands below 2^53 |
| `soundSequence.py` | `SeqModel` (events, reading, writing), `SsarModel` (class SSEQ), `SeqTextModel` (printing; `id()` and the contents of objects outside the list are parameters) | Event objects compare by identity: each has an integer name. The recursion limit of Python is a parameter `depth`. Notable offsets are non-negative |
| `soundSequenceArchive.py` | `SsarModel`, `SeqTextModel` (`SSAR.__str__`) | the sequence objects of one archive are distinct |
| `soundBank.py` | `SbnkModel` | The order in which Python iterates a set is a parameter. The `type` of range and regional instruments is the constant their constructor stores |
| `soundArchive.py`, `soundSequencePlayer.py`, `soundStreamPlayer.py` | `SdatModel` | Blocks are assembled by concatenation instead of patching one bytearray; `dataMergeOptimizationID`s are integers; the set of channels of a player is a list; streams are saved with `updateTime=False`, as the code does |
| `extras/music.py` | `MusicModel`, `MinifyModel` | names of newly created event objects are given by the caller; `monoPolyMode` holds the enumeration member, not a plain integer; the recording list's methods other than the modelled ones; `moveTo` (raises NotImplementedError); `minifyBySseqs` of sequences not yet parsed. Instruments and note definitions of a bank are distinct objects; equal sort keys of a set keep insertion order |
| `extras/soundEffect.py` | | empty file |

`__str__` and `__repr__` not named above are in `ReprModel`; which characters from U+0080 on CPython
counts as printable is a parameter there.

The `fromFile` / `saveToFile` functions of all of these are in `FilesModel`, as are `tools/lz10tool.py`,
`tools/fnttool.py` and `tools/_common.py`: a file system is a map from paths to contents, an opened
file is written completely, argparse and printed messages are left out, JSON texts are modelled by
their values. `tools/narctool.py` and `tools/testSDAT.py` (with what it prints) are in
`ToolsModel`, `makeScaleSSEQ` and `prepareSDAT` (up to its `return`) of `tools/instrumentExamples.py`
and `tools/soundfontExport.py` (an unfinished draft that writes an empty file) in
`ExamplesModel`. `midiAndSF2ToMP3`, /repo/tests and /repo/docs are not modelled.

## Trusted base

* Coq's kernel, including its `vm_compute` conversion.
* That the definitions in `*Model.v` say what the cited lines of /repo do: this was done by reading.
  Nothing was run.
* Python's semantics (integers, slices, dictionaries in insertion order, `struct`, `sorted` being
  stable, codecs) as written down in `PyBase.v` and the model files.
* The simplifications in the table above.
* No axioms. `coqchk` lists the seven constants of `Coq.ssr.ssrunder` as axioms because the
  standard library's `ssreflect` support file is loaded by some imports; no theorem here uses them.


### What `Print Assumptions` lists

Each theorem is followed by a `Print Assumptions` command in its file. Run on every theorem below it
answers `Closed under the global context`: no axiom, of the standard library or otherwise, is used.

* `BmgProps.v`: `C21_load_save`, `C21_canonical_roundtrip`, `C21_scripts_roundtrip_refuted`, `C22_detected_iff`, `C22_small_files`, `C22_most_files`, `C22_always_detected_refuted`, `C57_saves_iff_fits`, `C57_file_size`, `C58_scan_ends_or_diverges`, `C58_load_terminates_refuted`
* `BmgTextProps.v`: `C95_decode_iff_encode`, `C95_unicode_errors`, `C95_utf_encodable`, `C96_message_resave`, `C96_short_escape_refuted`, `C96_reload`
* `BnNumProps.v`: `C99_area_numbers`, `C99_position_numbers`, `C99_alignment_words`, `C99_area_corner`
* `BnProps.v`: `C25_bnbl_roundtrip`, `C25_bnbl_resave`, `C25_bnbl_magic`, `C26_bncl_roundtrip`, `C26_bncl_magic`
* `BnTextProps.v`: `C99_drawing`, `C99_width`, `C99_width_refuted`, `C99_text`, `C99_area_tells`, `C99_position_tells`, `C99_loaded_standard`, `C99_position_text`
* `CodeProps.v`: `C17_overlay_table_roundtrip`, `C17_overlay_table_same`, `C17_overlay_table_resave`, `C17_overlay_table_length`, `C18_flag_accessors`, `C18_overlay_save`, `C18_overlay_reopen`, `C19_main_code_roundtrip`, `C19_main_code_roundtrip_compressed`, `C19_main_code_load_safe`, `C20_fromSections_save_fails`, `C20_fromSections_constructs`, `C20_fromSections_savable_refuted`
* `ColorProps.v`: `C27_unpack_pack`, `C27_pack_unpack`, `C27_palette_load_save`, `C27_palette_save_load`, `C27_expand_contract`, `C27_expand_monotone`, `C27_contract_nearest`, `C50_convert_total`, `C50_convert_lossless`, `C50_helpers_agree`, `C50_lut_words`, `C50_convert_down`, `C50_alpha_down`, `C50_older_helpers_agree`
* `CommonProps.v`: `C08_crc16_range`, `C08_crc16_detects_bursts`, `C08_crc16_detects_changes`, `C08_crc16_append`, `C08_crc16_residue`, `C08_crc16_standard`, `C23_index`, `C23_index_missing`, `C23_find`, `C23_find_missing`, `C23_set`, `C23_get_after_set`, `C24_unpack_pack`, `C24_unpack_range`, `C24_pack_unpack`, `C24_top_left`, `C28_info_roundtrip`, `C28_info_save_succeeds`, `C28_info_bad_length`, `C28_info_bad_length_error`, `C47_string`, `C47_string_unterminated`, `C47_wide_string_refuted`
* `CsoProps.v`: `C91_search`, `C91_search_fails`, `C91_pointer`, `C91_pointer_ignored`, `C91_no_settings`, `C91_sections`
* `EditArtProps.v`: `C131_edited`, `C131_in_rom`, `C131_in_archive`
* `EditBandProps.v`: `C128_archive_in_rom`, `C129_in_rom`
* `EditBankProps.v`: `C129_read`, `C129_edited`, `C129_listed`
* `EditBanksProps.v`: `C129_in_sdat`
* `EditBmgProps.v`: `C121_edited`, `C121_file_in_rom`, `C121_file_in_archive`, `C121_in_rom`, `C121_in_archive`
* `EditCodeProps.v`: `C122_parts`, `C122_overlays`, `C122_main_code`
* `EditGameProps.v`: `C128_in_rom`
* `EditNestProps.v`: `C132_replaced`, `C132_in_rom`, `C132_others`
* `EditPackedProps.v`: `C131_packed`
* `EditSdatProps.v`: `C120_bank_read`, `C120_bank`, `C120_edited`, `C120_resaved`, `C120_in_rom`
* `EditSeqProps.v`: `C128_read`, `C128_edited`, `C128_straight`
* `EditSoundProps.v`: `C128_in_sdat`, `C128_archive_in_sdat`
* `EditSsarProps.v`: `C128_archive`
* `EditTexProps.v`: `C127_edited`, `C127_model`, `C127_in_rom`, `C127_in_archive`
* `EditViewProps.v`: `C119_rom`, `C119_rom_accepted`, `C119_narc`, `C119_narc_accepted`, `C119_archive_in_rom`
* `EditWaveProps.v`: `C130_read`, `C130_archive`, `C130_stream`
* `ExactFntProps.v`: `C124_filenames`, `C124_filenames_read`, `C124_archive_bytes`
* `ExactOvProps.v`: `C124_overlay_table`
* `ExactProps.v`: `C124_wave`, `C124_wave_archive`, `C124_stream`, `C124_sequence`, `C124_sequence_archive`, `C124_touch_areas`, `C124_image_positions`, `C124_archive`
* `ExamplesProps.v`: `C126_scale`, `C126_instruments`, `C126_soundfont`
* `FilesProps.v`: `C86_saves`, `C86_loads`, `C86_roundtrips`, `C86_large_roundtrips`, `C87_lz10_main`, `C87_code_main`, `C87_lz10_roundtrip`, `C87_code_roundtrip`, `C87_input_kept`, `C87_input_kept_refuted`, `C87_outputs_distinct_refuted`, `C87_tool`, `C87_tool_twice`, `C87_tool_twice_refuted`, `C89_fromCompressed`, `C89_fromCompressed_same_refuted`
* `FindProps.v`: `C47_find`
* `FntProps.v`: `C09_save_succeeds`, `C09_save_needs`, `C09_roundtrip`, `C09_reload_stable`, `C09_load_ends`, `C09_empty_filename_truncates`, `C10_long_names_rejected`, `C10_save_errors`, `C10_too_many_folders`, `C11_filename_then_id`, `C11_id_then_filename`, `C11_filename_spec`, `C11_filename_none`, `C11_id_spec`, `C11_subfolder_spec`, `C11_compose`, `C11_compose_none`, `C11_slashes_ignored`, `C11_empty_path`, `C11_contains_id`, `C11_contains_path`, `C11_getitem_id`, `C11_getitem_path`, `C11_getitem_empty`
* `FntToolProps.v`: `C88_json_partial`, `C88_json_refuted`, `C88_tool_changes`, `C88_narc`, `C88_extract`, `C88_insert`, `C88_json_tool`
* `Gfx2DProps.v`: `C29_image_tiles_roundtrip`, `C29_image_tiles_resave`, `C29_image_tile_wrong_length`, `C29_image_tiles_mixed`, `C30_value16`, `C30_value8`, `C30_value_then_new`, `C30_new_then_value`, `C30_tilemap_roundtrip`, `C30_tilemap_resave`, `C30_tilemap_odd_length`, `C30_tilemap_mixed`, `C31_flip_pixels`, `C31_flip_compose`, `C31_flip_8bit`, `C31_render_pixel`, `C32_put_tile`, `C32_readable_partial`, `C32_readable_refuted`, `C48_sheet_complete_partial`, `C48_tilemap_sheet_complete_partial`, `C48_sheet_incomplete`, `C48_tilemap_sheet_incomplete`, `C48_sheet_refuted`
* `HeaderProps.v`: `C61_wrong_kind`
* `ImageProps.v`: `C76_pixels`, `C76_distinct`, `C76_wide`, `C76_errors`, `C77_tile`, `C77_sheet`, `C77_tilemap_sheet`, `C77_tilemap_tile`, `C77_texture`
* `InPlaceProps.v`: `C125_in_place`, `C125_any_file_refuted`
* `LoadProps.v`: `C85_fnt`, `C85_fnt_depth`, `C85_fnt_endless`, `C85_narc`, `C85_rom`, `C85_touch_areas`, `C85_image_positions`, `C85_waves`, `C85_sound_archive`, `C85_textures`, `C85_texture_block`, `C85_models`, `C85_overlays`
* `LzProps.v`: `C01_lz10_lossless`, `C01_lz10_too_long`, `C02_lz10_decompress_safe`, `C03_lz10_size`, `C03_lz10_output_is_bytes`, `C04_lz_tokens_sound`, `C05_code_roundtrip`, `C05_code_roundtrip_appended`, `C05_code_compress_errors`, `C06_code_inverse_refuted`, `C07_code_stored`, `C07_code_outcomes`, `C49_code_decompress_safe`
* `MinifyProps.v`: `C69_sound`, `C69_instruments`, `C69_waves`, `C69_tracks`, `C69_archives_refuted`, `C69_psg_refuted`, `C69_optional_refuted`, `C69_nothing`
* `MusicErrProps.v`: `C66_no_music`
* `MusicProps.v`: `C45_duration`, `C45_additive`, `C45_nonneg`, `C45_move`, `C45_move_errors`, `C45_move_timeline`, `C45_append_looped_refuted`, `C45_negative`, `C45_too_negative`, `C45_negative_cut_refuted`, `C46_edits`, `C46_order`, `C63_loop`, `C63_refused`, `C63_trailing`, `C64_get`, `C64_set`, `C64_delete`, `C64_delete_refuted`, `C65_clamped`, `C65_unclamped`, `C65_add`, `C66_roundtrip`, `C66_layout`, `C66_single`, `C66_save_fails`, `C66_optional_refuted`, `C66_empty_track_refuted`, `C67_collapse`, `C68_loop_all`, `C68_shared_refuted`
* `NarcProps.v`: `C12_roundtrip`, `C12_save_succeeds`, `C12_layout`, `C12_bad_magic`, `C13_set_get`, `C13_set_succeeds`, `C13_unknown_name`, `C13_history`
* `NewProps.v`: `C90_rom`, `C90_rom_capacity_refuted`, `C90_narc`, `C90_sdat`, `C90_sdat_settings_refuted`, `C90_strm`, `C90_strm_reload`, `C90_swav`, `C90_sseq`, `C90_ssar_fromEvents`, `C90_no_textures`
* `NsbmdProps.v`: `C70_display_list`, `C70_total`, `C71_resave`, `C71_exchange`, `C71_layout`, `C72_models`, `C72_names`, `C71_new_savable_refuted`, `C71_truncated_refuted`, `C61_nsbmd`
* `PartsProps.v`: `C123_archive`, `C123_messages`, `C123_touch_areas`, `C123_image_positions`, `C123_stream`, `C123_wave_archive`, `C123_wave`, `C123_bank`, `C123_sequence`, `C123_palette`, `C123_textures`
* `PictureProps.v`: `C117_sheet`, `C117_map`, `C117_map8`, `C117_texture`
* `ReprMoreProps.v`: `C100_instrument`, `C100_region`, `C100_instrument_expression`, `C100_bank`, `C100_bank_expression`, `C100_bank_refuted`, `C100_wave_archive_refuted`, `C100_empty_archive`, `C100_event`, `C100_event_expression`, `C100_track`, `C100_track_expression`, `C100_sequence_events`, `C100_music`, `C100_sequence_events_refuted`, `C100_archive`, `C100_archive_file`, `C100_class_name`
* `ReprProps.v`: `C100_str`, `C100_folder`, `C100_touch_areas`, `C100_image_positions`, `C100_narc`, `C100_narc_files_refuted`, `C100_narc_order_refuted`, `C100_section`, `C100_main_code`, `C100_overlay`, `C100_overlay_refuted`, `C100_message`, `C100_bmg`, `C100_null_refuted`, `C100_texture`, `C100_palette`, `C100_palette_refuted`, `C100_texture_refuted`, `C100_player`, `C100_archive_sequence`, `C100_stream`, `C100_stream_player_refuted`, `C100_stream_player`, `C100_sequence_refuted`, `C100_no_expression_refuted`
* `RomEditProps.v`: `C73_set_get`, `C73_set_succeeds`, `C73_unknown_name`, `C73_history`, `C73_saved`, `C74_reload`, `C74_store`, `C75_resave`, `C75_empty_file_refuted`, `C75_long_signature_refuted`
* `RomProps.v`: `C14_layout`, `C14_disjoint`, `C15_roundtrip`, `C15_padding_follows`, `C15_trailer_refuted`, `C15_banner_saved`, `C15_banner_loaded`, `C16_header`, `C16_capacity`, `C16_unchanged`, `C16_small_fails`
* `RomViewProps.v`: `C118_by_name`, `C118_narc_by_name`, `C118_overlays`, `C118_overlays_accepted`, `C118_main_code`
* `SbnkInaccProps.v`: `C82_found`, `C82_guess_possible`, `C82_guess_suits`, `C82_possible_types`, `C83_bank_roundtrip`, `C83_listed_survive`, `C84_resave`, `C84_loaded_data_kept`, `C84_file_kept`, `C84_instrument_kept`, `C82_no_overlap_refuted`, `C83_all_banks_refuted`, `C84_all_files_refuted`
* `SbnkProps.v`: `C42_note_layout`, `C42_note_roundtrip`, `C42_typed_note_roundtrip`, `C42_instrument_roundtrip`, `C42_instrument_only_expressible`, `C42_too_many_regions`, `C42_instruments_refuted`, `C42_bank_roundtrip`, `C54_resave`, `C54_wave_archive_ids`, `C53_bank_load_total`
* `SbnkWrittenProps.v`: `C83_written`, `C83_left_out`
* `SdatAlignProps.v`: `C44_alignment_sign`, `C44_alignment_zero`, `C90_sdat_filled`
* `SdatProps.v`: `C44_file_stored`, `C44_sharing`, `C44_no_overlap`, `C44_all_used`, `C44_file_view`, `C59_counts`, `C59_none`, `C59_sequences`, `C59_sequence_archives`, `C59_banks`, `C59_wave_archives`, `C59_streams`, `C59_players`, `C59_groups`, `C59_stream_players`, `C60_reload`, `C60_roundtrip`
* `SdatResaveProps.v`: `C62_resave`, `C62_settles`, `C62_loaded_aligns`, `C62_unconditional_refuted`, `C62_total_refuted`
* `SeqErrProps.v`: `C97_event_save_fails`, `C97_length_fails`, `C97_list_fails`, `C97_exceptions`, `C97_jump_too_far`
* `SeqProps.v`: `C37_written`, `C37_minimal`, `C37_read_back`, `C38_announced_length_partial`, `C38_no_overlap_partial`, `C38_savable`, `C38_fromvariable_refuted`, `C38_overlap_refuted`, `C39_event_roundtrip`, `C39_list_roundtrip_partial`, `C39_list_exact`, `C52_reader_total`, `C39_fromvariable_refuted`, `C39_bytes_refuted`
* `SeqStateMoreProps.v`: `C98_ssar_parse_fails`
* `SeqStateProps.v`: `C98_sseq_loaded`, `C98_sseq_made`, `C98_sseq_unchanged`, `C98_sseq_ignored`, `C98_sseq_stays_parsed`, `C98_ssar_alike`, `C98_ssar_unchanged`, `C98_ssar_ignored`, `C98_ssar_assigned`, `C98_ssar_states`, `C98_ssar_missing`
* `SeqStraightProps.v`: `C39_straight`
* `SeqTextProps.v`: `C92_reads_back`, `C92_distinct`, `C92_portamento`, `C92_portamento_refuted`, `C93_list`, `C93_distinct`, `C93_labels`, `C93_warnings`, `C93_sseq`, `C93_ssar`, `C93_ssar_labels_refuted`, `C94_constructor_call`, `C94_enumeration_refuted`, `C94_enumeration`, `C94_switches`, `C94_depth`, `C94_endless`
* `SsarProps.v`: `C40_sseq_layout`, `C40_sseq_preserved`, `C40_sseq_saved_loads`, `C40_sseq_load_errors`, `C40_ssar_layout`, `C40_ssar_preserved`, `C40_ssar_saved_loads`, `C40_ssar_load_errors`, `C41_empty_slot_refuted`, `C41_overlap_refuted`, `C41_savable_partial`, `C41_sseq_savable_partial`, `C41_parse_starts`, `C41_parse_twice`, `C41_sseq_parse_twice`
* `StrBankProps.v`: `C101_sample`, `C101_white_noise`, `C101_instrument_kind`, `C101_single`, `C101_bank`
* `StrHexProps.v`: `C101_overlay_address`, `C101_group_kind`, `C100_main_code_address`, `C100_wave_arguments`
* `StrMoreProps.v`: `C101_wave`, `C101_archive_sequence_state`, `C101_waves`, `C101_stream`, `C101_texture`, `C101_palette`, `C101_main_code`, `C101_title`, `C101_region`, `C101_track`, `C101_unparsed_archive`, `C101_narc`
* `StrProps.v`: `C101_counts`, `C101_players`, `C101_archive_sequence`, `C101_overlay`, `C101_group`, `C101_message`, `C101_message_refuted`, `C101_bank_total`, `C101_duty_cycle`, `C101_range`, `C101_regions`
* `TexProps.v`: `C33_params_roundtrip`, `C33_word_roundtrip`, `C33_bad_size`, `C55_nsbtx_roundtrip`, `C55_equal_keys_clash`, `C55_empty_palette_clash`, `C55_layout`, `C55_bad_palette`, `C56_render_pixels`, `C56_render_succeeds`, `C56_enough_data`, `C56_bad_format`, `C56_render_with_palette_refuted`, `C56_palette_object`
* `TextProps.v`: `C78_note_name`, `C78_distinct`, `C79_short_bytes`, `C79_apostrophe_refuted`, `C80_lines`, `C80_tells_all`, `C80_previews`, `C80_negative`, `C81_enumerated`, `C24_alignment_name`
* `ToolsProps.v`: `C126_narctool_refuted`, `C126_report`, `C126_stops`, `C126_settled`
* `ViewBankProps.v`: `C110_read`, `C110_accepted`, `C110_wars`, `C110_size_refuted`
* `ViewBmgProps.v`: `C113_read`, `C113_accepted`, `C113_one`, `C113_text_refuted`, `C113_save_refuted`
* `ViewEvProps.v`: `C115_event`, `C115_length`, `C115_read`, `C115_call_refuted`, `C115_if_refuted`
* `ViewFilesProps.v`: `C104_read`, `C104_file_byte`, `C105_read`, `C105_accepted`, `C106_bnbl`, `C106_bncl`, `C107_swav`, `C107_swar`, `C107_strm`
* `ViewGfxProps.v`: `C116_palette`, `C116_tiles`, `C116_map`, `C116_map8`
* `ViewLzProps.v`: `C114_lz10`, `C114_code`, `C114_appended_refuted`, `C114_any_lz10`, `C114_any_code`
* `ViewNsbmdProps.v`: `C112_read`, `C112_accepted`, `C112_models`
* `ViewProps.v`: `C102_accepted`, `C102_short`, `C102_header`, `C102_parts`, `C102_signature`, `C102_files`, `C102_names`, `C102_banner`, `C103_read`, `C103_any_depth`, `C103_endless`, `C103_cycle`
* `ViewSdatProps.v`: `C108_sseq`, `C108_ssar`, `C109_read`, `C109_determined`
* `ViewTexProps.v`: `C111_read`, `C111_block`, `C111_accepted`, `C111_twins`, `C111_place_refuted`, `C111_data_refuted`
* `WaveProps.v`: `C34_swav_roundtrip`, `C34_swav_save_options`, `C34_swav_savable`, `C34_swav_loaded`, `C34_swav_bad_loop`, `C35_swar_roundtrip`, `C35_swar_savable`, `C51_swar_fromFile_refuted`, `C51_swar_fromFile_partial`, `C36_strm_roundtrip`, `C36_strm_savable`, `C36_strm_update`, `C36_strm_rate_zero`, `C36_strm_inconsistent`, `C43_group_roundtrip`, `C43_group_save_load`, `C43_group_bad_type`

{"id": "C01", "title": "LZ10 compression is lossless", "statement": "For every byte string shorter than 2^24 bytes, lz10.compress succeeds and lz10.decompress of its result is exactly the original string; for a longer string compress raises struct.error instead of producing a corrupt file.", "quantifier": "all byte strings (any length, any content)", "why_tests_cant": "The match finder is a data-dependent binary search over windows and the decoder replays overlapping copies; the space of window/match/overlap configurations is unbounded, tests only sample it.", "anchors": [{"file": "ndspy/lz10.py", "symbols": ["compress", "decompress"]}, {"file": "ndspy/_lzCommon.py", "symbols": ["compress", "compressionSearch"]}]}
{"id": "C02", "title": "LZ10 decompression never returns a wrong amount of data", "statement": "For every byte string, lz10.decompress either raises (TypeError when the first byte is not 0x10, IndexError or struct.error when the input is malformed or truncated) or returns exactly as many bytes as the 24-bit length in its header announces, all of them byte values; it always terminates.", "quantifier": "all byte strings, including truncated and hostile ones", "why_tests_cant": "Arbitrary malformed input, including back references before the start of the output (which Python resolves as negative indices), cannot be enumerated.", "anchors": [{"file": "ndspy/lz10.py", "symbols": ["decompress"]}]}
{"id": "C03", "title": "LZ10 output size is bounded and self-describing", "statement": "For every byte string of n < 2^24 bytes, the output of lz10.compress starts with the byte 0x10 followed by n as a 24-bit little-endian integer and is at most 7 + 9*ceil(n/8) bytes long; every element of the output is a byte value.", "quantifier": "all byte strings shorter than 2^24 bytes", "why_tests_cant": "A worst case bound over all inputs; no finite set of inputs establishes an upper bound.", "anchors": [{"file": "ndspy/lz10.py", "symbols": ["compress"]}, {"file": "ndspy/_lzCommon.py", "symbols": ["compress"]}]}
{"id": "C04", "title": "LZ match search is sound and only looks inside the window", "statement": "Every back reference that the shared LZ compressor emits denotes an earlier, fully available copy: a run of 3 to 18 bytes lying wholly before the current position and within the maximum distance of the format, whose bytes equal the bytes being encoded. The search is greedy: no longer copy exists in the window, and a literal is only written where no copy of 3 bytes exists. Expanding the emitted tokens gives the input.", "quantifier": "all inputs, all positions, for both the LZ10 and the code-compression parameter sets", "why_tests_cant": "Depends on the interaction between find/rfind limits and the binary search for every window content.", "anchors": [{"file": "ndspy/_lzCommon.py", "symbols": ["compress", "compressionSearch"]}]}
{"id": "C05", "title": "Code compression is undone by code decompression", "statement": "codeCompression.decompress(codeCompression.compress(data, isArm9)) gives back data for every data for which compress actually shrinks the file (the trailer records a positive size difference), in both ARM9 and non-ARM9 mode, including the uncompressed 0x4000-byte ARM9 prefix and the prefix that the compressor decides to leave uncompressed.", "quantifier": "all byte strings under 2^24 bytes, both values of isArm9", "why_tests_cant": "The split between passthrough and compressed data and the trailer fields depend on the whole savings history of the compressor.", "anchors": [{"file": "ndspy/codeCompression.py", "symbols": ["compress", "_compress", "decompress", "_detectAppendedData"]}, {"file": "ndspy/_lzCommon.py", "symbols": ["compress"]}]}
{"id": "C06", "title": "Code compression documented as exact inverse", "statement": "For every byte string, compress succeeds and decompress(compress(data)) == data, as the docstrings ('This is the inverse of') promise.", "quantifier": "all byte strings", "why_tests_cant": "Universally quantified; the inputs that break it (marginally compressible or incompressible data) are rare and size dependent.", "anchors": [{"file": "ndspy/codeCompression.py", "symbols": ["compress", "_compress", "decompress"]}]}
{"id": "C07", "title": "Incompressible code is stored verbatim with a zero trailer", "statement": "When compression would not help, codeCompression.compress stores the data itself, zero-padded to a multiple of 4, followed by four zero bytes, and its length is the padded length plus 4.", "quantifier": "all byte strings that take the stored branch", "why_tests_cant": "Which inputs take the branch depends on compressed size; must hold for all of them.", "anchors": [{"file": "ndspy/codeCompression.py", "symbols": ["_compress"]}]}
{"id": "C08", "title": "CRC-16 of headers", "statement": "The checksum written for the logo and the header is the reflected CRC-16 with polynomial 0xA001 and initial value 0xFFFF: it always fits 16 bits, processing a concatenation equals continuing from the state of the first part, any single-byte change at a fixed length changes the checksum, and appending the checksum little-endian to the data gives a zero remainder.", "quantifier": "all byte strings", "why_tests_cant": "Error-detection guarantees quantify over all pairs of strings.", "anchors": [{"file": "ndspy/_common.py", "symbols": ["crc16"]}, {"file": "ndspy/rom.py", "symbols": ["NintendoDSRom.save"]}]}
{"id": "C09", "title": "Filename table round trip", "statement": "For every folder tree whose file names are 1..127 and folder names 0..127 latin-1 characters, with at most 4096 folders, first IDs below 65536 and table offsets below 2^32, fnt.load(fnt.save(tree)) is the same tree (names, order, first IDs, nesting).", "quantifier": "all finite folder trees of any depth and width within the format limits", "why_tests_cant": "Trees are unbounded in depth, branching and naming; IDs are assigned by a global counter during recursion and table offsets depend on all earlier folders.", "anchors": [{"file": "ndspy/fnt.py", "symbols": ["Folder", "load", "save"]}]}
{"id": "C10", "title": "Filename table rejects names that do not fit", "statement": "For a tree of at most 4096 folders, fnt.save raises ValueError (which includes UnicodeEncodeError) whenever any file or folder name anywhere in the tree has more than 127 characters; a larger tree is refused with ValueError or struct.error. A name is never silently truncated.", "quantifier": "all folder trees", "why_tests_cant": "Position of the overlong name in an unbounded tree.", "anchors": [{"file": "ndspy/fnt.py", "symbols": ["save"]}]}
{"id": "C11", "title": "Filename and ID lookups agree", "statement": "In a folder tree whose file ID ranges are disjoint, whose names contain no '/' and are non-empty, and whose sibling folder names and file names within each folder are distinct: filenameOf(id) = path implies idOf(path) = id and idOf(path) = id implies filenameOf(id) = path; subfolder(path) composed with a lookup equals the lookup of the joined path; leading and trailing slashes are ignored.", "quantifier": "all folder trees, all IDs and all paths", "why_tests_cant": "Quantifies over all trees and all paths.", "anchors": [{"file": "ndspy/fnt.py", "symbols": ["Folder.idOf", "Folder.filenameOf", "Folder.subfolder"]}]}
{"id": "C12", "title": "NARC archives round trip", "statement": "For every list of files and every filename tree within the format limits (total size below 2^32), loading the saved archive gives the same files, names and endiannessOfBeginning; file data start on 4-byte boundaries.", "quantifier": "all file lists, all filename trees, both endianness markers", "why_tests_cant": "Arbitrary numbers and sizes of files; offsets accumulate.", "anchors": [{"file": "ndspy/narc.py", "symbols": ["NARC._initFromData", "NARC.save"]}, {"file": "ndspy/fnt.py", "symbols": ["load", "save"]}]}
{"id": "C13", "title": "NARC get/set by name behave like a map", "statement": "After setFileByName(n, d): getFileByName(n) returns d, every name with a different file ID still returns its old data, the number of files is unchanged, and unknown names raise ValueError without changing anything.", "quantifier": "all archives, all names, all operation histories", "why_tests_cant": "Sequences of operations over arbitrary archives.", "anchors": [{"file": "ndspy/narc.py", "symbols": ["NARC.getFileByName", "NARC.setFileByName"]}, {"file": "ndspy/fnt.py", "symbols": ["Folder.idOf"]}]}
{"id": "C14", "title": "ROM save layout: every file is stored intact and files do not overlap", "statement": "In the output of NintendoDSRom.save, for every file ID the FAT entry delimits exactly that file's bytes, distinct non-empty files occupy disjoint ranges, each starting on a 0x200 boundary, all after the header area, and ARM9/ARM7 code, overlay tables, filename table and banner regions announced in the header contain exactly those parts.", "quantifier": "all ROM objects whose save succeeds (any number of files, overlays, any sortedFileIds order)", "why_tests_cant": "Depends on all sizes, the order of sortedFileIds and overlay tables; unbounded combinations.", "anchors": [{"file": "ndspy/rom.py", "symbols": ["NintendoDSRom.save"]}]}
{"id": "C15", "title": "ROM round trip", "statement": "For every ROM object within the format limits, loading the saved ROM gives back the same header fields, code, overlay tables, filenames, files and banner.", "quantifier": "all ROM objects within format limits", "why_tests_cant": "Unbounded file lists and trees; many interacting offsets.", "anchors": [{"file": "ndspy/rom.py", "symbols": ["NintendoDSRom._initFromData", "NintendoDSRom.save"]}]}
{"id": "C16", "title": "ROM header checksums and size are valid", "statement": "Every successfully saved ROM has a size that is a multiple of 0x400, a correct logo checksum at 0x15C, a header checksum at 0x15E equal to the CRC-16 of the final bytes 0..0x15D, the header size word 0x4000, and (with updateDeviceCapacity) a capacity whose size is the smallest power of two not below the file.", "quantifier": "all ROM objects whose save succeeds", "why_tests_cant": "Checksums depend on all header fields, which depend on all sizes.", "anchors": [{"file": "ndspy/rom.py", "symbols": ["NintendoDSRom.save"]}, {"file": "ndspy/_common.py", "symbols": ["crc16"]}]}
{"id": "C17", "title": "Overlay tables round trip", "statement": "For every dictionary of overlays with 32-bit fields, compressed sizes below 2^24 and 8-bit flags, loadOverlayTable(saveOverlayTable(t), callback) gives a dictionary with the same IDs in ascending order and the same fields, with data supplied by the callback (decompressed when the compressed flag is set); conversely saving a loaded table with distinct ascending IDs reproduces its bytes; idsToLoad selects exactly the requested overlays.", "quantifier": "all overlay dictionaries, all callbacks, all ID filters", "why_tests_cant": "Unbounded dictionaries and arbitrary callbacks.", "anchors": [{"file": "ndspy/code.py", "symbols": ["loadOverlayTable", "saveOverlayTable", "Overlay.__init__"]}]}
{"id": "C18", "title": "Overlay flag accessors are independent", "statement": "Setting Overlay.compressed or Overlay.verifyHash makes the getter return the value set, leaves the other flag and all other flag bits unchanged; Overlay.save sets ramSize and compressedSize to the uncompressed and stored lengths and the compressed flag to the compress argument.", "quantifier": "all flag values (any integer) and all overlays", "why_tests_cant": "Unbounded integers.", "anchors": [{"file": "ndspy/code.py", "symbols": ["Overlay.compressed", "Overlay.verifyHash", "Overlay.save"]}]}
{"id": "C19", "title": "Main code files survive an uncompressed save/load", "statement": "For a MainCodeFile with code settings and sections whose lengths are multiples of 4 (non-empty explicit sections before empty ones), loading the saved data at the same address yields the same sections (data, addresses, bss sizes, implicit flag), apart from the code settings words that save itself updates.", "quantifier": "all section lists, addresses and code settings offsets", "why_tests_cant": "Unbounded section lists; offsets accumulate.", "anchors": [{"file": "ndspy/code.py", "symbols": ["MainCodeFile.__init__", "MainCodeFile.save"]}]}
{"id": "C20", "title": "A main code file built from sections can be saved", "statement": "MainCodeFile.fromSections(sections, address).save() succeeds and its output contains every section's data.", "quantifier": "all section lists and addresses", "why_tests_cant": "Universally quantified over objects the public constructor accepts.", "anchors": [{"file": "ndspy/code.py", "symbols": ["MainCodeFile.fromSections", "MainCodeFile.save"]}]}
{"id": "C21", "title": "BMG message files round trip", "statement": "For every BMG object in canonical form (escape payloads of at most 253 bytes as representable, per-message info of equal length, instructions of 8 bytes, text free of NUL and 0x1A) saving and loading gives the same messages, instructions, labels, scripts, ID and encoding.", "quantifier": "all message lists of any length with arbitrary escapes and text, both endiannesses", "why_tests_cant": "Unbounded message lists and contents, data-dependent offsets, endianness guessing from the data.", "anchors": [{"file": "ndspy/bmg.py", "symbols": ["BMG._initFromData", "BMG.save", "Message"]}]}
{"id": "C22", "title": "BMG endianness is detected from the file itself", "statement": "A file saved by BMG.save is always loaded with the endianness it was saved with.", "quantifier": "all BMG objects, i.e. all file lengths", "why_tests_cant": "The heuristic depends on the numeric value of the file length; only particular lengths break it.", "anchors": [{"file": "ndspy/bmg.py", "symbols": ["BMG._initFromData", "BMG.save"]}]}
{"id": "C23", "title": "Named lists behave like a first-match map", "statement": "indexInNamedList returns the smallest index with that name and raises KeyError exactly when the name is absent; findInNamedList after setInNamedList returns the new value, other entries, the length, the order and the names are unchanged, and a failed set changes nothing.", "quantifier": "all lists of name/value pairs, duplicates included, all operation sequences", "why_tests_cant": "Unbounded lists with duplicates and histories of updates.", "anchors": [{"file": "ndspy/__init__.py", "symbols": ["indexInNamedList", "findInNamedList", "setInNamedList"]}]}
{"id": "C24", "title": "Position/alignment packing is invertible", "statement": "For x, y in 0..4095 and each of the nine valid alignments, unpacking the packed position gives x, y and the alignment back; unpacked coordinates are always in 0..4095 and the alignment always one of the nine; repacking is the identity on 14-bit words with alignment code below 3.", "quantifier": "all integers as packed words, all coordinates and alignments", "why_tests_cant": "Bit-level claim over all integers.", "anchors": [{"file": "ndspy/_common.py", "symbols": ["packAlignmentIntoPos", "unpackAlignmentFromPos", "getTopLeftOfAlignedRect"]}]}
{"id": "C25", "title": "BNBL touch-area files round trip", "statement": "Loading a saved BNBL gives back the same unk04 and touch areas, for every list of fewer than 65536 areas with 12-bit coordinates, 8-bit sizes and valid alignments; loading then saving a canonical file is byte-identical; a wrong magic raises ValueError.", "quantifier": "all touch-area lists; all files", "why_tests_cant": "Unbounded lists.", "anchors": [{"file": "ndspy/bnbl.py", "symbols": ["BNBL._initFromData", "BNBL.save", "BNBLTouchArea.fromData", "BNBLTouchArea.save"]}]}
{"id": "C26", "title": "BNCL cell-layout files round trip", "statement": "Loading a saved BNCL gives back the same unk04 and subimages (position, alignment, image ID), for every list of fewer than 65536 entries within field limits; a wrong magic raises ValueError.", "quantifier": "all subimage lists; all files", "why_tests_cant": "Unbounded lists.", "anchors": [{"file": "ndspy/bncl.py", "symbols": ["BNCL", "BNCLImagePosition"]}]}
{"id": "C27", "title": "Colour packing and palette I/O are lossless", "statement": "unpack(pack(c)) = c for 5-bit channels and 1-bit alpha, pack(unpack(v)) = v for every 16-bit word, loadPalette(savePalette(p)) = p for every palette, and savePalette(loadPalette(d)) = d for every even-length byte string; expanding a 5-bit channel to 8 bits and contracting it again is the identity and expansion is strictly monotone with 0->0 and 31->255.", "quantifier": "all 16-bit words, all colours, all palettes, all byte strings", "why_tests_cant": "Palettes are unbounded; per-channel claims cover every value.", "anchors": [{"file": "ndspy/color.py", "symbols": ["pack", "unpack", "pack255", "unpack255", "expand", "contract", "loadPalette", "savePalette"]}]}
{"id": "C28", "title": "Info blocks (texture/model dictionaries) round trip", "statement": "For up to 255 entries with names of at most 16 latin-1 characters without trailing NULs, 16-bit unknowns and entry data of the declared length, loading a saved info block returns the same entries; a wrong entry length raises ValueError.", "quantifier": "all entry lists and entry lengths within limits, at any offset inside any surrounding data", "why_tests_cant": "Three parallel tables with length-dependent offsets.", "anchors": [{"file": "ndspy/_common.py", "symbols": ["loadInfoBlock", "saveInfoBlock"]}]}
{"id": "C29", "title": "Image tiles round trip", "statement": "For both 4-bit and 8-bit formats, loadImageTiles(saveImageTiles(tiles)) = tiles for all tiles with in-range pixels, and saveImageTiles(loadImageTiles(data)) = data for every data whose length is a multiple of the tile size; a tile of wrong length raises ValueError; mixed formats raise ValueError.", "quantifier": "all tile lists, all byte strings", "why_tests_cant": "Unbounded lists and contents.", "anchors": [{"file": "ndspy/graphics2D.py", "symbols": ["ImageTile", "loadImageTiles", "saveImageTiles"]}]}
{"id": "C30", "title": "Tilemap entries round trip", "statement": "TilemapTile.value is a bijection between words and (tileNum, hFlip, vFlip, paletteID) for the 16-bit format and the identity for 8-bit values; loadTilemapTiles and saveTilemapTiles are mutually inverse on tile lists and on even-length data (any length in the 8-bit format).", "quantifier": "all tile lists, all byte strings, both formats", "why_tests_cant": "Bit-level bijection and unbounded lists.", "anchors": [{"file": "ndspy/graphics2D.py", "symbols": ["TilemapTile", "loadTilemapTiles", "saveTilemapTiles"]}]}
{"id": "C31", "title": "Tile flipping is a pixel permutation", "statement": "Rendering a tilemap tile with horizontal/vertical flips permutes the 64 rendered pixels: pixel (x,y) of the output is pixel (7-x or x, 7-y or y) of the unflipped tile; flipping twice is the identity and the two flips commute.", "quantifier": "all tiles, all palettes, all flip combinations", "why_tests_cant": "All pixel contents and palettes.", "anchors": [{"file": "ndspy/graphics2D.py", "symbols": ["TilemapTile.renderSingle", "ImageTile.render"]}]}
{"id": "C32", "title": "Grid access to tile lists", "statement": "putTile followed by tileAt at the same in-range coordinate returns the tile just put, leaves every other coordinate unchanged and keeps the list length; every coordinate (x, y) with 0 <= x < width and y*width + x inside the list is readable.", "quantifier": "all tile lists, widths and coordinates", "why_tests_cant": "All widths, heights and coordinates.", "anchors": [{"file": "ndspy/graphics2D.py", "symbols": ["tileAt", "putTile"]}]}
{"id": "C33", "title": "Texture parameter words round trip", "statement": "For each valid texture (power-of-two sizes 8..1024, valid format, flags) the saved 16-bit parameter word decodes to the same repeat, flip, size, format, colour-0 and transform values, every word with unused bits clear re-encodes to itself, and other sizes raise ValueError.", "quantifier": "all parameter combinations and all words", "why_tests_cant": "Exhaustive bit-level claim over a product domain.", "anchors": [{"file": "ndspy/texture.py", "symbols": ["Texture"]}]}
{"id": "C34", "title": "SWAV sound waves round trip", "statement": "For every SWAV with 16-bit rate and time fields, a valid wave type and loop offset not above the total length, loading the saved file gives back all fields and data; a loop offset above the total length raises ValueError.", "quantifier": "all sample data and field values", "why_tests_cant": "Arbitrary data and values.", "anchors": [{"file": "ndspy/soundWave.py", "symbols": ["SWAV._initFromData", "SWAV.save"]}]}
{"id": "C35", "title": "SWAR wave archives round trip", "statement": "Loading a saved SWAR returns the same list of waves (including the empty list), for any number of valid waves of any size below the 32-bit limit.", "quantifier": "all wave lists", "why_tests_cant": "Offsets accumulate over unbounded lists; the last wave's end is inferred from the file size.", "anchors": [{"file": "ndspy/soundWaveArchive.py", "symbols": ["SWAR._initFromData", "SWAR.save"]}]}
{"id": "C36", "title": "STRM streams round trip", "statement": "For every STRM whose channels all have the same number of equally sized blocks (shorter last block allowed), loading the saved file yields the same channels, block contents and header fields; inconsistent block sizes raise ValueError.", "quantifier": "all channel/block configurations", "why_tests_cant": "Interleaving of channels and blocks of arbitrary counts and sizes.", "anchors": [{"file": "ndspy/soundStream.py", "symbols": ["STRM._initFromData", "STRM.save"]}]}
{"id": "C37", "title": "Variable-length integers in sequences", "statement": "For every non-negative integer, the number of bytes written equals the predicted length; reading back what was written (followed by anything) returns the integer and consumes exactly those bytes for values below 2^35, and raises ValueError for larger ones.", "quantifier": "all non-negative integers, all suffixes", "why_tests_cant": "Unbounded integers.", "anchors": [{"file": "ndspy/soundSequence.py", "symbols": ["_readVariableLengthInt", "_writeVariableLengthInt", "_lengthOfVariableLengthInt"]}]}
{"id": "C38", "title": "Sequence events occupy exactly their announced length", "statement": "For every sequence event with in-range fields, the bytes its save produces have exactly its announced dataLength, so that events laid out one after another never overlap.", "quantifier": "all event types and field values", "why_tests_cant": "All event kinds with unbounded integer fields.", "anchors": [{"file": "ndspy/soundSequence.py", "symbols": ["SequenceEvent", "FromVariableSequenceEvent", "saveSequenceEvents"]}]}
{"id": "C39", "title": "Sequence events round trip through bytes", "statement": "For every event with in-range fields, parsing the bytes it saves to yields an event of the same kind with the same fields; for whole event lists, saving a parsed list reproduces the bytes, and a list without jumps, calls and tracks that ends in EndTrack is read back as it was.", "quantifier": "all events, all event lists, all jump graphs", "why_tests_cant": "Events may jump to each other in arbitrary graphs; unbounded lists.", "anchors": [{"file": "ndspy/soundSequence.py", "symbols": ["readSequenceEvents", "saveSequenceEvents"]}]}
{"id": "C40", "title": "Unparsed SSEQ/SSAR files are preserved exactly", "statement": "Loading an SSEQ or SSAR file and saving it without parsing its events reproduces events data, names, sequences and parameters.", "quantifier": "all files in canonical form", "why_tests_cant": "Arbitrary contents.", "anchors": [{"file": "ndspy/soundSequence.py", "symbols": ["SSEQ"]}, {"file": "ndspy/soundSequenceArchive.py", "symbols": ["SSAR"]}]}
{"id": "C41", "title": "A parsed SSAR can always be saved", "statement": "After SSAR.parse() succeeds, SSAR.save() succeeds.", "quantifier": "all sequence archives", "why_tests_cant": "Depends on which sequences are present in the archive.", "anchors": [{"file": "ndspy/soundSequenceArchive.py", "symbols": ["SSAR.parse", "SSAR.save", "SSARSequence"]}]}
{"id": "C42", "title": "SBNK instruments round trip", "statement": "Note definitions, single-note, range and regional instruments survive saving and loading with all fields, for all field values within 8/16-bit limits; more than eight regions raise ValueError.", "quantifier": "all instruments", "why_tests_cant": "Arbitrary lists of note definitions and field values.", "anchors": [{"file": "ndspy/soundBank.py", "symbols": ["NoteDefinition", "SingleNoteInstrument", "RangeInstrument", "RegionalInstrument", "SBNK"]}]}
{"id": "C43", "title": "Group entries round trip", "statement": "Saving a group entry and reading it back gives the same load flags, type and ID; for each entry type the flags preserved are exactly the low four option bits.", "quantifier": "all entry types and option bytes", "why_tests_cant": "All combinations of types and option words.", "anchors": [{"file": "ndspy/soundGroup.py", "symbols": ["GroupEntry"]}]}
{"id": "C44", "title": "Sound archive files are deduplicated without loss", "statement": "In a saved SDAT every sequence, bank, wave archive and stream refers to a file ID whose stored bytes are exactly that object's saved bytes; files equal in content and merge ID share one entry, all others get separate, non-overlapping, aligned entries.", "quantifier": "all sound archives", "why_tests_cant": "Dedup depends on equality patterns among an unbounded set of files.", "anchors": [{"file": "ndspy/soundArchive.py", "symbols": ["SDAT.save"]}]}
{"id": "C45", "title": "Music: duration is additive and time moves are exact", "statement": "The duration of a concatenation of event lists is the sum of the durations (with note-wait mode threaded through), durations are non-negative, and moving forward in time by a given amount returns a position whose prefix duration is exactly that amount when an event boundary (or a splittable rest) exists there.", "quantifier": "all event lists and amounts of time", "why_tests_cant": "Unbounded event lists.", "anchors": [{"file": "ndspy/extras/music.py", "symbols": ["durationOf", "moveInTime"]}]}
{"id": "C46", "title": "Music: simultaneous edits are applied as if at once", "statement": "Additions, replacements and deletions registered on an event-list modifier all refer to original indices: the result is the original list with each index replaced, removed or preceded by its additions, independent of registration order across different indices.", "quantifier": "all lists and all registered edit sets", "why_tests_cant": "Unbounded lists and edit sets.", "anchors": [{"file": "ndspy/extras/music.py", "symbols": ["SimultaneousEventsModifier"]}]}
{"id": "C47", "title": "Null-terminated strings", "statement": "Reading a null-terminated string returns exactly the characters before the first terminator at or after the offset, whatever follows. listFind gives the place of the first occurrence of a value, and -1 exactly if there is none.", "quantifier": "all data, offsets and character widths", "why_tests_cant": "Arbitrary surrounding data; missing terminator case.", "anchors": [{"file": "ndspy/_common.py", "symbols": ["loadNullTerminatedStringFrom"]}]}
{"id": "C48", "title": "Tile sheet rendering places every pixel", "statement": "Rendering a list of image tiles to a sheet of a given width in tiles puts pixel (px,py) of tile i at sheet position ((i mod width)*8+px, (i div width)*8+py), for every tile list, including those whose last row is incomplete.", "quantifier": "all tile lists and widths", "why_tests_cant": "All list lengths and widths.", "anchors": [{"file": "ndspy/graphics2D.py", "symbols": ["renderImageTiles", "ImageTile.render"]}]}
{"id": "C49", "title": "Code decompression is safe on arbitrary files", "statement": "For every byte string, codeCompression.decompress terminates and either raises one of struct.error, ValueError, RuntimeError and IndexError, or returns its input unchanged, or returns exactly the number of bytes its trailer announces (the input length plus the recorded difference; for a zero difference the input without the appended data).", "quantifier": "all byte strings", "why_tests_cant": "Arbitrary malformed or hostile input cannot be enumerated.", "anchors": [{"file": "ndspy/codeCompression.py", "symbols": ["decompress", "_detectAppendedData"]}]}
{"id": "C50", "title": "Colour conversion is total and lossless where possible", "statement": "color.convert succeeds on every well-formed colour between any two of the five formats and returns a well-formed colour of the target format; converting to a format that carries at least as much information and back is the identity; the deprecated helpers and the lookup tables give the same results as convert.", "quantifier": "all colours in all five formats, all format pairs", "why_tests_cant": "Twenty-five format pairs over domains of up to 2^32 values.", "anchors": [{"file": "ndspy/color.py", "symbols": ["convert", "prepareLUTs", "unpack", "unpack255"]}]}
{"id": "C51", "title": "Wave archives loaded from disk keep their parameters", "statement": "SWAR.fromFile(path, unk02) returns the same object as SWAR(contents of the file, unk02).", "quantifier": "all file contents and unk02 values", "why_tests_cant": "All parameter values.", "anchors": [{"file": "ndspy/soundWaveArchive.py", "symbols": ["SWAR.fromFile"]}]}
{"id": "C52", "title": "Reading sequence events terminates on all bytes", "statement": "For every byte string and all non-negative starting offsets, readSequenceEvents terminates: it returns, with one notable event per given offset, or raises EOFError, ValueError, KeyError, AssertionError or (only if the recursion limit does not exceed the number of bytes) RecursionError.", "quantifier": "all byte strings, all offsets, all jump graphs including cyclic and overlapping ones", "why_tests_cant": "Hostile input with arbitrary jump graphs cannot be enumerated.", "anchors": [{"file": "ndspy/soundSequence.py", "symbols": ["readSequenceEvents"]}]}
{"id": "C53", "title": "Loading a sound bank terminates on all bytes", "statement": "For every byte string, constructing an SBNK terminates: the search for unreferenced instruments always makes progress, and the only exceptions are ValueError, AssertionError, struct.error and IndexError.", "quantifier": "all byte strings, all set iteration orders", "why_tests_cant": "Hostile tables and gaps cannot be enumerated.", "anchors": [{"file": "ndspy/soundBank.py", "symbols": ["SBNK._initFromData", "guessInstrumentType"]}]}
{"id": "C54", "title": "Saving a loaded sound bank is stable", "statement": "For a bank without inaccessible instruments, saving, loading and saving again gives the same file bytes, although bank order keys and data merge IDs are replaced by file offsets; wave archive IDs lose exactly their trailing Nones.", "quantifier": "all banks of expressible instruments that can be saved", "why_tests_cant": "Arbitrary instrument lists, order keys and merge IDs.", "anchors": [{"file": "ndspy/soundBank.py", "symbols": ["SBNK.save", "SBNK._initFromData"]}]}
{"id": "C55", "title": "NSBTX texture files round trip", "statement": "For every texture block whose textures have data of the length their size and format ask for, whose names fit in 16 bytes and whose palettes differ in name or unknown values, with no palette after an empty one, loading a saved NSBTX (with anything appended) gives back the same textures, palettes and unknown values; palettes that are not a multiple of four colours long are refused.", "quantifier": "all lists of textures and palettes, all data, any trailing bytes", "why_tests_cant": "Offsets into five data areas depend on all preceding entries.", "anchors": [{"file": "ndspy/texture.py", "symbols": ["NSBTX _readTEX0 _saveTEX0 Palette"]}]}
{"id": "C56", "title": "Rendering a texture colours each pixel by its format's formula", "statement": "For formats 1 to 7 and 16-bit integer palettes, renderTextureData gives w*h pixels and the pixel in column X, row Y is the colour and alpha the format prescribes (alpha bits and palette index, packed indices, 4x4 blocks with interpolation modes, direct colour); enough data and colours suffice; other formats raise ValueError. Texture.render with a Palette works.", "quantifier": "all sizes, data and palettes; every pixel position", "why_tests_cant": "Images of all sizes and seven formats with nested loops and interpolation cases.", "anchors": [{"file": "ndspy/texture.py", "symbols": ["renderTextureData Texture.render"]}]}
{"id": "C57", "title": "BMG.save accepts exactly the representable BMGs and the file size is predictable", "statement": "BMG.save succeeds if and only if all infos have one length, every string is encodable and free of U+0000 and U+001A, every escape has a one-byte type and total length, instructions are 8 bytes, labels/scripts/IDs/counts fit their fields and the file stays below 4 GiB; the length of the file is a closed formula of the contents.", "quantifier": "all BMG objects in all four encodings and both endiannesses", "why_tests_cant": "The set of rejected objects is infinite; the boundaries (escape length 255, 16-bit counts after rounding) interact.", "anchors": [{"file": "ndspy/bmg.py", "symbols": ["BMG.save", "Message.save", "Message.Escape.save"]}]}
{"id": "C58", "title": "Loading a BMG ends or provably never ends", "statement": "The loop that reads a message of a BMG file either stops within one iteration per byte of the DAT1 section or runs forever; files on which it runs forever exist (unterminated text, escape of length zero).", "quantifier": "all DAT1 contents, all starting offsets, all codecs", "why_tests_cant": "Non-termination cannot be observed by a test, and termination has to be shown for every input.", "anchors": [{"file": "ndspy/bmg.py", "symbols": ["BMG._initFromData"]}]}
{"id": "C59", "title": "Sound archive INFO entries record the objects", "statement": "In a saved SDAT each of the eight INFO parts lists as many entries as the archive has, an entry offset is 0 exactly for None, and the fields of every entry (IDs, volumes, priorities, wave archive IDs, channel mask, group items, stream player channels) are those of the object.", "quantifier": "all sound archives that can be saved", "why_tests_cant": "Entry positions depend on all the earlier parts, whose sizes vary without bound.", "anchors": [{"file": "ndspy/soundArchive.py", "symbols": ["SDAT.save"]}, {"file": "ndspy/soundSequencePlayer.py", "symbols": ["SequencePlayer"]}, {"file": "ndspy/soundStreamPlayer.py", "symbols": ["StreamPlayer"]}]}
{"id": "C60", "title": "Sound archive round trip", "statement": "Loading a saved SDAT whose names have no NUL succeeds exactly when each object can be loaded from its own saved bytes (plus padding) and each group item has a known type; names and Nones are kept, sequences, sequence archives, banks, wave archives and streams are those loaded from their saved bytes with the file ID as merge ID, players and groups are the same, and the padding and alignment options are the ones read off the layout.", "quantifier": "all sound archives that can be saved", "why_tests_cant": "Names, files and entries are found through four layers of offsets; sharing depends on the equality pattern of an unbounded set of files.", "anchors": [{"file": "ndspy/soundArchive.py", "symbols": ["SDAT.__init__", "SDAT.save"]}]}
{"id": "C61", "title": "Loaders reject files of another kind or version", "statement": "Loading a file of at least 16 bytes as SWAV, SWAR, STRM, SSEQ, SSAR, SBNK, NSBTX, SDAT or NARC raises ValueError whenever its four-byte magic or its version number is not the one of that format (for NARC, either byte order of the version with the matching byte-order mark).", "quantifier": "all byte strings of at least 16 bytes", "why_tests_cant": "Every wrong magic and every wrong version (2^16 - 1 of them) must be rejected whatever follows; tests try one or two.", "anchors": [{"file": "ndspy/soundWave.py", "symbols": ["SWAV.__init__"]}, {"file": "ndspy/soundWaveArchive.py", "symbols": ["SWAR.__init__"]}, {"file": "ndspy/texture.py", "symbols": ["NSBTX.__init__"]}, {"file": "ndspy/narc.py", "symbols": ["NARC.__init__"]}, {"file": "ndspy/soundArchive.py", "symbols": ["SDAT.__init__"]}]}
{"id": "C63", "title": "Music: looping a track keeps what it plays", "statement": "Looping an unlooped track between two times at which no note or uncuttable event is in progress puts a jump at the end time back to the event that starts at the start time; every note and control event keeps its time, and the event objects stay distinct. A track that is already looped, or with an event in progress at one of the two times, is refused with RuntimeError.", "quantifier": "all event lists with distinct event objects and non-negative durations, all start and end times, with or without clearing what follows", "why_tests_cant": "Needs the interplay of rest splitting, insertion positions and mono/poly mode for unbounded event lists.", "anchors": [{"file": "ndspy/extras/music.py", "symbols": ["SSEQMusic.Track.loop", "moveInTime"]}]}
{"id": "C64", "title": "Music: initial values of a track", "statement": "The initial value of a property (instrument, pan, volume, ...) is the one set by the first event of its class before the first note or rest. Setting it makes exactly that value be read back, changes or adds one event, and leaves every other initial value and (except for mono/poly) every duration alone. Setting it to None makes it None.", "quantifier": "all event lists, all properties, all values", "why_tests_cant": "All properties interact through one event list of unbounded length.", "anchors": [{"file": "ndspy/extras/music.py", "symbols": ["SSEQMusic.Track._handleInitialValueGet", "SSEQMusic.Track._handleInitialValueSet"]}]}
{"id": "C65", "title": "Music: changing note velocities", "statement": "With clamping, every note's velocity v becomes f(v) limited to 0..127 and nothing else changes; without clamping the same happens when every f(v) is in range, and otherwise ValueError is raised.", "quantifier": "all event lists with distinct event objects, all functions on velocities", "why_tests_cant": "Quantifies over functions.", "anchors": [{"file": "ndspy/extras/music.py", "symbols": ["SSEQMusic.Track.addToNoteVelocities", "SSEQMusic.Track.multiplyNoteVelocitiesBy"]}]}
{"id": "C66", "title": "Music: saving a sequence and finding its tracks again", "statement": "Saving the tracks of an SSEQMusic gives a track definition, one begin-track event for each track but the first in increasing order of number, and the tracks' events, each ending in an end-of-track or jump; opening the result again gives the same tracks under the same numbers. The wave archives are optional. An empty list of events, and one that ends with the begin-track events, raise IndexError; otherwise opening a list that begins with a track definition fails exactly if one of the tracks begins nowhere in the list, with ValueError.", "quantifier": "all track tables", "why_tests_cant": "Unbounded number of tracks and events, with references between event objects.", "anchors": [{"file": "ndspy/extras/music.py", "symbols": ["SSEQMusic.__init__", "SSEQMusic.save"]}]}
{"id": "C67", "title": "Music: collapsing track numbers", "statement": "After collapsing, the tracks are numbered 0, 1, 2, ... without gaps, and each track's new number is the number of tracks that had a smaller one.", "quantifier": "all track tables with distinct numbers", "why_tests_cant": "Unbounded track tables.", "anchors": [{"file": "ndspy/extras/music.py", "symbols": ["SSEQMusic.collapseTrackIDs"]}]}
{"id": "C68", "title": "Music: looping all tracks of a sequence", "statement": "Looping a sequence loops each of its tracks as if it were alone, so that tracks stay in step.", "quantifier": "all track tables", "why_tests_cant": "Tracks may share event objects.", "anchors": [{"file": "ndspy/extras/music.py", "symbols": ["SSEQMusic.loop"]}]}
{"id": "C69", "title": "Music: minification keeps what is heard", "statement": "Minifying a bank for a list of events renumbers the instruments switched to without gaps and in order, keeps in each wave archive exactly the waves that the notes played (and single-note instruments switched to) use, and every note of the events then selects a definition with the same parameters and the same wave as before. The wave archives are optional.", "quantifier": "all event lists, banks and wave archives (instruments, waves and definitions existing)", "why_tests_cant": "Relates three renumberings (instruments, regions, waves) for unbounded event lists and banks.", "anchors": [{"file": "ndspy/extras/music.py", "symbols": ["minifyByEvents", "SSEQMusic.minify"]}]}
{"id": "C70", "title": "Display lists are split into the right commands", "statement": "NSBMD._parseDisplayList of groups of four geometry commands, each group written as its four IDs followed by all their parameters, returns the commands in order, by class, for every command of the hardware's table and for IDs that mean nothing; on any data at all it ends without error, returns at most one command per byte, and at least one if there are data.", "quantifier": "all lists of groups with any parameters; all byte strings", "why_tests_cant": "A wrong parameter count shifts everything after it and shows only in models using that command; totality on arbitrary data cannot be sampled.", "anchors": [{"file": "ndspy/model.py", "symbols": ["NSBMD._parseDisplayList, _COMMANDS_BY_ID"]}]}
{"id": "C71", "title": "Model files survive saving", "statement": "An NSBMD that was loaded and whose textures can be stored is equal to what loading its saved file gives: the MDL0 block byte by byte, the models, the textures and palettes. Textures imported from an NSBTX are found in the saved file and can be exported as the same NSBTX, the MDL0 block staying as it was. (Full statement: for every NSBMD object; false for new objects and for truncated MDL0 blocks.)", "quantifier": "all files and all texture sets", "why_tests_cant": "Needs every combination of model block, textures and palettes; the two failing cases are outside what a test would try.", "anchors": [{"file": "ndspy/model.py", "symbols": ["NSBMD._initFromData, NSBMD.save, NSBMD.exportNSBTX, NSBMD.importNSBTX"]}, {"file": "ndspy/texture.py", "symbols": ["_readTEX0, _saveTEX0"]}]}
{"id": "C72", "title": "Well-formed model blocks are accepted and their names read", "statement": "An MDL0 block whose tables (models, materials, textures, palettes, polygons) are as _common.saveInfoBlock writes them, anywhere in the block, is accepted and the models have the names of the first table; in any accepted block there is one name per model counted, being its 16 bytes without the trailing zeros.", "quantifier": "all model blocks with any number of models, materials, textures, palettes and polygons, anywhere in the block", "why_tests_cant": "The parser follows chains of offsets and counts; tests cover a few files.", "anchors": [{"file": "ndspy/model.py", "symbols": ["NSBMD._parseMDL0"]}, {"file": "ndspy/_common.py", "symbols": ["saveInfoBlock"]}]}
{"id": "C73", "title": "ROM files are read and replaced by name", "statement": "rom.setFileByName(name, data) replaces exactly the file the name stands for: the name then reads back data, names of other files read what they read before, nothing else in the ROM changes, and unknown names raise ValueError. After any sequence of such calls, and also after saving and loading the ROM, every name reads the last data assigned to its file, or the original data.", "quantifier": "all ROMs, names and sequences of assignments", "why_tests_cant": "Sequences of edits followed by a save and a load over all ROM contents.", "anchors": [{"file": "ndspy/rom.py", "symbols": ["NintendoDSRom.getFileByName", "NintendoDSRom.setFileByName", "NintendoDSRom.save"]}]}
{"id": "C74", "title": "Code and overlays of an edited ROM", "statement": "A saved and loaded ROM gives the same main code files and the same overlays (all or a selection) for both processors. Overlays saved into the files their fileID names, compressed or not, together with the table made from them, are loaded again as they were, and no other file changes.", "quantifier": "all ROMs, all sets of overlays with distinct IDs and files, any choice of compression", "why_tests_cant": "Combines compression, table and file packing for any number of overlays.", "anchors": [{"file": "ndspy/rom.py", "symbols": ["NintendoDSRom.loadArm9", "NintendoDSRom.loadArm7", "NintendoDSRom.loadArm9Overlays", "NintendoDSRom.loadArm7Overlays"]}, {"file": "ndspy/code.py", "symbols": ["saveOverlayTable", "loadOverlayTable", "Overlay.save"]}]}
{"id": "C75", "title": "Saving a loaded ROM again changes nothing", "statement": "Loading a ROM that ndspy saved and saving it again, with the same setting of updateDeviceCapacity or without it, gives the same file byte for byte. (False for ROMs with an empty file outside the overlays and for signatures of more than 0x88 bytes.)", "quantifier": "all ROMs whose save succeeds", "why_tests_cant": "The order of the files is recovered from their offsets; the failing cases need files sharing an offset.", "anchors": [{"file": "ndspy/rom.py", "symbols": ["NintendoDSRom.save", "NintendoDSRom._initFromData"]}]}
{"id": "C62", "title": "Saving a loaded sound archive again", "statement": "A sound archive that ndspy saved with alignments dividing 0x200, loaded and saved again, gives the same file byte for byte when its last file does not end in padding the loader would take for alignment and the end of the archive is aligned. Without those conditions saving and loading may change the file, but after at most two more saves it no longer changes.", "quantifier": "all archives, file contents and alignments dividing 0x200", "why_tests_cant": "The loader guesses padding and alignment from the positions of all the files.", "anchors": [{"file": "ndspy/soundArchive.py", "symbols": ["SDAT.__init__", "SDAT.save"]}]}
{"id": "C76", "title": "Colours rendered as an image", "statement": "colorsToImage(colors, width, height, aBits) makes an RGBA image of that size whose pixel in column x and row y is colour number y*width+x, each five-bit channel v widened to 8*v + v//4 (so 0 stays 0 and 31 becomes 255), alpha of one bit becoming 0 or 255; surplus colours are ignored, missing ones and other alpha sizes raise.", "quantifier": "all colour lists, sizes and alpha widths", "why_tests_cant": "Positions and channel values range over unbounded sizes; a swapped channel or row shows only in some images.", "anchors": [{"file": "ndspy/_common.py", "symbols": ["colorsToImage"]}]}
{"id": "C77", "title": "Tiles, tile maps and textures rendered as images", "statement": "The image of a tile shows transparent black where its pixel value is 0 and otherwise the opaque colour of the chosen palette. The image of a sheet of tiles or tile-map tiles shows tile i, exactly as its own image, in column i mod width and row i // width. The image of a tile-map tile is that of its image tile mirrored as its flags say. The image of a texture shows each texel's colour in its format.", "quantifier": "all tiles, tile maps, palettes, texture formats, data and sizes", "why_tests_cant": "Combines tile decoding, flipping, placement and channel widening over all sizes.", "anchors": [{"file": "ndspy/graphics2D.py", "symbols": ["ImageTile.renderAsImage", "TilemapTile.renderAsImage", "TilemapTile.renderSingleAsImage", "renderImageTilesAsImage", "renderTilemapTilesAsImage"]}, {"file": "ndspy/texture.py", "symbols": ["renderTextureDataAsImage", "Texture.renderAsImage"]}]}
{"id": "C78", "title": "Note names are unambiguous", "statement": "The name of every note number is that note in Helmholtz notation with c' being 60: upper or lower case letter, sharp sign, and one mark per further octave; so different notes have different names.", "quantifier": "all integers", "why_tests_cant": "Unbounded integers; two loops and two tables must agree.", "anchors": [{"file": "ndspy/_common.py", "symbols": ["noteName"]}]}
{"id": "C79", "title": "Short representations of bytes are Python literals", "statement": "shortBytesRepr(data, maxLen) is a bytes literal whose value is the first maxLen bytes of data, followed by three dots exactly when data is longer. (False when those bytes contain an apostrophe, which is not escaped.)", "quantifier": "all byte strings, all limits", "why_tests_cant": "The one-digit escapes depend on the byte that follows.", "anchors": [{"file": "ndspy/_common.py", "symbols": ["shortBytesRepr"]}]}
{"id": "C80", "title": "Folder listings are complete", "statement": "The printed listing of a folder has one line per file and per folder at any depth and no others, each with the (first) file ID in at least four digits and the name indented by its depth, folders with a slash. Two trees of ordinary names that are printed alike are equal. When file contents are given, the previews all begin in one column, four places right of the longest line.", "quantifier": "all folder trees with IDs that are not negative, all lists of files", "why_tests_cant": "Unbounded trees; injectivity relates all pairs of trees.", "anchors": [{"file": "ndspy/fnt.py", "symbols": ["Folder._strListUncombined", "Folder._strList", "Folder.__str__"]}]}
{"id": "C81", "title": "Numbered lists line up", "statement": "enumeratedListOfStrs gives one line per item: its index in brackets, right-justified, and the item; all items begin in the same column.", "quantifier": "all lists and indentations", "why_tests_cant": "Unbounded lists.", "anchors": [{"file": "ndspy/_common.py", "symbols": ["enumeratedListOfStrs"]}]}
{"id": "C82", "title": "Unlisted instruments are found where they lie", "statement": "When a sound bank is loaded, every inaccessible instrument lies in the data after the table, starts at a byte that no listed instrument covers, is what the bytes there mean under a type between the types of the nearest listed instruments, and is filed under the listed instrument that starts last before it (None if there is none; the smallest ID if several start there). The lists are in file order, each ID has one list, and no two inaccessible instruments overlap. The guessed type is one of the possible ones, and one that the bytes can be whenever there is such a type.", "quantifier": "all files that load, all iteration orders of sets", "why_tests_cant": "The heuristic depends on every byte between listed instruments.", "anchors": [{"file": "ndspy/soundBank.py", "symbols": ["SBNK._initFromData", "guessInstrumentType"]}]}
{"id": "C83", "title": "Unlisted instruments survive saving and loading", "statement": "If the inaccessible instruments of a bank are filed under IDs that have instruments, are each written as data of their own, and each has data that can only be of its own type given its neighbours and the room there is, then saving and loading gives back all listed instruments at their IDs and all inaccessible ones under the same IDs in the same order. For any bank, the inaccessible instruments filed under None, under the ID of an instrument or under an ID beyond the list are written to the file after the table, and those filed under any other ID make no difference to what is saved.", "quantifier": "all such banks, anything appended to the file, all iteration orders of sets", "why_tests_cant": "Needs the layout of the whole file, the merging of equal data and the type heuristic together.", "anchors": [{"file": "ndspy/soundBank.py", "symbols": ["SBNK.save", "SBNK._initFromData", "guessInstrumentType"]}]}
{"id": "C84", "title": "Sound bank files are kept", "statement": "Saving such a bank, loading it and saving again gives the same file. For any loaded file whose instruments, listed or not, fill the data without overlapping and in the order of their kinds, saving writes the same data; a file with the header and padding that save() writes is reproduced byte for byte. Every instrument read is saved as the bytes it was read from, except ranges that end before they start and regional instruments with something after their first zero end.", "quantifier": "all such files", "why_tests_cant": "Arbitrary placement of data, sharing and gaps.", "anchors": [{"file": "ndspy/soundBank.py", "symbols": ["SBNK.save", "SBNK._initFromData", "SingleNoteInstrument", "RangeInstrument", "RegionalInstrument"]}]}
{"id": "C85", "title": "Loading any bytes ends, with a known set of exceptions", "statement": "For arbitrary contents, loading a filename table, NARC, ROM, BNBL, BNCL, SWAV, SWAR, STRM, SDAT, NSBTX, NSBMD or overlay table ends; if it fails, the exception is one of a fixed list per format (struct.error and RecursionError for filename tables and ROMs, never IndexError or KeyError; and so on). For filename tables a recursion limit above 4096 never changes the result, and a table that exceeds 4096 nested calls exceeds every limit.", "quantifier": "all byte strings, all recursion limits", "why_tests_cant": "Malformed files are unbounded in number; absence of other exceptions and of endless loops cannot be tested.", "anchors": [{"file": "ndspy/fnt.py", "symbols": ["load"]}, {"file": "ndspy/narc.py", "symbols": ["NARC._initFromData"]}, {"file": "ndspy/rom.py", "symbols": ["NintendoDSRom._initFromData"]}, {"file": "ndspy/bnbl.py", "symbols": ["BNBL.__init__"]}, {"file": "ndspy/bncl.py", "symbols": ["BNCL.__init__"]}, {"file": "ndspy/soundWave.py", "symbols": ["SWAV.__init__"]}, {"file": "ndspy/soundWaveArchive.py", "symbols": ["SWAR.__init__"]}, {"file": "ndspy/soundStream.py", "symbols": ["STRM.__init__"]}, {"file": "ndspy/soundArchive.py", "symbols": ["SDAT.__init__"]}, {"file": "ndspy/texture.py", "symbols": ["NSBTX.__init__"]}, {"file": "ndspy/model.py", "symbols": ["NSBMD.__init__"]}, {"file": "ndspy/code.py", "symbols": ["loadOverlayTable"]}]}
{"id": "C86", "title": "Files are written whole or not at all", "statement": "Every saveToFile (and savePaletteToFile, compressToFile, ...) writes exactly the bytes that save() returns to exactly the file named, and leaves every file as it was, including an existing one of that name, when save() raises or the file cannot be opened. Every fromFile gives what the constructor gives on the contents and changes no file. Hence what is saved to a file loads back from it wherever save and load are inverse.", "quantifier": "all objects, all file systems, all paths", "why_tests_cant": "The order of computing and opening, and the absence of other effects, concern every failing object.", "anchors": [{"file": "ndspy/bmg.py", "symbols": ["BMG.saveToFile", "BMG.fromFile"]}, {"file": "ndspy/narc.py", "symbols": ["NARC.saveToFile", "NARC.fromFile"]}, {"file": "ndspy/rom.py", "symbols": ["NintendoDSRom.saveToFile", "NintendoDSRom.fromFile"]}, {"file": "ndspy/soundArchive.py", "symbols": ["SDAT.saveToFile", "SDAT.fromFile"]}, {"file": "ndspy/color.py", "symbols": ["savePaletteToFile", "loadPaletteFromFile"]}, {"file": "ndspy/graphics2D.py", "symbols": ["saveImageTilesToFile", "loadImageTilesFromFile", "saveTilemapTilesToFile", "loadTilemapTilesFromFile"]}, {"file": "ndspy/soundWave.py", "symbols": ["SWAV.saveToFile", "SWAV.fromFile"]}, {"file": "ndspy/lz10.py", "symbols": ["compressToFile", "decompressFromFile"]}]}
{"id": "C87", "title": "The compression command lines undo each other", "statement": "Compressing a file on the command line of ndspy.lz10, ndspy.codeCompression or lz10tool and decompressing the result gives a file with the original contents, with given or default file names, and changes no other file; the default name replaces the suffix of the input. The input file is kept. (False when its name already ends in .cmp: it is then overwritten; and lz10tool without options takes any file that begins with 0x10 for compressed.)", "quantifier": "all files below 2^24 bytes (for code compression: whose compressed trailer is not zero), all paths, all file systems", "why_tests_cant": "All names and contents; the failing names are rare.", "anchors": [{"file": "ndspy/lz10.py", "symbols": ["main"]}, {"file": "ndspy/codeCompression.py", "symbols": ["main"]}, {"file": "tools/lz10tool.py", "symbols": ["main"]}]}
{"id": "C88", "title": "The filename table tool moves tables between files", "statement": "fnttool extracts the table of a ROM to a file that loads as that table, and inserts a table into a ROM so that the ROM then has it, with its files and code as before; it changes only the output file, and nothing when it fails. A table converted to JSON and back is the same. (False for every table with a folder in it: TypeError; and NARC files always raise AttributeError.)", "quantifier": "all ROMs and tables", "why_tests_cant": "All tables; the failure needs a subfolder.", "anchors": [{"file": "tools/fnttool.py", "symbols": ["main"]}, {"file": "tools/_common.py", "symbols": ["FilenamesTableEncoder.default", "convertDictToFilenamesTable", "fntToJson", "jsonToFnt"]}]}
{"id": "C89", "title": "fromCompressed reads compressed code", "statement": "MainCodeFile.fromCompressed on a compressed file gives the code file of the original data, as the constructor does. (False when the original looks compressed itself: fromCompressed then decompresses it once more.)", "quantifier": "all data below 2^24 bytes whose compressed trailer is not zero", "why_tests_cant": "Data that looks compressed is rare.", "anchors": [{"file": "ndspy/code.py", "symbols": ["MainCodeFile.fromCompressed", "MainCodeFile.__init__"]}]}
{"id": "C90", "title": "Objects created without data", "statement": "Objects made with no data or from events save as stated and load back: NintendoDSRom() saves as a ROM of 0x4400 bytes with the default header, an empty filename table and no files, which loads as a ROM with no files, the same ID and capacity and saves as the same bytes; NARC(), SDAT(), STRM(), SWAV() and SSEQ() save as stated files that load back; a sequence archive made by fromEventsAndSequences saves the data of the events given, the parameters of every sequence and the place of its first event; a model file without a texture block has no textures, and saves an empty texture block. (False: updating the device capacity of an empty ROM raises ValueError; and an empty SDAT does not keep its alignment settings, so that its second save is longer.)", "quantifier": "all infos, events, sequences and files (one object where the constructor has no arguments)", "why_tests_cant": "Sequence archives and model files are unbounded; that the second save differs is a rare combination.", "anchors": [{"file": "ndspy/rom.py", "symbols": ["NintendoDSRom.__init__", "NintendoDSRom.save"]}, {"file": "ndspy/narc.py", "symbols": ["NARC.__init__"]}, {"file": "ndspy/soundArchive.py", "symbols": ["SDAT.__init__"]}, {"file": "ndspy/soundStream.py", "symbols": ["STRM.__init__"]}, {"file": "ndspy/soundWave.py", "symbols": ["SWAV.__init__"]}, {"file": "ndspy/soundSequence.py", "symbols": ["SSEQ.__init__"]}, {"file": "ndspy/soundSequenceArchive.py", "symbols": ["SSAR.fromEventsAndSequences"]}, {"file": "ndspy/model.py", "symbols": ["NSBMD.__init__"]}]}
{"id": "C91", "title": "Where the settings of a main code file are found", "statement": "The settings of a main code file are 0x1C bytes before the first occurrence of the marker at a multiple of four below 0x8000. Without a marker they are at the word before the first place that stores the address of the end of the file and is preceded by a plausible table address; there are none exactly if there is no such place. A pointer passed by the caller that leads inside the file decides instead; any other pointer changes nothing. The search fails only with struct.error, when the end address is no 32-bit number or is found at offset 1 to 3. Without settings the file is one section; with settings, if the table is not before the start of the file, the sections after the first are the rows of the table, their data following each other.", "quantifier": "all file contents, RAM addresses and pointers", "why_tests_cant": "Data of any length, with decoys at any position.", "anchors": [{"file": "ndspy/code.py", "symbols": ["_searchForCodeSettingsOffs", "MainCodeFile.__init__"]}]}
{"id": "C92", "title": "Printed sequence events tell which event they are", "statement": "str(event) of a sequence event without a destination can be read back: a reader that knows only the format finds the same kind of event with the same numbers, so that different events have different texts. (False for the two kinds of portamento events, 0xC4 and 0xCE, when the value is neither 0 nor 1: they are printed alike.)", "quantifier": "all events of the known types, all values of their fields", "why_tests_cant": "There are some fifty classes with formats of their own; that no two of them can produce the same text for some values is a statement about all pairs of events.", "anchors": [{"file": "ndspy/soundSequence.py", "symbols": ["SequenceEvent.__str__", "NoteSequenceEvent.__str__", "RandomSequenceEvent.__str__", "PortamentoOnOffSequenceEvent.__str__", "RawDataSequenceEvent.__str__"]}, {"file": "ndspy/_common.py", "symbols": ["noteName"]}]}
{"id": "C93", "title": "Printed lists of sequence events", "statement": "printSequenceEventList, when all destinations are in the list and none of the events is one of the portamento events that C92 excepts, gives one line per event: its labels in a column of common width (longer ones broken over lines), its number right-justified in brackets, and its text with the positions of the destinations, from which the list can be read back. A destination outside the list is shown as NOWHERE, with exactly one warning before the list. str(SSEQ) and str(SSAR) contain this list. (False for archives with several sequences without a name: only the last one is shown.)", "quantifier": "all event lists, all labels, all prefixes without a line break", "why_tests_cant": "The width of the column, the breaking of labels and the trailing comma interact for every number of events and every length of label.", "anchors": [{"file": "ndspy/soundSequence.py", "symbols": ["printSequenceEventList", "SSEQ.__str__"]}, {"file": "ndspy/soundSequenceArchive.py", "symbols": ["SSAR.__str__"]}]}
{"id": "C94", "title": "Representations of sequence events", "statement": "repr(event) of a sequence event without a destination is a constructor call that makes the same event again; Tie and PortamentoOnOff show off and on as False and True. repr of an event with a destination contains that of its destination: it exists exactly when the destinations that follow one another are fewer than the recursion limit, and events in a loop raise RecursionError at every limit. (False for MonoPoly and VibratoType events, where the value is shown as an enumeration member, which is no expression.)", "quantifier": "all events of the known types; all graphs of destinations; all recursion limits", "why_tests_cant": "Loops of any length, and fifty classes with constructors of their own.", "anchors": [{"file": "ndspy/soundSequence.py", "symbols": ["NoteSequenceEvent.__repr__", "JumpSequenceEvent.__repr__", "RandomSequenceEvent.__repr__", "MonoPolySequenceEvent.__repr__"]}]}
{"id": "C95", "title": "Message text is decoded strictly", "statement": "In cp1252, utf-16 and utf-8 BMG files, bytes decode to a text exactly when that text encodes to those bytes: over-long forms, stray continuation bytes, lone surrogates and undefined bytes are refused, always with UnicodeError, and text that has no encoding raises UnicodeError. utf-8 and utf-16 encode exactly the texts without surrogates.", "quantifier": "all byte strings, all texts", "why_tests_cant": "Byte strings of any length; tests try a handful of malformed ones.", "anchors": [{"file": "ndspy/bmg.py", "symbols": ["BMG._initFromData", "Message.save", "BMG.fullEncoding"]}]}
{"id": "C96", "title": "Loaded messages are saved as the bytes they came from", "statement": "A message read from any text section, at an offset other than 0, is saved as exactly the bytes it was read from, terminator included, if the stated length of each of its escapes covers the header of the escape. A whole BMG (not shift-jis; little-endian or without scripts) that was loaded from any bytes, and can be saved into a file whose length tells the byte order, is the same again when that file is loaded.", "quantifier": "all file contents, all three encodings, both byte orders", "why_tests_cant": "Files need not be made by this library: sections in any order, shared or overlapping messages, escapes anywhere.", "anchors": [{"file": "ndspy/bmg.py", "symbols": ["BMG._initFromData", "BMG.save", "Message.save"]}]}
{"id": "C97", "title": "Which exception the saving of an invalid event raises", "statement": "Saving a sequence event raises an exception exactly in the listed cases, with the listed kind: ValueError for a pitch outside 0..127, a velocity above 127, a negative duration or rest, an instrument with a negative bank, random events with arguments that are not bytes, and a from-variable event of a two-byte type without its unknown value; OverflowError for a negative velocity, a type or track number that is not a byte and a destination 2^24 bytes away; KeyError for a destination that is not in the list; struct.error for the remaining value ranges. Asking for a length fails exactly for negative numbers and for random events of types without arguments. Saving a list raises what the first event without a length raises, else what the first event that cannot be saved raises, else KeyError if a notable event is not in the list.", "quantifier": "all events of all classes with arbitrary integer fields; all lists of events", "why_tests_cant": "Which of several faults is reported depends on the order of checks over the whole list; every field is unbounded.", "anchors": [{"file": "ndspy/soundSequence.py", "symbols": ["saveSequenceEvents", "NoteSequenceEvent.save", "RandomSequenceEvent.save", "FromVariableSequenceEvent.save", "BeginTrackSequenceEvent.save", "JumpSequenceEvent.save"]}]}
{"id": "C98", "title": "SSEQ and SSAR objects hold either data or events", "statement": "Over any sequence of accesses, an SSEQ behaves as an object that holds either data or events: .events raises ValueError before parsing and .eventsData after it, .parsed cannot be assigned (RuntimeError), a failing parse changes nothing, parsing again does nothing, events assigned before parsing and data assigned afterwards are never seen again, and save writes what can be read. Two SSARs that agree in everything that can be read in their present state (likewise for each of their sequences) give the same results for any sequence of accesses; failing accesses change nothing; parsing an SSAR reports what reading the events reports, and ValueError if one of its sequences was given a first event before; an SSAR never becomes unparsed.", "quantifier": "all initial objects, all data, all finite sequences of accesses", "why_tests_cant": "The hidden fields of the other state persist in the object; whether they leak depends on the history.", "anchors": [{"file": "ndspy/soundSequence.py", "symbols": ["SSEQ.events", "SSEQ.eventsData", "SSEQ.parsed", "SSEQ.parse", "SSEQ.save"]}, {"file": "ndspy/soundSequenceArchive.py", "symbols": ["SSAR.events", "SSAR.eventsData", "SSAR.parse", "SSAR.save", "SSARSequence.firstEvent", "SSARSequence.firstEventOffset"]}]}
{"id": "C99", "title": "Text and drawing of touch areas", "statement": "The drawing in str(BNBL) is a frame of 12 rows of 32 cells, each 8 by 16 pixels. Every cell shows the last touch area with a border or its number there, with the number over the border and lower corners over upper ones, and is blank if no area has any; what lies off the screen is not drawn. The text puts this drawing four places to the right of the longest line of the numbered list of areas. The text of a touch area (or BNCL image position) with a standard alignment determines it completely, and those read from files have standard alignments; the numbers in it are the position and the size (the image and the position), and its words say which side, corner or centre of the rectangle the position is. With at most ten areas all lines of the drawing are equally wide; with eleven this is false.", "quantifier": "all lists of touch areas with arbitrary integer positions and sizes", "why_tests_cant": "Areas overlap in any combination and may lie off the screen.", "anchors": [{"file": "ndspy/bnbl.py", "symbols": ["BNBL._draw", "BNBL.__str__", "BNBLTouchArea.__str__"]}, {"file": "ndspy/bncl.py", "symbols": ["BNCL.__str__", "BNCLImagePosition.__str__"]}]}
{"id": "C100", "title": "Representations are expressions that give the object back", "statement": "repr(x) of an ndspy object is a Python expression, and evaluating it gives an object equal to x: for str values, Folder, BNBL, BNCL, NARC, code sections, MainCodeFile, Overlay, BMG and Message, Texture, Palette, SequencePlayer, StreamPlayer, sequence events, SSEQ, SSAR, SSARSequence, Track, SSEQMusic, STRM, SWAV, SWAR, group entries, note definitions, instruments, SBNK, ROMs and SDATs. (False for many of them: data is cut off after 32 bytes, lists after one file, eight events or 20 colours; byte order, the unknown number of banks and sequence archives, null messages and stream player channels are lost; enumeration members and long data give text that is no expression, though it still begins with the name of the class.)", "quantifier": "all objects of these classes, with arbitrary names and data", "why_tests_cant": "repr is checked by eye if at all; whether the text reads back depends on the quotes, escapes and lengths of every part.", "anchors": [{"file": "ndspy/fnt.py", "symbols": ["Folder.__repr__"]}, {"file": "ndspy/narc.py", "symbols": ["NARC.__repr__"]}, {"file": "ndspy/code.py", "symbols": ["MainCodeFile.__repr__", "MainCodeFile.Section.__repr__", "Overlay.__repr__"]}, {"file": "ndspy/bmg.py", "symbols": ["BMG.__repr__", "Message.__repr__", "Message.Escape.__repr__"]}, {"file": "ndspy/texture.py", "symbols": ["Texture.__repr__", "Palette.__repr__"]}, {"file": "ndspy/soundStreamPlayer.py", "symbols": ["StreamPlayer.__repr__"]}, {"file": "ndspy/soundSequence.py", "symbols": ["SSEQ.__repr__"]}, {"file": "ndspy/soundSequenceArchive.py", "symbols": ["SSAR.__repr__", "SSARSequence.__repr__"]}, {"file": "ndspy/soundBank.py", "symbols": ["NoteDefinition.__repr__", "SBNK.__repr__", "SingleNoteInstrument.__repr__", "RangeInstrument.__repr__", "RegionalInstrument.__repr__"]}, {"file": "ndspy/soundGroup.py", "symbols": ["GroupEntry.__repr__"]}, {"file": "ndspy/bnbl.py", "symbols": ["BNBL.__repr__"]}, {"file": "ndspy/bncl.py", "symbols": ["BNCL.__repr__"]}]}
{"id": "C101", "title": "What the short texts of objects tell", "statement": "str(SDAT) and str(BMG) contain the true counts of their entries; str of a sequence player or SSEQMusic lists every channel or track number once, in ascending order; str of overlays tells RAM address, file ID and both flags apart, and str of group entries determines them. The text of a message determines its parts when no text has an opening bracket and no two texts are adjacent. Printing a bank never fails; square waves are shown with the duty cycle 12.5% x (waveID mod 8 + 1) (100% counting as 0%); in the text of a range or regional instrument every key appears in the range of the definition that is used for it, with note names that denote the right keys. The first line of the text of a bank has its wave archive IDs, and then comes one line per instrument with its number and its own text (or None), which begins with the kind of the instrument; a sample is shown with pitch, archive and wave number, and white noise and nothing else is called so. str of waves and streams tells format, sample rate, loop flag and (streams) channel and block counts and volume; of wave archives lists every wave with its number; of textures determines format and size; of palettes gives the number and the first twenty colours; of main code files has a line per section with address, data and whether it is implicit; of ROMs shows title (without trailing spaces) and code; regions, tracks, unparsed sequence archives and NARCs likewise.", "quantifier": "all such objects", "why_tests_cant": "The texts are only looked at by people; a wrong bound, name or count is not noticed.", "anchors": [{"file": "ndspy/soundArchive.py", "symbols": ["SDAT.__str__"]}, {"file": "ndspy/bmg.py", "symbols": ["BMG.__str__", "Message.__str__"]}, {"file": "ndspy/soundSequencePlayer.py", "symbols": ["SequencePlayer.__str__"]}, {"file": "ndspy/code.py", "symbols": ["Overlay.__str__"]}, {"file": "ndspy/soundGroup.py", "symbols": ["GroupEntry.__str__"]}, {"file": "ndspy/soundBank.py", "symbols": ["NoteDefinition.__str__", "RangeInstrument.__str__", "RegionalInstrument.__str__", "SBNK.__str__"]}, {"file": "ndspy/soundWave.py", "symbols": ["SWAV.__str__"]}, {"file": "ndspy/soundStream.py", "symbols": ["STRM.__str__"]}, {"file": "ndspy/texture.py", "symbols": ["Texture.__str__", "Palette.__str__"]}, {"file": "ndspy/rom.py", "symbols": ["NintendoDSRom.__str__"]}, {"file": "ndspy/code.py", "symbols": ["MainCodeFile.__str__"]}]}
{"id": "C102", "title": "Which bytes of an arbitrary ROM each part of the object is", "statement": "Whatever bytes of at least 0x200 are given, NintendoDSRom(data) succeeds exactly if the banner, when there is one, has its version field and the filename table, when there is one, can be read; shorter data counts as filled up with zeros. The ARM9 and ARM7 code, overlay tables, banner, debug ROM, file contents, header fields, padding and signature of the object are then precisely the slices and numbers at the places the header and the file allocation table name, files in the order of their IDs and sortedFileIds by start offset.", "quantifier": "all byte strings", "why_tests_cant": "Round-trip tests only use ROMs with regular layouts; tables may point anywhere, overlap or run past the end.", "anchors": [{"file": "ndspy/rom.py", "symbols": ["NintendoDSRom.__init__"]}]}
{"id": "C103", "title": "Filename tables are read as the tree they describe", "statement": "fnt.load returns a folder if and only if the bytes of the table describe that folder (each folder's entry gives the place of its list and its first ID; lists end at a zero byte; an entry is a file or a folder with the number of its own entry), so at most one folder per table. The nesting is too deep only for tables with a folder reachable from the root that contains itself, and such a table is never read.", "quantifier": "all byte strings", "why_tests_cant": "Only tables written by this library or Nintendo's tools are tested; sharing, cycles and odd offsets are not.", "anchors": [{"file": "ndspy/fnt.py", "symbols": ["load"]}]}
{"id": "C104", "title": "Which bytes of an arbitrary NARC each file is", "statement": "NARC(data) succeeds exactly if the magics, byte order mark and version and block bounds are right and its filename table can be read; the files are then the slices the allocation table names, relative to the end of the image block header, cut at the end of the data.", "quantifier": "all byte strings", "why_tests_cant": "Entries that overlap, run backwards or past the end are not tested.", "anchors": [{"file": "ndspy/narc.py", "symbols": ["NARC.__init__"]}]}
{"id": "C105", "title": "Which overlays an arbitrary overlay table gives", "statement": "loadOverlayTable succeeds exactly if the length is a multiple of 32 and every overlay asked for can be fetched by the callback and, if its flag says so, decompressed. The result has the overlays asked for in the order of the first rows with their numbers, each with the data and fields of the last row with its number.", "quantifier": "all byte strings, callbacks and sets of wanted IDs", "why_tests_cant": "Tests use tables with distinct IDs in ascending order.", "anchors": [{"file": "ndspy/code.py", "symbols": ["loadOverlayTable", "Overlay.__init__"]}]}
{"id": "C106", "title": "What arbitrary touch area and image position files are read as", "statement": "BNBL(data) and BNCL(data) succeed exactly if the magic is right and the entries the count announces are there; each entry is then read from its place: coordinates from the low twelve bits, alignment from bits 12 and 13 (1 centre, 2 right or bottom, otherwise left or top), size or image ID from the bytes that follow; data after the entries is ignored.", "quantifier": "all byte strings", "why_tests_cant": "The combinations of the alignment bits, including unused ones, are not tested.", "anchors": [{"file": "ndspy/bnbl.py", "symbols": ["BNBL.__init__"]}, {"file": "ndspy/bncl.py", "symbols": ["BNCL.__init__"]}, {"file": "ndspy/_common.py", "symbols": ["unpackAlignmentFromPos"]}]}
{"id": "C107", "title": "Which bytes of an arbitrary wave, wave archive or stream the samples are", "statement": "SWAV(data), SWAR(data) and STRM(data) succeed exactly if the headers are right, the announced entries are there and wave types are known; fields are the numbers at their places. The samples of a SWAV end where the header says, each wave of a SWAR ends where the next one starts (the last at the size in the header), and block b of channel c of a stream is found after b full rows, each filled up to four bytes, and c blocks, where the last row has its own block size and the only block of an ADPCM stream has four bytes more.", "quantifier": "all byte strings", "why_tests_cant": "Block layouts with odd sizes and several channels, and archives with odd offsets, are not tested.", "anchors": [{"file": "ndspy/soundWave.py", "symbols": ["SWAV.__init__"]}, {"file": "ndspy/soundWaveArchive.py", "symbols": ["SWAR.__init__"]}, {"file": "ndspy/soundStream.py", "symbols": ["STRM.__init__"]}]}
{"id": "C108", "title": "What arbitrary sequence files and sequence archives are read as", "statement": "SSEQ(data) succeeds exactly if 0x1C bytes are there with the right magic and version, and SSAR(data) exactly if the headers are right and the announced rows are there, where the last may lack its two bytes of padding. The data of the events runs from the offset in the block to the size in the header; row i of an SSAR gives sequence i its offset (signed, -1 for None), bank, volume, priorities and player, and name i is its name.", "quantifier": "all byte strings and lists of names", "why_tests_cant": "Files with odd sizes and offsets are not tested.", "anchors": [{"file": "ndspy/soundSequence.py", "symbols": ["SSEQ.__init__"]}, {"file": "ndspy/soundSequenceArchive.py", "symbols": ["SSAR.__init__", "SSARSequence.__init__"]}]}
{"id": "C109", "title": "What an arbitrary sound archive is read as", "statement": "SDAT(data) succeeds exactly if the headers are right, the names block (if there is one), the file table and the lists of entries lie in the file, and each entry with an offset can be read, including its file. Then each list has as many items as the longer of the list of names and the list of entries; item j has the name whose offset stands at place j (None for 0) and the object read from entry j and from the file it names, with that file's number as merge ID; files are the bytes at the places the table tells. fileAlignment is the greatest common divisor of 0x200 and all file offsets, firstFileAlignment the one of 0x200 and the first offset if different, and the three padding flags are told by the lengths in the table, the end of the last file, and the size of the names block.", "quantifier": "all byte strings", "why_tests_cant": "Real archives are produced by one tool; shared, missing or surplus names and overlapping files do not occur in tests.", "anchors": [{"file": "ndspy/soundArchive.py", "symbols": ["SDAT.__init__"]}]}
{"id": "C110", "title": "What an arbitrary sound bank is read as", "statement": "SBNK(data) on a file that is not shorter than the size in its header succeeds exactly if the headers are right, the table is there and each listed instrument lies in the file, whatever the bytes between the instruments are. Instrument j then is None for type 0 and otherwise what its type makes of the bytes at its offset: types 1 to 15 one note definition, 16 a range with a note definition for each pitch from first to last, 17 one region and one more for each further end up to the first zero. Instruments may share bytes. The wave archive IDs lose exactly the Nones at their end.", "quantifier": "all byte strings", "why_tests_cant": "Overlapping instruments, ranges that end before they start and odd region ends are not tested.", "anchors": [{"file": "ndspy/soundBank.py", "symbols": ["SBNK.__init__", "SBNK._initFromData", "NoteDefinition.fromData", "SingleNoteInstrument.fromData", "RangeInstrument.fromData", "RegionalInstrument.fromData", "guessInstrumentType"]}]}
{"id": "C111", "title": "What an arbitrary texture file is read as", "statement": "NSBTX(data) succeeds exactly if the headers are right, both tables list all their entries and no palette starts, alone, at the last of the places where palettes start or their data ends. Texture i then has the size, format and flags of the bits of its parameter, and the bytes its format and size ask for at its place, as far as the file goes; textures of format 5 have their two kinds of data at two places. A palette has the colours up to the next place where a palette starts or the data ends; if two palettes start at one place both are empty; palettes with equal names and equal unknown values all get the colours of the last of them. Names need not be there. The same holds for the texture block of a model file.", "quantifier": "all byte strings", "why_tests_cant": "Palettes that are out of order, share a place or a name, and files that end early are not tested.", "anchors": [{"file": "ndspy/texture.py", "symbols": ["NSBTX._initFromData", "_readTEX0", "Texture.__init__", "Palette.__init__"]}, {"file": "ndspy/_common.py", "symbols": ["loadInfoBlock"]}]}
{"id": "C112", "title": "What an arbitrary model file is read as", "statement": "NSBMD(data) succeeds exactly if the header is right, the offsets of all blocks are there and each block is one of models or of textures that can be read. A block of models can be read exactly if the table of models, the four tables of each model and the heads of all polygons lie in the block, whatever the geometry commands are and whether or not the names are there. The models are then those of the last block of models, the textures and palettes those of the last block of textures (see C111); without such a block there are none. A block that says to be longer than the file ends with the file.", "quantifier": "all byte strings", "why_tests_cant": "Files with several blocks of a kind, tables that overlap and truncated blocks are not tested.", "anchors": [{"file": "ndspy/model.py", "symbols": ["NSBMD._initFromData", "NSBMD._parseMDL0", "NSBMD._parseTEX0", "NSBMD._parseDisplayList"]}]}
{"id": "C113", "title": "What an arbitrary message file is read as", "statement": "BMG(data) succeeds exactly if the file starts with MESGbmg1, has its 29 bytes of header, names one of the four encodings, every section starts where the length of the one before says and is a complete INF1, DAT1, FLW1 or FLI1 section, and each message in the text reaches a terminator by stepping over characters and escapes whose text can be decoded. What is read is then given by the bytes: the endianness by which reading of the file length is smaller, the identifier and the text by the last INF1 and the last DAT1 section, messages, instructions, labels and scripts by all sections of their kind in order, without blank instructions and labels. Each message consists of the text between the escapes in order. Text at place 0 is dropped without the message being null, and instructions cut off by the end of the file are kept, so that not every file that is read can be saved (witnesses).", "quantifier": "all byte strings; all four encodings, shift-jis any codec that encodes the terminator and the escape mark as themselves", "why_tests_cant": "Repeated sections, sections out of order, overlapping tables, unaligned escapes and truncated tables are not tested; there is no reference to compare with.", "anchors": [{"file": "ndspy/bmg.py", "symbols": ["BMG._initFromData", "BMG.fullEncoding", "Message.__init__"]}]}
{"id": "C114", "title": "Arbitrary compressed data decompress to what the format says", "statement": "lz10.decompress(d) returns r exactly when d starts with 0x10 and the 24-bit length of r and its flag bytes, literals and references (length 3-18, distance 1-4096, possibly reaching into their own output, and reading zeros before the start) put out r. codeCompression.decompress(d) returns d itself when no multiple of 4 below 32 of appended bytes leaves a sensible eight-byte end; otherwise, when that end says 0 extra bytes, d without the appended bytes; otherwise the passed-through start, the reversed output of the reversed stream (distances 3-4098, clamped to 2 when too far) and the appended bytes. In particular everything written in the format by any encoder, not only ndspy's, is read back.", "quantifier": "all byte strings d and all results r; all token lists", "why_tests_cant": "Tests decompress what compress wrote; other encoders' files use overlapping references and other lengths, and a change to both compress and decompress is invisible to round trips.", "anchors": [{"file": "ndspy/lz10.py", "symbols": ["decompress"]}, {"file": "ndspy/codeCompression.py", "symbols": ["decompress"]}, {"file": "ndspy/codeCompression.py", "symbols": ["_detectAppendedData"]}]}
{"id": "C115", "title": "What arbitrary sequence data are read as", "statement": "An event read at a place is exactly what the bytes there say: kind by its first byte, numbers of up to five bytes of 7 bits, signed and unsigned fields, destinations of 24 bits. If readSequenceEvents(data, offsets) succeeds, the list covers the data from start to end with the events found, each followed by what comes after the bytes it takes, and raw data up to the next event; an event is found at every given offset (0 if none), after every event that does not jump, call, return or end, and at every destination; every event found can be played from a start. What can be played need not be found.", "quantifier": "all byte strings, all non-negative offsets, all recursion limits", "why_tests_cant": "Tests read sequences of real games or ones written by ndspy; the meaning of arbitrary bytes and arbitrary control flow is not enumerable, and a change to both reader and writer is invisible to round trips.", "anchors": [{"file": "ndspy/soundSequence.py", "symbols": ["readSequenceEvents", "_readVariableLengthInt", "NoteSequenceEvent.fromData", "RandomSequenceEvent.fromData", "FromVariableSequenceEvent.fromData", "DefineTracksSequenceEvent.fromData"]}]}
{"id": "C116", "title": "What arbitrary palettes, tiles and tile maps are read as", "statement": "loadPalette gives for every two bytes of any data the colour with 5 bits each of red, green and blue and one of alpha, from the lowest bit on; loadImageTiles gives for every 32 or 64 bytes a tile whose pixels are the nibbles, low first, or the bytes; loadTilemapTiles gives for every two bytes the entry with 10 bits of tile number, two flips and 4 bits of palette (struct.error for an odd length) or for every byte a tile number.", "quantifier": "all byte strings", "why_tests_cant": "Round trips do not notice a change of the format made to both reader and writer; tests use a few files.", "anchors": [{"file": "ndspy/color.py", "symbols": ["loadPalette", "unpack"]}, {"file": "ndspy/graphics2D.py", "symbols": ["loadImageTiles", "ImageTile.__init__", "loadTilemapTiles", "TilemapTile.value"]}]}
{"id": "C117", "title": "Pictures of palette, tile, tile map and texture files", "statement": "For arbitrary palette, tile and tile map files, rendering the loaded tiles (or the loaded map) as an image W tiles wide succeeds exactly if the rows are full, every map entry names a tile that is there, and every pixel value other than 0 has its colour in the palette; and then the image is 8*W pixels wide and the pixel at (X, Y) is transparent or has the colour that the number in the palette file says, chosen by the bits of the bytes of the tile and map files (tile number, flips and palette number of the entry at (X/8, Y/8)). A texture of 16-bit colours of an arbitrary NSBTX file whose bytes are all there can always be rendered as an image, and its pixel at (X, Y) is the number at its place of the file.", "quantifier": "all byte strings pal, td, md, both tile formats, both map formats, all widths >= 1, palette numbers >= 0 and tile number offsets; all NSBTX files and textures of format 7; all pixels", "why_tests_cant": "The picture depends on three files together, and on flips, offsets and palette numbers at once; a test compares a few pictures.", "anchors": [{"file": "ndspy/graphics2D.py", "symbols": ["renderTilemapTilesAsImage", "renderImageTilesAsImage", "loadImageTiles", "loadTilemapTiles"]}, {"file": "ndspy/texture.py", "symbols": ["Texture.renderAsImage"]}]}
{"id": "C118", "title": "Files, overlays and code of an arbitrary ROM", "statement": "For an arbitrary ROM file that is read, getFileByName(path) returns exactly the bytes of the ROM that the file allocation table tells for the number to which the names of the path lead when they are followed through the bytes of the filename table (the first entry of a name counts); it raises ValueError exactly if they lead nowhere and IndexError exactly if the number is beyond the allocation table. NARC archives likewise. loadArm9Overlays and loadArm7Overlays return, for the wanted rows of the overlay table at the place the header tells, overlays with the numbers of the row and the data of the ROM file of the row, decompressed (as the format says) if the flag of the row says so; they succeed exactly if every wanted row has such an overlay. loadArm9 and loadArm7 return the sections that the settings found in the decompressed code tell.", "quantifier": "all byte strings of at least 0x200 bytes that load as a ROM, all NARC files, all paths whose components have no slash and whose first and last components are not empty, all sets of overlay numbers, both processors", "why_tests_cant": "Each result depends on several tables of the file at once (header, names, allocation table, overlay table, compression trailer); tests use a few well-formed ROMs, in which no name is ambiguous and no entry is out of range.", "anchors": [{"file": "ndspy/rom.py", "symbols": ["NintendoDSRom.getFileByName", "NintendoDSRom.loadArm9Overlays", "NintendoDSRom.loadArm7Overlays", "NintendoDSRom.loadArm9", "NintendoDSRom.loadArm7"]}, {"file": "ndspy/narc.py", "symbols": ["NARC.getFileByName"]}, {"file": "ndspy/code.py", "symbols": ["loadOverlayTable", "Overlay.__init__", "MainCodeFile.__init__"]}, {"file": "ndspy/fnt.py", "symbols": ["Folder.idOf", "load"]}]}
{"id": "C119", "title": "Named files of a ROM or archive are changed and nothing else is", "statement": "An arbitrary ROM file is loaded, files are assigned with setFileByName, and the ROM is saved. Then the file written leads the same paths to the same file numbers, has the same number of files, each of them with the bytes of the last assignment whose path leads to it and otherwise with the bytes it had in the file read; the header fields (except places and sizes of the parts and the capacity), the code of both processors and both overlay tables are unchanged. The assignments succeed exactly if each path leads to a file that exists. NARC archives likewise. If a file of the ROM is an archive, LZ10-compressed or not, and it is taken out, changed and put back, then the ROM written has, at the same place, an archive with the same paths, the assigned files changed and all other files as before, and all other files of the ROM are as they were.", "quantifier": "all byte strings that load as a ROM (at least 0x200 bytes, with complete blocks after the ARM9 code and no such block beginning right behind them in the file written: C15) or as an archive, all sequences of assignments, all byte strings assigned, compressed and plain archives", "why_tests_cant": "The statement spans two (with archives: five) formats read and written in a row, for files not made by the library; a test covers one ROM, and only the parts it compares.", "anchors": [{"file": "ndspy/rom.py", "symbols": ["NintendoDSRom.__init__", "NintendoDSRom.setFileByName", "NintendoDSRom.save"]}, {"file": "ndspy/narc.py", "symbols": ["NARC._initFromData", "NARC.setFileByName", "NARC.save"]}, {"file": "ndspy/lz10.py", "symbols": ["compress", "decompress"]}, {"file": "ndspy/fnt.py", "symbols": ["load", "save"]}]}
{"id": "C120", "title": "Sound archives read from any file can be changed and saved", "statement": "An arbitrary sound archive file is loaded; sequences, sequence archives, banks, wave archives, players, groups and streams of it are exchanged, added, removed, renamed or moved in any way (new names without NULs, new instruments that the format can express, new group entries of one of the four types, new streams with eight unknown values); and it is saved. If saving succeeds, then the file written can be loaded and gives, entry by entry, the names and the contents that were saved: data and parameters of sequences, names, parameters and data of archives, instruments of banks, waves, players (as a set of channels), groups, streams; merge IDs are the numbers of the files. In particular this holds without any change. Every instrument of a bank read from arbitrary bytes, listed or found between the others, can be written again. If the archive is a file of a ROM, LZ10-compressed or not, then the ROM written has the new archive at the same path and all its other files unchanged.", "quantifier": "all byte strings that load as a sound archive, all archives made of what was read and of new parts, all orders in which instrument types are looked for; for ROMs, the hypotheses of C119", "why_tests_cant": "C60 needs the object to be expressible; that whatever is read from any file is expressible - overlapping and unlisted instruments, shared names - is a statement about all files, of which tests see a handful.", "anchors": [{"file": "ndspy/soundArchive.py", "symbols": ["SDAT._initFromData", "SDAT.save"]}, {"file": "ndspy/soundBank.py", "symbols": ["SBNK._initFromData", "SBNK.save"]}, {"file": "ndspy/soundSequenceArchive.py", "symbols": ["SSAR._initFromData", "SSAR.save"]}, {"file": "ndspy/soundWaveArchive.py", "symbols": ["SWAR._initFromData", "SWAR.save"]}, {"file": "ndspy/soundStream.py", "symbols": ["STRM._initFromData", "STRM.save"]}, {"file": "ndspy/rom.py", "symbols": ["NintendoDSRom.setFileByName"]}]}
{"id": "C121", "title": "Messages of a ROM are changed and nothing else is", "statement": "An arbitrary BMG file (encoding cp1252, UTF-16 or UTF-8) is loaded; messages, instructions, labels and scripts are exchanged, added or removed in any way (new messages in normal form: null messages without parts, no empty or neighbouring strings); and it is saved. If that succeeds, what is read from the file written is exactly what was saved - messages, instructions, labels, scripts (in big-endian files without their indices, C21), ID, encoding, endianness and unknown values - provided the length tells the endianness (C22). If the file is a file of a ROM, or a file of an archive (LZ10-compressed or not) of a ROM, and is put back, then the ROM written has the new messages at the same path and the same number, and all other files of the archive and of the ROM are as they were.", "quantifier": "all byte strings that load as a BMG, an archive, a ROM; all changes of the messages; plain and compressed archives; the hypotheses of C119 for ROMs", "why_tests_cant": "The usual use of the library - translating a game - spans up to five formats read and written in a row, for files the library did not make; tests cover single formats with sample files.", "anchors": [{"file": "ndspy/bmg.py", "symbols": ["BMG._initFromData", "BMG.save", "Message.save"]}, {"file": "ndspy/rom.py", "symbols": ["NintendoDSRom.__init__", "NintendoDSRom.getFileByName", "NintendoDSRom.setFileByName", "NintendoDSRom.save"]}, {"file": "ndspy/narc.py", "symbols": ["NARC._initFromData", "NARC.getFileByName", "NARC.setFileByName", "NARC.save"]}, {"file": "ndspy/lz10.py", "symbols": ["compress", "decompress"]}]}
{"id": "C122", "title": "Code and overlays of a ROM are changed and nothing else is", "statement": "An arbitrary ROM is loaded; its overlays (changed, added, removed) are put into their files, each compressed or not, the overlay table is made anew, and the ROM is saved. From the file written the overlays are loaded in order of their numbers with the code they were given, the size in RAM, the size of the file and the compression bit following it and all else unchanged; the overlays of the other processor, every other file, the names, the header and the main code are as they were. The same holds for main code: its sections are read back as saved. In general any code, overlay tables and files assigned to the ROM are what is read from the ROM written.", "quantifier": "all byte strings that load as a ROM; all dictionaries of overlays with different file numbers and less than 2^24 bytes of code each, if compressed so that the file does not end with four zeros (C06); all main code that C19 covers; both processors", "why_tests_cant": "Replacing code of a game needs four parts of the file to agree - table, file, allocation table and compression state - for ROMs the library did not make; a test can only try some ROMs and some code.", "anchors": [{"file": "ndspy/code.py", "symbols": ["Overlay.save", "saveOverlayTable", "loadOverlayTable", "MainCodeFile.save"]}, {"file": "ndspy/rom.py", "symbols": ["NintendoDSRom.__init__", "NintendoDSRom.loadArm9", "NintendoDSRom.loadArm7", "NintendoDSRom.loadArm9Overlays", "NintendoDSRom.loadArm7Overlays", "NintendoDSRom.save"]}, {"file": "ndspy/codeCompression.py", "symbols": ["compress", "decompress"]}]}
{"id": "C123", "title": "Files made from parts contain the parts", "statement": "An archive, message file, touch area or image position file, stream, wave, wave archive, sound bank, sequence, palette or texture file created from its parts by the class's from... method and saved, loads as an object with exactly those parts in the order given; whatever the caller left out has the default of the signature (ID 0, volume 127, priority 64, pressures 64 and 50, 8000 Hz, no names, and so on).", "quantifier": "all parts that can be saved, any choice of arguments left out, any bytes after the file", "why_tests_cant": "Each constructor has its own defaults and argument order; a test of a few calls cannot show that no argument ends up in another field for some combination of arguments given and left out.", "anchors": [{"file": "ndspy/narc.py", "symbols": ["NARC.fromFilesAndNames"]}, {"file": "ndspy/bmg.py", "symbols": ["BMG.fromMessages"]}, {"file": "ndspy/bnbl.py", "symbols": ["BNBL.fromTouchAreas"]}, {"file": "ndspy/bncl.py", "symbols": ["BNCL.fromImagePositions"]}, {"file": "ndspy/soundStream.py", "symbols": ["STRM.fromChannels"]}, {"file": "ndspy/soundWave.py", "symbols": ["SWAV.fromData"]}, {"file": "ndspy/soundWaveArchive.py", "symbols": ["SWAR.fromWaves"]}, {"file": "ndspy/soundBank.py", "symbols": ["SBNK.fromInstruments"]}, {"file": "ndspy/soundSequence.py", "symbols": ["SSEQ.fromEvents"]}, {"file": "ndspy/texture.py", "symbols": ["Palette.fromColors", "NSBTX.fromTexturesAndPalettes"]}]}
{"id": "C124", "title": "Which files are reproduced byte for byte", "statement": "A wave, wave archive, stream, sequence, sequence archive, touch area file, image position file, filename table, overlay table or NARC archive that loads is reproduced byte for byte by save if and only if it has the canonical form: the byte order mark, sizes and number of blocks are the true ones, the parts follow one another without gaps, padding has the value that save writes, flags are 0 or 1, and bits without meaning are 0 (for overlay tables: the numbers of the overlays ascend from row to row; for filename tables: the folders are numbered in the order of reading, each list has the files before the folders, and the lists follow one another in the order of the numbers; for NARC also: such a table, followed by 0xFF up to a multiple of four bytes). Every filename table of that form is read.", "quantifier": "all files that load, of any size", "why_tests_cant": "Round-trip tests only cover files that happen to be canonical; which deviations survive a load and a save and which are lost is a statement about all files.", "anchors": [{"file": "ndspy/soundWave.py", "symbols": ["SWAV.save"]}, {"file": "ndspy/soundWaveArchive.py", "symbols": ["SWAR.save"]}, {"file": "ndspy/soundStream.py", "symbols": ["STRM.save"]}, {"file": "ndspy/soundSequence.py", "symbols": ["SSEQ.save"]}, {"file": "ndspy/soundSequenceArchive.py", "symbols": ["SSAR.save"]}, {"file": "ndspy/bnbl.py", "symbols": ["BNBL.save"]}, {"file": "ndspy/bncl.py", "symbols": ["BNCL.save"]}, {"file": "ndspy/narc.py", "symbols": ["NARC.save"]}, {"file": "ndspy/fnt.py", "symbols": ["save"]}, {"file": "ndspy/code.py", "symbols": ["saveOverlayTable"]}]}
{"id": "C125", "title": "Compressed code can be unpacked in the memory it lies in", "statement": "If codeCompression.compress returns compressed data for fewer than 2^24 bytes (the last four bytes returned are not all 0), the result can be unpacked in place as the console does it: reading downwards from the end of the compressed part and writing downwards from the end of the place the data take, in one memory, no byte is written over before it has been read. At the end the data lie where the file began, nothing around them has changed, and reading and writing have both arrived where the compressed part began. That files of this format can be unpacked in place in general is false.", "quantifier": "all data shorter than 2^24 bytes, with and without isArm9, and all contents of the memory around the file", "why_tests_cant": "Tests decompress with decompress(), which writes to a separate buffer, so they never see compressed data that overwrite themselves; whether that happens depends on where in the data the savings are.", "anchors": [{"file": "ndspy/codeCompression.py", "symbols": ["compress"]}, {"file": "ndspy/codeCompression.py", "symbols": ["_compress"]}, {"file": "ndspy/_lzCommon.py", "symbols": ["compress"]}]}
{"id": "C126", "title": "The tools for archives and sound archives do what they announce", "statement": "testSDAT, run on a folder, prints one line for every file whose name ends in .sdat, in the order of the names; the line says good exactly if loading and saving the file gives the same bytes, and the result is success exactly if no other file than the one expected to differ does. The saved data of each is in the folder out, where nothing else is left from before, and no other file is changed. It stops early only if a file cannot be opened, loaded, saved or written. On archives the library has saved three times it succeeds. narctool extracts a NARC or packs a folder. (The last is false: narctool always raises an exception, as ndspy.narc has no functions load and save; no file is changed then.) In instrumentExamples, makeScaleSSEQ makes a sequence that can be saved and has the instrument, all 128 notes and the end when it is read back, and prepareSDAT prints how many slots for instruments there are in the banks that use the first wave archive, changes no file, and fails if there is no wave archive or an empty bank slot. soundfontExport reads a bank and a wave archive and writes an empty file, whatever they hold, and nothing else; it fails, changing nothing, exactly if a file cannot be opened or read.", "quantifier": "all file systems, folder names and listings; all banks and instruments", "why_tests_cant": "The tools have no tests; the outcome depends on the contents and names of all files in the folder.", "anchors": [{"file": "tools/testSDAT.py", "symbols": ["testSDAT"]}, {"file": "tools/narctool.py", "symbols": ["main"]}, {"file": "tools/instrumentExamples.py", "symbols": ["makeScaleSSEQ", "prepareSDAT"]}, {"file": "tools/soundfontExport.py", "symbols": ["main"]}]}
{"id": "C127", "title": "Textures of a ROM are changed and nothing else is", "statement": "Arbitrary NSBTX and NSBMD files are loaded; the textures and palettes of an NSBTX file among them are kept, removed, doubled, reordered, exchanged, or joined by new ones or ones from the other files; and it is saved. If that succeeds, what is read from the file written (with anything appended) is exactly what was saved, in order, with all unknown values; names of None become empty. This needs that the textures kept were complete in the file read (the file may end early, C111), that new names are at most 16 bytes and new data has the size the format asks for, and what C55 asks of the palettes: no two alike in name and unknown values, and none with colours after one without. The same holds for the textures of an NSBMD file, whose models stay as they are if the model block was complete. If the NSBTX file is a file of a ROM, or of an archive (LZ10-compressed or not) of a ROM, and is put back, then the ROM written has the new textures at the same path and number, and all other files of the archive and of the ROM are as they were.", "quantifier": "all byte strings that load as an NSBTX, an archive, a ROM; all changes of textures and palettes; plain and compressed archives; the hypotheses of C119 for ROMs", "why_tests_cant": "Replacing textures spans four formats read and written in a row, for files the library did not make.", "anchors": [{"file": "ndspy/texture.py", "symbols": ["NSBTX _readTEX0 _saveTEX0 Palette"]}, {"file": "ndspy/model.py", "symbols": ["NSBMD._initFromData", "NSBMD.save"]}, {"file": "ndspy/rom.py", "symbols": ["NintendoDSRom.__init__", "NintendoDSRom.setFileByName", "NintendoDSRom.save"]}, {"file": "ndspy/narc.py", "symbols": ["NARC.setFileByName", "NARC.save"]}]}
{"id": "C128", "title": "Sequences read from any file can be changed and saved", "statement": "An arbitrary SSEQ file is loaded and parsed; events are removed, reordered, doubled (as new objects), changed and added in any way, with every field of a new event in the range of the format, every object once in the list, every destination in the list, and no FromVariable or raw data events; and it is saved. If that succeeds, the file written can be loaded with the same parameters; it holds the events one after the other, with the places of their destinations; if all of them are reached from the first, reading gives exactly these events; and reading succeeds if the last event ends the track, none is a Return and the recursion limit exceeds their number. Without jumps, calls and other tracks reading always gives the events that were saved. The same holds of sequence archives, whose sequences can be removed, reordered, changed and added as well: each keeps its name and its settings and starts where its first event is written, and after reading has that event as its first event. Sequences and sequence archives of an SDAT file can be changed in the same way, with every other change to the archive that C120 allows: the SDAT file written can be loaded, has the entries that were saved, and the changed sequences in it are read as above. If the SDAT file was taken out of a ROM by its path, compressed or not, and is put back and the ROM saved (under the conditions of C15), then the ROM written has it under the same path and all other files unchanged. Every event read from arbitrary bytes is in the range of the format.", "quantifier": "all byte strings that load and parse as a sequence or as a sequence archive; all lists of events made of what was read and of new events; all lists of sequences with a first event; all recursion limits", "why_tests_cant": "That what is read from any bytes can be written again is a statement about all files and all event types; the places of destinations depend on the lengths of all events in front.", "anchors": [{"file": "ndspy/soundSequence.py", "symbols": ["SSEQ.__init__", "SSEQ.parse", "SSEQ.save", "readSequenceEvents", "saveSequenceEvents"]}, {"file": "ndspy/soundSequenceArchive.py", "symbols": ["SSAR.__init__", "SSAR.parse", "SSAR.save"]}, {"file": "ndspy/soundArchive.py", "symbols": ["SDAT.save"]}]}
{"id": "C129", "title": "Sound banks read from any file can be changed and saved", "statement": "An arbitrary SBNK file is loaded; instruments, those that no table entry points to included, are removed, moved to other IDs, doubled and changed, and new ones that the format can express are added; and it is saved. If that succeeds, and there are no inaccessible instruments, the file written can be loaded: it has the same instruments under the same IDs and no others, and saving it again gives the same file. With inaccessible instruments the file can be loaded as well, and the listed ones are the same. The banks of an SDAT file can be changed in the same way, with every other change that C120 allows: a bank without inaccessible instruments is read from the new SDAT file with the same instruments under the same IDs and no others, two of them share their data exactly if they have the same bytes and had the same merge ID, and it is saved to the same file again. If the SDAT file was taken out of a ROM by its path, compressed or not, and is put back and the ROM saved (under the conditions of C15), then the ROM written has it under the same path and all other files unchanged. Every instrument read from arbitrary bytes can be expressed in the format and saved.", "quantifier": "all byte strings that load as a sound bank; all lists of instruments made of what was read and of new ones; all iteration orders of sets", "why_tests_cant": "That what is read from any bytes can be written again is a statement about all files, including those whose instruments overlap or are not in the table.", "anchors": [{"file": "ndspy/soundBank.py", "symbols": ["SBNK._initFromData", "SBNK.save", "SBNK._makeInstrumentAt"]}, {"file": "ndspy/soundArchive.py", "symbols": ["SDAT.__init__", "SDAT.save"]}]}
{"id": "C130", "title": "Waves and streams read from any file can be changed and saved", "statement": "Every wave of an arbitrary SWAR file (up to the sizes the format allows) can be saved as an SWAV file, and that file is read as the same wave, whatever follows it. Any list of waves that were read from wave archives or wave files, or are new and in the range of the format, in any order and number, can be saved as a SWAR file if its size, 0x3C bytes and 16 plus the data for each wave, is below 2^32; the file has that size and is read as the same list. The channels of an arbitrary STRM file can be exchanged for others with blocks of equal sizes (a different last one allowed), with new counts of samples: the stream can be saved if the file is small enough and the only block of an ADPCM stream has at least four bytes, and it is read as it was saved, with all other fields as in the first file.", "quantifier": "all byte strings that load as a wave archive, a wave or a stream; all lists of waves made of what was read and of new ones; all channels", "why_tests_cant": "That what is read from any bytes can be written again, whatever it is put together with, is a statement about all files and all their combinations.", "anchors": [{"file": "ndspy/soundWave.py", "symbols": ["SWAV.__init__", "SWAV.save"]}, {"file": "ndspy/soundWaveArchive.py", "symbols": ["SWAR.__init__", "SWAR.save"]}, {"file": "ndspy/soundStream.py", "symbols": ["STRM.__init__", "STRM.save"]}]}
{"id": "C131", "title": "Layouts, palettes, tiles and tile maps read from any file can be changed and saved", "statement": "An arbitrary BNBL or BNCL file, palette, list of image tiles or tile map is loaded; entries are removed, reordered, doubled and changed, and new ones in the range of the format are added (at most 65535 touch areas or image positions). Saving then always succeeds, gives a file of exactly the size that many entries take, and loading that file gives the changed list. If the file belongs to a ROM or to a NARC archive and is put back under its path and the whole saved (a ROM under the conditions of C15), then the new ROM or archive has it under that path, reading it there gives the changed list, and all other files are unchanged. The same holds of a file, LZ10-compressed or not, of an archive, LZ10-compressed or not, of a ROM.", "quantifier": "all byte strings that load; all lists made of what was read and of new entries in range; all ROMs and archives that load; all paths", "why_tests_cant": "That whatever is read can be written again is a statement about all files, including odd lengths, unused bits and data behind the entries.", "anchors": [{"file": "ndspy/bnbl.py", "symbols": ["BNBL._initFromData", "BNBL.save"]}, {"file": "ndspy/bncl.py", "symbols": ["BNCL._initFromData", "BNCL.save"]}, {"file": "ndspy/color.py", "symbols": ["loadPalette", "savePalette"]}, {"file": "ndspy/graphics2D.py", "symbols": ["loadImageTiles", "saveImageTiles", "loadTilemapTiles", "saveTilemapTiles"]}, {"file": "ndspy/rom.py", "symbols": ["NintendoDSRom.setFileByName", "NintendoDSRom.save"]}, {"file": "ndspy/narc.py", "symbols": ["NARC.setFileByName", "NARC.save"]}, {"file": "ndspy/lz10.py", "symbols": ["compress", "decompress"]}]}
{"id": "C132", "title": "Files in archives in archives are changed and nothing else is", "statement": "A file lies in a NARC archive, which lies in another one, and so on to any depth; each archive and the outermost file may be LZ10-compressed. The file is taken out by its paths (decompress, NARC, getFileByName on every level), other bytes are put in its place, and the archives are saved from the inside to the outside (setFileByName, save, compress). If that succeeds, following the same paths in the new file gives exactly the new bytes, with the same recursion limit; on every level the same path leads to the same file number and all other files have the same bytes; and any sequence of paths that leads elsewhere (to another file number in some archive that both enter) gives what it gave before. If the outermost file is a file of a ROM that is saved with it (under the conditions of C15), the ROM written has it under its path and all other files unchanged.", "quantifier": "all byte strings that load; any number of nested archives, compressed or not; all paths; all new contents; all ROMs that load", "why_tests_cant": "The depth of nesting and the contents are unbounded; an error in one level's offsets, padding or names would show only in files of another level.", "anchors": [{"file": "ndspy/narc.py", "symbols": ["NARC._initFromData", "NARC.getFileByName", "NARC.setFileByName", "NARC.save"]}, {"file": "ndspy/lz10.py", "symbols": ["compress", "decompress"]}, {"file": "ndspy/fnt.py", "symbols": ["load", "save"]}, {"file": "ndspy/rom.py", "symbols": ["NintendoDSRom.setFileByName", "NintendoDSRom.save"]}]}

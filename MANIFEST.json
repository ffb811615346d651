{
 "claims": [
  {
   "property": "C01",
   "status": "proved",
   "theorems": [
    "C01_lz10_lossless",
    "C01_lz10_too_long"
   ],
   "note": "Unbounded; the data may be followed by arbitrary bytes."
  },
  {
   "property": "C02",
   "status": "proved",
   "theorems": [
    "C02_lz10_decompress_safe"
   ],
   "note": ""
  },
  {
   "property": "C03",
   "status": "proved",
   "theorems": [
    "C03_lz10_size",
    "C03_lz10_output_is_bytes"
   ],
   "note": "The bound is 7 + 9*ceil(n/8); the tighter 4 + 9*ceil(n/8) is false (6 equal bytes give 14)."
  },
  {
   "property": "C04",
   "status": "proved",
   "theorems": [
    "C04_lz_tokens_sound"
   ],
   "note": ""
  },
  {
   "property": "C05",
   "status": "proved",
   "theorems": [
    "C05_code_roundtrip",
    "C05_code_roundtrip_appended",
    "C05_code_compress_errors"
   ],
   "note": "Holds whenever the recorded size difference is not zero; see C06 for the other cases."
  },
  {
   "property": "C06",
   "status": "partial",
   "theorems": [
    "C06_code_inverse_refuted"
   ],
   "note": "The full statement is false of the code: compress raises struct.error on 13 zero bytes, and stored or zero-difference files are not undone. The refutation gives the witness; C05 and C07 give what does hold."
  },
  {
   "property": "C07",
   "status": "proved",
   "theorems": [
    "C07_code_stored",
    "C07_code_outcomes"
   ],
   "note": ""
  },
  {
   "property": "C08",
   "status": "proved",
   "theorems": [
    "C08_crc16_range",
    "C08_crc16_detects_bursts",
    "C08_crc16_detects_changes",
    "C08_crc16_append",
    "C08_crc16_residue",
    "C08_crc16_standard"
   ],
   "note": ""
  },
  {
   "property": "C09",
   "status": "proved",
   "theorems": [
    "C09_save_succeeds",
    "C09_save_needs",
    "C09_roundtrip",
    "C09_reload_stable",
    "C09_load_ends",
    "C09_empty_filename_truncates"
   ],
   "note": ""
  },
  {
   "property": "C10",
   "status": "proved",
   "theorems": [
    "C10_long_names_rejected",
    "C10_save_errors",
    "C10_too_many_folders"
   ],
   "note": ""
  },
  {
   "property": "C11",
   "status": "proved",
   "theorems": [
    "C11_filename_then_id",
    "C11_id_then_filename",
    "C11_filename_spec",
    "C11_filename_none",
    "C11_id_spec",
    "C11_subfolder_spec",
    "C11_compose",
    "C11_compose_none",
    "C11_slashes_ignored",
    "C11_empty_path",
    "C11_contains_id",
    "C11_contains_path",
    "C11_getitem_id",
    "C11_getitem_path",
    "C11_getitem_empty"
   ],
   "note": ""
  },
  {
   "property": "C12",
   "status": "proved",
   "theorems": [
    "C12_roundtrip",
    "C12_save_succeeds",
    "C12_layout",
    "C12_bad_magic"
   ],
   "note": ""
  },
  {
   "property": "C13",
   "status": "proved",
   "theorems": [
    "C13_set_get",
    "C13_set_succeeds",
    "C13_unknown_name",
    "C13_history"
   ],
   "note": ""
  },
  {
   "property": "C14",
   "status": "proved",
   "theorems": [
    "C14_layout",
    "C14_disjoint"
   ],
   "note": "Proved for every ROM object whose save succeeds, with or without updateDeviceCapacity."
  },
  {
   "property": "C15",
   "status": "partial",
   "theorems": [
    "C15_roundtrip",
    "C15_padding_follows",
    "C15_trailer_refuted",
    "C15_banner_saved",
    "C15_banner_loaded"
   ],
   "note": "The reloaded object is described field by field. Proved for every ROM object whose data after the ARM9 code is made of whole 12-byte trailer blocks not followed by another trailer magic; refuted without that condition (an ARM7 binary or overlay table starting with 21 06 C0 DE is swallowed)."
  },
  {
   "property": "C16",
   "status": "proved",
   "theorems": [
    "C16_header",
    "C16_capacity",
    "C16_unchanged",
    "C16_small_fails"
   ],
   "note": "Proved. With updateDeviceCapacity every ROM of at most 64 KiB fails with ValueError (negative capacity), also proved."
  },
  {
   "property": "C17",
   "status": "proved",
   "theorems": [
    "C17_overlay_table_roundtrip",
    "C17_overlay_table_same",
    "C17_overlay_table_resave",
    "C17_overlay_table_length"
   ],
   "note": ""
  },
  {
   "property": "C18",
   "status": "proved",
   "theorems": [
    "C18_flag_accessors",
    "C18_overlay_save",
    "C18_overlay_reopen"
   ],
   "note": ""
  },
  {
   "property": "C19",
   "status": "proved",
   "theorems": [
    "C19_main_code_roundtrip",
    "C19_main_code_roundtrip_compressed",
    "C19_main_code_load_safe"
   ],
   "note": "Requires the code settings to be locatable in the file and plain data that is not mistaken for compressed code."
  },
  {
   "property": "C20",
   "status": "partial",
   "theorems": [
    "C20_fromSections_save_fails",
    "C20_fromSections_constructs",
    "C20_fromSections_savable_refuted"
   ],
   "note": "False of the code as stated: with no code settings block saving computes None + 0x14 and raises TypeError. Refutation by witness; what holds is in C19."
  },
  {
   "property": "C21",
   "status": "partial",
   "theorems": [
    "C21_load_save",
    "C21_canonical_roundtrip",
    "C21_scripts_roundtrip_refuted"
   ],
   "note": "Proved for every BMG that save accepts, in cp1252, utf-16 and utf-8 (codecs modelled) and in shift-jis under an explicit assumption on the codec; the result is described exactly, including what is normalised. Refuted as stated for big-endian scripts: their index is lost."
  },
  {
   "property": "C22",
   "status": "partial",
   "theorems": [
    "C22_detected_iff",
    "C22_small_files",
    "C22_most_files",
    "C22_always_detected_refuted"
   ],
   "note": "Exact criterion proved; true for all files up to 65504 bytes; refuted in general (a 64 KiB file is misdetected)."
  },
  {
   "property": "C23",
   "status": "proved",
   "theorems": [
    "C23_index",
    "C23_index_missing",
    "C23_find",
    "C23_find_missing",
    "C23_set",
    "C23_get_after_set"
   ],
   "note": ""
  },
  {
   "property": "C24",
   "status": "proved",
   "theorems": [
    "C24_unpack_pack",
    "C24_unpack_range",
    "C24_pack_unpack",
    "C24_top_left",
    "C24_alignment_name"
   ],
   "note": ""
  },
  {
   "property": "C25",
   "status": "proved",
   "theorems": [
    "C25_bnbl_roundtrip",
    "C25_bnbl_resave",
    "C25_bnbl_magic"
   ],
   "note": ""
  },
  {
   "property": "C26",
   "status": "proved",
   "theorems": [
    "C26_bncl_roundtrip",
    "C26_bncl_magic"
   ],
   "note": ""
  },
  {
   "property": "C27",
   "status": "proved",
   "theorems": [
    "C27_unpack_pack",
    "C27_pack_unpack",
    "C27_palette_load_save",
    "C27_palette_save_load",
    "C27_expand_contract",
    "C27_expand_monotone",
    "C27_contract_nearest"
   ],
   "note": ""
  },
  {
   "property": "C28",
   "status": "proved",
   "theorems": [
    "C28_info_roundtrip",
    "C28_info_save_succeeds",
    "C28_info_bad_length",
    "C28_info_bad_length_error"
   ],
   "note": ""
  },
  {
   "property": "C29",
   "status": "proved",
   "theorems": [
    "C29_image_tiles_roundtrip",
    "C29_image_tiles_resave",
    "C29_image_tile_wrong_length",
    "C29_image_tiles_mixed"
   ],
   "note": ""
  },
  {
   "property": "C30",
   "status": "proved",
   "theorems": [
    "C30_value16",
    "C30_value8",
    "C30_value_then_new",
    "C30_new_then_value",
    "C30_tilemap_roundtrip",
    "C30_tilemap_resave",
    "C30_tilemap_odd_length",
    "C30_tilemap_mixed"
   ],
   "note": ""
  },
  {
   "property": "C31",
   "status": "proved",
   "theorems": [
    "C31_flip_pixels",
    "C31_flip_compose",
    "C31_flip_8bit",
    "C31_render_pixel"
   ],
   "note": ""
  },
  {
   "property": "C32",
   "status": "partial",
   "theorems": [
    "C32_put_tile",
    "C32_readable_partial",
    "C32_readable_refuted"
   ],
   "note": "putTile/tileAt proved in full for the coordinates they accept; the readability part is false of the code because y is compared with the width (witness in the refuted theorem)."
  },
  {
   "property": "C33",
   "status": "proved",
   "theorems": [
    "C33_params_roundtrip",
    "C33_word_roundtrip",
    "C33_bad_size"
   ],
   "note": "Proved for all parameter combinations and all 65536 words."
  },
  {
   "property": "C34",
   "status": "proved",
   "theorems": [
    "C34_swav_roundtrip",
    "C34_swav_save_options",
    "C34_swav_savable",
    "C34_swav_loaded",
    "C34_swav_bad_loop"
   ],
   "note": ""
  },
  {
   "property": "C35",
   "status": "proved",
   "theorems": [
    "C35_swar_roundtrip",
    "C35_swar_savable"
   ],
   "note": ""
  },
  {
   "property": "C36",
   "status": "proved",
   "theorems": [
    "C36_strm_roundtrip",
    "C36_strm_savable",
    "C36_strm_update",
    "C36_strm_rate_zero",
    "C36_strm_inconsistent"
   ],
   "note": "STRMs whose eight unknown header words are present; the float computation of the time is modelled as integer division."
  },
  {
   "property": "C37",
   "status": "proved",
   "theorems": [
    "C37_written",
    "C37_minimal",
    "C37_read_back"
   ],
   "note": ""
  },
  {
   "property": "C38",
   "status": "partial",
   "theorems": [
    "C38_announced_length_partial",
    "C38_no_overlap_partial",
    "C38_savable",
    "C38_fromvariable_refuted",
    "C38_overlap_refuted"
   ],
   "note": "Proved for every event class except FromVariable, for which it is false of the code (refuted for all field values: one or two bytes too many)."
  },
  {
   "property": "C39",
   "status": "partial",
   "theorems": [
    "C39_event_roundtrip",
    "C39_list_roundtrip_partial",
    "C39_list_exact",
    "C39_fromvariable_refuted",
    "C39_bytes_refuted",
    "C39_straight"
   ],
   "note": "Single events in full. Lists: without FromVariable events (refuted with a witness) and raw data; unreachable runs come back as raw data with the same bytes. bytes -> list -> bytes is false for data with non-canonical integers (witness)."
  },
  {
   "property": "C40",
   "status": "proved",
   "theorems": [
    "C40_sseq_layout",
    "C40_sseq_preserved",
    "C40_sseq_saved_loads",
    "C40_sseq_load_errors",
    "C40_ssar_layout",
    "C40_ssar_preserved",
    "C40_ssar_saved_loads",
    "C40_ssar_load_errors"
   ],
   "note": "Canonical files: the layout theorems spell out every byte. Values outside the struct ranges are not covered."
  },
  {
   "property": "C41",
   "status": "partial",
   "theorems": [
    "C41_empty_slot_refuted",
    "C41_overlap_refuted",
    "C41_savable_partial",
    "C41_sseq_savable_partial",
    "C41_parse_starts",
    "C41_parse_twice",
    "C41_sseq_parse_twice"
   ],
   "note": "False of the code: an empty slot (offset -1) or overlapping events make save fail (two witnesses). Proved instead: exactly when the parsed archive can be saved, and that the saved table is the same."
  },
  {
   "property": "C42",
   "status": "partial",
   "theorems": [
    "C42_note_layout",
    "C42_note_roundtrip",
    "C42_typed_note_roundtrip",
    "C42_instrument_roundtrip",
    "C42_instrument_only_expressible",
    "C42_too_many_regions",
    "C42_instruments_refuted",
    "C42_bank_roundtrip"
   ],
   "note": "Notes, instruments and whole banks without inaccessible instruments round trip, for every instrument the format can express; C42_instrument_only_expressible shows those are the only ones ever read. The claim for all instruments is false (C42_instruments_refuted): regional instruments without regions or with a later region ending at pitch 0, and single notes of type 0, are not recovered. Banks with inaccessible instruments: C82 to C84."
  },
  {
   "property": "C43",
   "status": "proved",
   "theorems": [
    "C43_group_roundtrip",
    "C43_group_save_load",
    "C43_group_bad_type"
   ],
   "note": ""
  },
  {
   "property": "C44",
   "status": "proved",
   "theorems": [
    "C44_alignment_sign",
    "C44_alignment_zero",
    "C44_file_stored",
    "C44_sharing",
    "C44_no_overlap",
    "C44_all_used",
    "C44_file_view"
   ],
   "note": "For all archives that can be saved; sequence archives included. The alignment may be any non-zero number."
  },
  {
   "property": "C45",
   "status": "proved",
   "theorems": [
    "C45_duration",
    "C45_additive",
    "C45_nonneg",
    "C45_move",
    "C45_move_errors",
    "C45_move_timeline",
    "C45_append_looped_refuted",
    "C45_negative",
    "C45_too_negative",
    "C45_negative_cut_refuted"
   ],
   "note": "Durations are non-negative for events with non-negative durations. The property is proved as stated; C45_append_looped_refuted concerns a further sentence of moveInTime's description (no rest is appended to a looped track), which does not hold. Start indices may be negative (C45_negative); cutting the last event by one puts the second half in front of the list (C45_negative_cut_refuted)."
  },
  {
   "property": "C46",
   "status": "proved",
   "theorems": [
    "C46_edits",
    "C46_order"
   ],
   "note": "For all edits whose indices are in range."
  },
  {
   "property": "C47",
   "status": "partial",
   "theorems": [
    "C47_string",
    "C47_string_unterminated",
    "C47_wide_string_refuted",
    "C47_find"
   ],
   "note": "Proved for one-byte characters; for two-byte characters the claim is false of the code (terminator searched at odd offsets), refuted with a witness. Missing-terminator behaviour characterised."
  },
  {
   "property": "C48",
   "status": "partial",
   "theorems": [
    "C48_sheet_complete_partial",
    "C48_tilemap_sheet_complete_partial",
    "C48_sheet_incomplete",
    "C48_tilemap_sheet_incomplete",
    "C48_sheet_refuted"
   ],
   "note": "Proved for complete rows, for image tiles and tilemap tiles; false for an incomplete last row, where rendering always raises StopIteration (proved for all such lists)."
  },
  {
   "property": "C49",
   "status": "proved",
   "theorems": [
    "C49_code_decompress_safe"
   ],
   "note": ""
  },
  {
   "property": "C50",
   "status": "proved",
   "theorems": [
    "C50_convert_total",
    "C50_convert_lossless",
    "C50_helpers_agree",
    "C50_lut_words",
    "C50_convert_down",
    "C50_alpha_down",
    "C50_older_helpers_agree"
   ],
   "note": ""
  },
  {
   "property": "C51",
   "status": "partial",
   "theorems": [
    "C51_swar_fromFile_refuted",
    "C51_swar_fromFile_partial"
   ],
   "note": "False of the code: fromFile ignores its unk02 argument (witness); the waves are the same (proved)."
  },
  {
   "property": "C52",
   "status": "proved",
   "theorems": [
    "C52_reader_total"
   ],
   "note": "The recursion limit is the depth parameter; negative starting offsets are not modelled."
  },
  {
   "property": "C53",
   "status": "proved",
   "theorems": [
    "C53_bank_load_total"
   ],
   "note": "Fuel of the search loop is one more than the number of bytes left over; the theorem shows it never runs out."
  },
  {
   "property": "C54",
   "status": "proved",
   "theorems": [
    "C54_resave",
    "C54_wave_archive_ids"
   ],
   "note": "Only banks with no inaccessible instruments; for the others see C84."
  },
  {
   "property": "C55",
   "status": "proved",
   "theorems": [
    "C55_nsbtx_roundtrip",
    "C55_equal_keys_clash",
    "C55_empty_palette_clash",
    "C55_layout",
    "C55_bad_palette"
   ],
   "note": "Proved under the stated conditions; the two palette conditions are shown necessary by the _clash theorems (same key: both read as the later palette; palette after an empty one: read as empty)."
  },
  {
   "property": "C56",
   "status": "partial",
   "theorems": [
    "C56_render_pixels",
    "C56_render_succeeds",
    "C56_enough_data",
    "C56_bad_format",
    "C56_render_with_palette_refuted",
    "C56_palette_object"
   ],
   "note": "Pixel formulas proved for integer palettes. Refuted for Texture.render with a Palette: its colours are tuples and indexing the lookup table with a tuple raises TypeError. PIL image conversion is not modelled."
  },
  {
   "property": "C57",
   "status": "proved",
   "theorems": [
    "C57_saves_iff_fits",
    "C57_file_size"
   ],
   "note": ""
  },
  {
   "property": "C58",
   "status": "partial",
   "theorems": [
    "C58_scan_ends_or_diverges",
    "C58_load_terminates_refuted"
   ],
   "note": "Termination itself is refuted (two witnesses); the dichotomy is proved."
  },
  {
   "property": "C59",
   "status": "proved",
   "theorems": [
    "C59_counts",
    "C59_none",
    "C59_sequences",
    "C59_sequence_archives",
    "C59_banks",
    "C59_wave_archives",
    "C59_streams",
    "C59_players",
    "C59_groups",
    "C59_stream_players"
   ],
   "note": ""
  },
  {
   "property": "C60",
   "status": "proved",
   "theorems": [
    "C60_reload",
    "C60_roundtrip"
   ],
   "note": "C60_reload is an equivalence for every archive that can be saved with NUL-free names. C60_roundtrip adds conditions under which every object loads: banks without inaccessible instruments and with instruments the format can express, streams with eight unknown header words, group items of known type."
  },
  {
   "property": "C61",
   "status": "proved",
   "theorems": [
    "C61_wrong_kind",
    "C61_nsbmd"
   ],
   "note": ""
  },
  {
   "property": "C63",
   "status": "proved",
   "theorems": [
    "C63_loop",
    "C63_refused",
    "C63_trailing"
   ],
   "note": ""
  },
  {
   "property": "C64",
   "status": "partial",
   "theorems": [
    "C64_get",
    "C64_set",
    "C64_delete",
    "C64_delete_refuted"
   ],
   "note": "Proved but for the last sentence: with two events of the class in front, setting None leaves the second one's value (C64_delete_refuted; C64_delete says exactly what remains)."
  },
  {
   "property": "C65",
   "status": "proved",
   "theorems": [
    "C65_clamped",
    "C65_unclamped",
    "C65_add"
   ],
   "note": ""
  },
  {
   "property": "C66",
   "status": "partial",
   "theorems": [
    "C66_no_music",
    "C66_roundtrip",
    "C66_layout",
    "C66_single",
    "C66_save_fails",
    "C66_optional_refuted",
    "C66_empty_track_refuted"
   ],
   "note": "Proved for non-empty tracks whose event objects are distinct and whose first event is not itself a begin-track or track definition. Refuted: without wave archives the constructor always raises TypeError; an empty track 0 comes back as a copy of another track."
  },
  {
   "property": "C67",
   "status": "proved",
   "theorems": [
    "C67_collapse"
   ],
   "note": ""
  },
  {
   "property": "C68",
   "status": "partial",
   "theorems": [
    "C68_loop_all",
    "C68_shared_refuted"
   ],
   "note": "Proved for tracks that share no event objects; refuted for tracks that share a rest, which is cut for both."
  },
  {
   "property": "C69",
   "status": "partial",
   "theorems": [
    "C69_sound",
    "C69_instruments",
    "C69_waves",
    "C69_tracks",
    "C69_archives_refuted",
    "C69_psg_refuted",
    "C69_optional_refuted",
    "C69_nothing"
   ],
   "note": "Renumbering and the set of waves kept are proved for any archives; the sound of every note is proved when all waves wanted are in one archive. Refuted: with two archives a note gets the wrong wave (numbers are positions in the list of all waves); the duty cycle of PSG instruments is treated as a wave number; without wave archives TypeError is raised."
  },
  {
   "property": "C70",
   "status": "proved",
   "theorems": [
    "C70_display_list",
    "C70_total"
   ],
   "note": "Unbounded; the table of parameter counts is stated separately from the model's."
  },
  {
   "property": "C71",
   "status": "partial",
   "theorems": [
    "C71_resave",
    "C71_exchange",
    "C71_layout",
    "C71_new_savable_refuted",
    "C71_truncated_refuted"
   ],
   "note": "Proved for loaded models whose MDL0 block is as long as its length word says and whose textures can be stored (the conditions of C55). Refuted without an MDL0 block (AttributeError on save) and for a block cut off by the end of the file, which swallows what follows when saved and loaded."
  },
  {
   "property": "C72",
   "status": "proved",
   "theorems": [
    "C72_models",
    "C72_names"
   ],
   "note": "What the parser drops (materials, bones, display lists) is checked only for not being refused."
  },
  {
   "property": "C73",
   "status": "proved",
   "theorems": [
    "C73_set_get",
    "C73_set_succeeds",
    "C73_unknown_name",
    "C73_history",
    "C73_saved"
   ],
   "note": "Through the save and the load under the conditions of C15."
  },
  {
   "property": "C74",
   "status": "proved",
   "theorems": [
    "C74_reload",
    "C74_store"
   ],
   "note": "Compressed overlays: data below 16 MiB and a compressed form whose last word is not zero (as C18)."
  },
  {
   "property": "C75",
   "status": "partial",
   "theorems": [
    "C75_resave",
    "C75_empty_file_refuted",
    "C75_long_signature_refuted"
   ],
   "note": "Proved when every empty file belongs to an overlay, the signature has at most 0x88 bytes, sortedFileIds holds no negative numbers, and under the conditions of C15. Refuted without the first two: with an empty file in front of two others the order alternates for ever, since the dictionary from offsets to numbers keeps one file per offset."
  },
  {
   "property": "C62",
   "status": "partial",
   "theorems": [
    "C62_resave",
    "C62_settles",
    "C62_loaded_aligns",
    "C62_unconditional_refuted",
    "C62_total_refuted"
   ],
   "note": "Proved for alignments dividing 0x200 when, with padding guessed after the table, the last file's length is aligned, and the end of the archive is aligned. The settling after two more saves needs neither. Refuted without conditions: no files, one unaligned file, padding of the table without padding at the end, an alignment the loader does not try. Some loadable archives cannot be saved at all (C62_total_refuted)."
  },
  {
   "property": "C76",
   "status": "proved",
   "theorems": [
    "C76_pixels",
    "C76_distinct",
    "C76_wide",
    "C76_errors"
   ],
   "note": ""
  },
  {
   "property": "C77",
   "status": "proved",
   "theorems": [
    "C77_tile",
    "C77_sheet",
    "C77_tilemap_sheet",
    "C77_tilemap_tile",
    "C77_texture"
   ],
   "note": "Textures with palettes given as 16-bit integers, as in C56 (rendering with a Palette object fails, C56). Incomplete last rows of sheets raise StopIteration (C48)."
  },
  {
   "property": "C78",
   "status": "proved",
   "theorems": [
    "C78_note_name",
    "C78_distinct"
   ],
   "note": ""
  },
  {
   "property": "C79",
   "status": "partial",
   "theorems": [
    "C79_short_bytes",
    "C79_apostrophe_refuted"
   ],
   "note": "Proved for bytes without an apostrophe; refuted with one."
  },
  {
   "property": "C80",
   "status": "proved",
   "theorems": [
    "C80_lines",
    "C80_tells_all",
    "C80_previews",
    "C80_negative"
   ],
   "note": "The listing does not show the first ID of the root folder when the root has no files, so equal first IDs of the roots are assumed; names are not empty, do not begin with a space, hold no line break, and file names do not end in a slash."
  },
  {
   "property": "C81",
   "status": "proved",
   "theorems": [
    "C81_enumerated"
   ],
   "note": ""
  },
  {
   "property": "C82",
   "status": "proved",
   "theorems": [
    "C82_found",
    "C82_guess_possible",
    "C82_guess_suits",
    "C82_possible_types",
    "C82_no_overlap_refuted"
   ],
   "note": "Proved as stated. C82_no_overlap_refuted concerns a further sentence: an unlisted single note may overlap the listed instrument after it, because the size of the gap is not checked when one type is possible."
  },
  {
   "property": "C83",
   "status": "proved",
   "theorems": [
    "C83_bank_roundtrip",
    "C83_listed_survive",
    "C83_all_banks_refuted",
    "C83_written",
    "C83_left_out"
   ],
   "note": "Proved as stated; C83_listed_survive needs no condition on the unlisted instruments but that the file loads. C83_all_banks_refuted shows that a condition is needed: what is filed under an ID without an instrument is lost."
  },
  {
   "property": "C84",
   "status": "proved",
   "theorems": [
    "C84_resave",
    "C84_loaded_data_kept",
    "C84_file_kept",
    "C84_instrument_kept",
    "C84_all_files_refuted"
   ],
   "note": "Proved as stated. C84_all_files_refuted shows that files with other bytes between instruments are not kept."
  },
  {
   "property": "C85",
   "status": "proved",
   "theorems": [
    "C85_fnt",
    "C85_fnt_depth",
    "C85_fnt_endless",
    "C85_narc",
    "C85_rom",
    "C85_touch_areas",
    "C85_image_positions",
    "C85_waves",
    "C85_sound_archive",
    "C85_textures",
    "C85_texture_block",
    "C85_models",
    "C85_overlays"
   ],
   "note": "Sequences, sequence archives, sound banks, compressed data, main code files and BMG have their own theorems: C02, C19, C40, C49, C52, C53, C58."
  },
  {
   "property": "C86",
   "status": "proved",
   "theorems": [
    "C86_saves",
    "C86_loads",
    "C86_roundtrips",
    "C86_large_roundtrips"
   ],
   "note": ""
  },
  {
   "property": "C87",
   "status": "partial",
   "theorems": [
    "C87_lz10_main",
    "C87_code_main",
    "C87_lz10_roundtrip",
    "C87_code_roundtrip",
    "C87_input_kept",
    "C87_input_kept_refuted",
    "C87_outputs_distinct_refuted",
    "C87_tool",
    "C87_tool_twice",
    "C87_tool_twice_refuted"
   ],
   "note": "Round trips proved. That the input is kept, that outputs have different names and that lz10tool guesses right is false of the code: refuted by witnesses; C87_input_kept says when the input is kept."
  },
  {
   "property": "C88",
   "status": "partial",
   "theorems": [
    "C88_json_partial",
    "C88_json_refuted",
    "C88_tool_changes",
    "C88_narc",
    "C88_extract",
    "C88_insert",
    "C88_json_tool"
   ],
   "note": "Extraction and insertion proved. JSON is proved to work exactly for tables without folders and refuted for others. Python's json module is trusted (a text is modelled by its value)."
  },
  {
   "property": "C89",
   "status": "partial",
   "theorems": [
    "C89_fromCompressed",
    "C89_fromCompressed_same_refuted"
   ],
   "note": "The second half is refuted by a witness (data compressed twice)."
  },
  {
   "property": "C90",
   "status": "partial",
   "theorems": [
    "C90_rom",
    "C90_rom_capacity_refuted",
    "C90_narc",
    "C90_sdat",
    "C90_sdat_settings_refuted",
    "C90_strm",
    "C90_strm_reload",
    "C90_swav",
    "C90_sseq",
    "C90_ssar_fromEvents",
    "C90_no_textures",
    "C90_sdat_filled"
   ],
   "note": "Proved for each class as stated; two sentences are false of the code and refuted by witnesses: NintendoDSRom().save(updateDeviceCapacity=True) raises ValueError, and an empty SDAT reloads with guessed alignment settings."
  },
  {
   "property": "C91",
   "status": "proved",
   "theorems": [
    "C91_search",
    "C91_search_fails",
    "C91_pointer",
    "C91_pointer_ignored",
    "C91_no_settings",
    "C91_sections"
   ],
   "note": ""
  },
  {
   "property": "C92",
   "status": "partial",
   "theorems": [
    "C92_reads_back",
    "C92_distinct",
    "C92_portamento",
    "C92_portamento_refuted"
   ],
   "note": "Proved for all events except PortamentoOnOff with a value other than 0 and 1, which is refuted."
  },
  {
   "property": "C93",
   "status": "partial",
   "theorems": [
    "C93_list",
    "C93_distinct",
    "C93_labels",
    "C93_warnings",
    "C93_sseq",
    "C93_ssar",
    "C93_ssar_labels_refuted"
   ],
   "note": "Proved as stated; for archives with several sequences without a name refuted by a witness."
  },
  {
   "property": "C94",
   "status": "partial",
   "theorems": [
    "C94_constructor_call",
    "C94_enumeration_refuted",
    "C94_enumeration",
    "C94_switches",
    "C94_depth",
    "C94_endless"
   ],
   "note": "Proved as stated (C94_switches says how switches are shown); for MonoPoly and VibratoType events refuted by a witness."
  },
  {
   "property": "C95",
   "status": "proved",
   "theorems": [
    "C95_decode_iff_encode",
    "C95_unicode_errors",
    "C95_utf_encodable"
   ],
   "note": "The codecs are CPython's and modelled in full; shift-jis is a parameter and excluded."
  },
  {
   "property": "C96",
   "status": "proved",
   "theorems": [
    "C96_message_resave",
    "C96_short_escape_refuted",
    "C96_reload"
   ],
   "note": "Proved as stated. C96_short_escape_refuted shows that the condition on the escapes is needed."
  },
  {
   "property": "C97",
   "status": "proved",
   "theorems": [
    "C97_event_save_fails",
    "C97_length_fails",
    "C97_list_fails",
    "C97_exceptions",
    "C97_jump_too_far"
   ],
   "note": ""
  },
  {
   "property": "C98",
   "status": "proved",
   "theorems": [
    "C98_ssar_parse_fails",
    "C98_sseq_loaded",
    "C98_sseq_made",
    "C98_sseq_unchanged",
    "C98_sseq_ignored",
    "C98_sseq_stays_parsed",
    "C98_ssar_alike",
    "C98_ssar_unchanged",
    "C98_ssar_ignored",
    "C98_ssar_assigned",
    "C98_ssar_states",
    "C98_ssar_missing"
   ],
   "note": ""
  },
  {
   "property": "C99",
   "status": "proved",
   "theorems": [
    "C99_area_numbers",
    "C99_position_numbers",
    "C99_alignment_words",
    "C99_area_corner",
    "C99_drawing",
    "C99_width",
    "C99_width_refuted",
    "C99_text",
    "C99_area_tells",
    "C99_position_tells",
    "C99_loaded_standard",
    "C99_position_text"
   ],
   "note": "Proved as stated; C99_width_refuted shows that eleven areas can make lines of different widths."
  },
  {
   "property": "C100",
   "status": "partial",
   "theorems": [
    "C100_instrument",
    "C100_region",
    "C100_instrument_expression",
    "C100_bank",
    "C100_bank_expression",
    "C100_bank_refuted",
    "C100_wave_archive_refuted",
    "C100_empty_archive",
    "C100_event",
    "C100_event_expression",
    "C100_track",
    "C100_track_expression",
    "C100_sequence_events",
    "C100_music",
    "C100_sequence_events_refuted",
    "C100_archive",
    "C100_archive_file",
    "C100_class_name",
    "C100_str",
    "C100_folder",
    "C100_touch_areas",
    "C100_image_positions",
    "C100_narc",
    "C100_narc_files_refuted",
    "C100_narc_order_refuted",
    "C100_section",
    "C100_main_code",
    "C100_overlay",
    "C100_overlay_refuted",
    "C100_message",
    "C100_bmg",
    "C100_null_refuted",
    "C100_texture",
    "C100_palette",
    "C100_palette_refuted",
    "C100_texture_refuted",
    "C100_player",
    "C100_archive_sequence",
    "C100_stream",
    "C100_stream_player_refuted",
    "C100_stream_player",
    "C100_sequence_refuted",
    "C100_no_expression_refuted",
    "C100_main_code_address",
    "C100_wave_arguments"
   ],
   "note": "Proved for str, Folder, BNBL, BNCL, sections, main code, overlays that are not compressed, BMG and messages (up to null messages), textures, palettes of at most 20 colours, sequence players, archive sequences, sequence events without destination or enumeration member, and tracks, sequences of at most eight events and sequence archives made of them, banks and instruments (these are expressions exactly if no note type is 1, 2 or 3), and for NARC and STRM with at most one short file or block; the other cases are refuted, most of them for all objects of the kind. C100_main_code_address and C100_wave_arguments say what the text holds beyond the expression. C100_stream_player says that what StreamPlayer.save returns does give the player back."
  },
  {
   "property": "C101",
   "status": "proved",
   "theorems": [
    "C101_sample",
    "C101_white_noise",
    "C101_instrument_kind",
    "C101_single",
    "C101_bank",
    "C101_overlay_address",
    "C101_group_kind",
    "C101_wave",
    "C101_archive_sequence_state",
    "C101_waves",
    "C101_stream",
    "C101_texture",
    "C101_palette",
    "C101_main_code",
    "C101_title",
    "C101_region",
    "C101_track",
    "C101_unparsed_archive",
    "C101_narc",
    "C101_counts",
    "C101_players",
    "C101_archive_sequence",
    "C101_overlay",
    "C101_group",
    "C101_message",
    "C101_message_refuted",
    "C101_bank_total",
    "C101_duty_cycle",
    "C101_range",
    "C101_regions"
   ],
   "note": "Proved as stated; C101_message_refuted shows why text with brackets is excluded."
  },
  {
   "property": "C102",
   "status": "proved",
   "theorems": [
    "C102_accepted",
    "C102_short",
    "C102_header",
    "C102_parts",
    "C102_signature",
    "C102_files",
    "C102_names",
    "C102_banner"
   ],
   "note": "Proved as stated."
  },
  {
   "property": "C103",
   "status": "proved",
   "theorems": [
    "C103_read",
    "C103_any_depth",
    "C103_endless",
    "C103_cycle"
   ],
   "note": "Proved as stated; with a recursion limit of at least 4096 levels, as everywhere for filename tables. Smaller limits only add RecursionError (C103_any_depth)."
  },
  {
   "property": "C104",
   "status": "proved",
   "theorems": [
    "C104_read",
    "C104_file_byte"
   ],
   "note": "Proved as stated."
  },
  {
   "property": "C105",
   "status": "proved",
   "theorems": [
    "C105_read",
    "C105_accepted"
   ],
   "note": "Proved as stated; the callback is any function."
  },
  {
   "property": "C106",
   "status": "proved",
   "theorems": [
    "C106_bnbl",
    "C106_bncl"
   ],
   "note": "Proved as stated."
  },
  {
   "property": "C107",
   "status": "proved",
   "theorems": [
    "C107_swav",
    "C107_swar",
    "C107_strm"
   ],
   "note": "Proved as stated."
  },
  {
   "property": "C108",
   "status": "proved",
   "theorems": [
    "C108_sseq",
    "C108_ssar"
   ],
   "note": "Proved as stated."
  },
  {
   "property": "C109",
   "status": "proved",
   "theorems": [
    "C109_read",
    "C109_determined"
   ],
   "note": "Proved as stated; what the objects in the files are read as is C107, C108 and C110."
  },
  {
   "property": "C110",
   "status": "proved",
   "theorems": [
    "C110_read",
    "C110_accepted",
    "C110_wars",
    "C110_size_refuted"
   ],
   "note": "Proved as stated. C110_size_refuted shows that the condition on the size in the header is needed: with a larger one the search for unlisted instruments may read behind the end. Unlisted instruments: C82."
  },
  {
   "property": "C111",
   "status": "proved",
   "theorems": [
    "C111_read",
    "C111_block",
    "C111_accepted",
    "C111_twins",
    "C111_place_refuted",
    "C111_data_refuted"
   ],
   "note": "Proved as stated. C111_place_refuted and C111_data_refuted show that a palette need not have the colours at its own place and that texture data may be cut short."
  },
  {
   "property": "C112",
   "status": "proved",
   "theorems": [
    "C112_read",
    "C112_accepted",
    "C112_models"
   ],
   "note": "Proved as stated."
  },
  {
   "property": "C113",
   "status": "proved",
   "theorems": [
    "C113_read",
    "C113_accepted",
    "C113_one",
    "C113_text_refuted",
    "C113_save_refuted"
   ],
   "note": "Proved as stated for messages that end; on the others the program runs on or raises (see C58)."
  },
  {
   "property": "C114",
   "status": "proved",
   "theorems": [
    "C114_lz10",
    "C114_code",
    "C114_appended_refuted",
    "C114_any_lz10",
    "C114_any_code"
   ],
   "note": "Data appended to a file whose end says that nothing is compressed are lost (C114_appended_refuted)."
  },
  {
   "property": "C115",
   "status": "proved",
   "theorems": [
    "C115_event",
    "C115_length",
    "C115_read",
    "C115_call_refuted",
    "C115_if_refuted"
   ],
   "note": "Everything that can be played is found: refuted (C115_call_refuted: what follows the second call of a part that jumps is raw data; C115_if_refuted: what follows a jump after an If that was read before the If)."
  },
  {
   "property": "C116",
   "status": "proved",
   "theorems": [
    "C116_palette",
    "C116_tiles",
    "C116_map",
    "C116_map8"
   ],
   "note": ""
  },
  {
   "property": "C117",
   "status": "proved",
   "theorems": [
    "C117_sheet",
    "C117_map",
    "C117_map8",
    "C117_texture"
   ],
   "note": "C117_sheet, C117_map, C117_map8: from the bytes of the files to the pixels of the picture, with the exact conditions of success. C117_texture: likewise for direct colour textures, for any palette argument."
  },
  {
   "property": "C118",
   "status": "proved",
   "theorems": [
    "C118_by_name",
    "C118_narc_by_name",
    "C118_overlays",
    "C118_overlays_accepted",
    "C118_main_code"
   ],
   "note": "C118_by_name, C118_narc_by_name: results and both exceptions characterised exactly. C118_overlays, C118_overlays_accepted: both processors. C118_main_code: settings and sections (sections under the hypothesis, as in C91, that the table does not start before the file)."
  },
  {
   "property": "C119",
   "status": "proved",
   "theorems": [
    "C119_rom",
    "C119_rom_accepted",
    "C119_narc",
    "C119_narc_accepted",
    "C119_archive_in_rom"
   ],
   "note": "C119_rom, C119_rom_accepted, C119_narc, C119_narc_accepted, C119_archive_in_rom. The two hypotheses about the blocks behind the ARM9 code are those of C15, where C15_trailer_refuted shows that they are needed."
  },
  {
   "property": "C120",
   "status": "proved",
   "theorems": [
    "C120_bank_read",
    "C120_bank",
    "C120_edited",
    "C120_resaved",
    "C120_in_rom"
   ],
   "note": "C120_bank_read, C120_bank, C120_edited, C120_resaved, C120_in_rom. That the bytes written are bytes is a hypothesis of C120_in_rom (in Python they are of the type bytes)."
  },
  {
   "property": "C121",
   "status": "proved",
   "theorems": [
    "C121_edited",
    "C121_file_in_rom",
    "C121_file_in_archive",
    "C121_in_rom",
    "C121_in_archive"
   ],
   "note": "C121_edited, C121_file_in_rom, C121_file_in_archive, C121_in_rom, C121_in_archive. Shift-JIS, a parameter of the model, is left out; that the bytes written are bytes is a hypothesis (in Python they are of the type bytes)."
  },
  {
   "property": "C122",
   "status": "proved",
   "theorems": [
    "C122_parts",
    "C122_overlays",
    "C122_main_code"
   ],
   "note": "C122_parts, C122_overlays, C122_main_code. The hypotheses on the data after the ARM9 code are those of C15."
  },
  {
   "property": "C123",
   "status": "proved",
   "theorems": [
    "C123_archive",
    "C123_messages",
    "C123_touch_areas",
    "C123_image_positions",
    "C123_stream",
    "C123_wave_archive",
    "C123_wave",
    "C123_bank",
    "C123_sequence",
    "C123_palette",
    "C123_textures"
   ],
   "note": "Under the conditions of the round trips named. SSAR.fromEventsAndSequences: C90. MainCodeFile.fromSections: C20 (what it makes cannot be saved)."
  },
  {
   "property": "C124",
   "status": "proved",
   "theorems": [
    "C124_filenames",
    "C124_filenames_read",
    "C124_archive_bytes",
    "C124_overlay_table",
    "C124_wave",
    "C124_wave_archive",
    "C124_stream",
    "C124_sequence",
    "C124_sequence_archive",
    "C124_touch_areas",
    "C124_image_positions",
    "C124_archive"
   ],
   "note": "Both directions. The canonical forms are in ExactSpec.v and ExactFntSpec.v in terms of the bytes of the file only. SSEQ and SSAR files are saved without parse()."
  },
  {
   "property": "C125",
   "status": "proved",
   "theorems": [
    "C125_in_place",
    "C125_any_file_refuted"
   ],
   "note": "The machine is in InPlaceSpec.v and uses nothing of the model. C125_any_file_refuted: a file that decompress() accepts overwrites itself, so the property is due to the part that compress() leaves uncompressed."
  },
  {
   "property": "C126",
   "status": "partial",
   "theorems": [
    "C126_scale",
    "C126_instruments",
    "C126_soundfont",
    "C126_narctool_refuted",
    "C126_report",
    "C126_stops",
    "C126_settled"
   ],
   "note": "Everything said about testSDAT is proved (C126_report, C126_stops, C126_settled), and about the instrument example tool (C126_scale, C126_instruments) and the soundfont draft (C126_soundfont). What narctool should do is refuted by C126_narctool_refuted for all arguments."
  },
  {
   "property": "C127",
   "status": "proved",
   "theorems": [
    "C127_edited",
    "C127_model",
    "C127_in_rom",
    "C127_in_archive"
   ],
   "note": "C127_edited, C127_model, C127_in_rom, C127_in_archive. That the bytes written are bytes is a hypothesis for ROMs (in Python they are of the type bytes)."
  },
  {
   "property": "C128",
   "status": "proved",
   "theorems": [
    "C128_archive_in_rom",
    "C128_in_rom",
    "C128_read",
    "C128_edited",
    "C128_straight",
    "C128_in_sdat",
    "C128_archive_in_sdat",
    "C128_archive"
   ],
   "note": "C128_read, C128_edited, C128_straight, C128_archive; C128_in_sdat and C128_archive_in_sdat for the sequences and sequence archives of an SDAT; C128_in_rom and C128_archive_in_rom from ROM to ROM. An archive with an empty slot parses to one that cannot be saved (C41); C128_archive asks that all sequences have a first event."
  },
  {
   "property": "C129",
   "status": "proved",
   "theorems": [
    "C129_in_rom",
    "C129_read",
    "C129_edited",
    "C129_listed",
    "C129_in_sdat"
   ],
   "note": "C129_read, C129_edited, C129_listed; C129_in_sdat for the banks of an SDAT, C129_in_rom from ROM to ROM."
  },
  {
   "property": "C130",
   "status": "proved",
   "theorems": [
    "C130_read",
    "C130_archive",
    "C130_stream"
   ],
   "note": "C130_read, C130_archive, C130_stream. Files above the sizes of 32-bit fields are excluded by hypothesis."
  },
  {
   "property": "C131",
   "status": "proved",
   "theorems": [
    "C131_edited",
    "C131_in_rom",
    "C131_in_archive",
    "C131_packed"
   ],
   "note": "C131_edited, C131_in_rom, C131_in_archive, C131_packed."
  },
  {
   "property": "C132",
   "status": "proved",
   "theorems": [
    "C132_replaced",
    "C132_in_rom",
    "C132_others"
   ],
   "note": "C132_replaced, C132_others, C132_in_rom."
  }
 ]
}
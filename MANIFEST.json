{
 "claims": [
  {
   "property": "C01",
   "status": "proved",
   "theorems": [
    "C01_writer_produces_the_stream",
    "C01_reader_splits_the_stream"
   ],
   "note": "Writer layout and reader splitting, for every list of valid records, debug and release builds."
  },
  {
   "property": "C02",
   "status": "proved",
   "theorems": [
    "C02_record_loop_terminates",
    "C02_game_data_read_terminates",
    "C02_image_read_terminates",
    "C02_game_item_read_terminates",
    "C02_collection_read_terminates",
    "C02_font_read_terminates",
    "C02_info_tags_read_terminates"
   ],
   "note": "Iteration bound for every loop body; instantiated for every reader of the model."
  },
  {
   "property": "C03",
   "status": "proved",
   "theorems": [
    "C03_game_data_unknown_records",
    "C03_unknown_records_are_skipped"
   ],
   "note": "All 21 known kinds; extra records at every position of the item and of its drag points."
  },
  {
   "property": "C04",
   "status": "proved",
   "theorems": [
    "C04_strings_read_back_up_to_NUL",
    "C04_survives_exactly_Latin1_without_NUL",
    "C04_strings_read_are_Latin1_without_NUL"
   ],
   "note": "Exact characterisation of the strings that survive."
  },
  {
   "property": "C05",
   "status": "proved",
   "theorems": [
    "C05_decode_encode",
    "C05_encode_decode",
    "C05_rejects_exactly_the_others",
    "C05_encoding_has_even_length",
    "C05_wide_strings_read_back"
   ],
   "note": "Both directions, and rejection of everything else."
  },
  {
   "property": "C06",
   "status": "proved",
   "theorems": [
    "C06_bytes_preserved",
    "C06_utf8_exactly_when_valid",
    "C06_utf8_text_is_decoded"
   ],
   "note": "Every byte string."
  },
  {
   "property": "C07",
   "status": "proved",
   "theorems": [
    "C07_game_item_round_trip",
    "C07_what_is_stored"
   ],
   "note": "All 21 known kinds; the stored form is described exactly, including the quantised field."
  },
  {
   "property": "C08",
   "status": "proved",
   "theorems": [
    "C08_resave_reaches_a_fixed_point",
    "C08_resave_is_lossless",
    "C08_unpaired_frames_refuted",
    "C08_generic_items_refuted"
   ],
   "note": "Fixed point for every accepted input below 4 GiB and every known kind; lossless except for primitives with unpaired animation frames; the two exceptions are proved as refutations."
  },
  {
   "property": "C09",
   "status": "proved",
   "theorems": [
    "C09_kind_read_is_the_type_in_the_file",
    "C09_type_written_is_the_kind",
    "C09_unknown_types_are_generic",
    "C09_generic_items_cannot_be_written",
    "C09_reserved_types_panic"
   ],
   "note": "All 32-bit type numbers."
  },
  {
   "property": "C10",
   "status": "proved",
   "theorems": [
    "C10_image_round_trip",
    "C10_image_written_is_read",
    "C10_image_resave",
    "C10_bitmap_with_marker_refuted",
    "C10_both_kinds_merge",
    "C10_image_resave_refuted"
   ],
   "note": "Exact layout, unknown records, resave; the two conditions (marker in a bitmap, both kinds of picture data) are shown to be necessary."
  },
  {
   "property": "C11",
   "status": "proved",
   "theorems": [
    "C11_sound_stored",
    "C11_new_format_round_trip",
    "C11_sound_resave",
    "C11_every_version_refuted",
    "C11_wav_by_extension",
    "C11_backslash_directory_refuted"
   ],
   "note": "Exact layout per version; what old versions drop is stated in the theorem, and the unconditional statement is refuted."
  },
  {
   "property": "C12",
   "status": "proved",
   "theorems": [
    "C12_pcm_file",
    "C12_export_import",
    "C12_extracted_sound_restored",
    "C12_bytes_per_second_refuted",
    "C12_other_format_sizes_refuted",
    "C12_export_panics_refuted"
   ],
   "note": "All formats; recomputed byte rate, wrong sizes for compressed formats and the overflow panic are shown as refutations."
  },
  {
   "property": "C13",
   "status": "proved",
   "theorems": [
    "C13_collection_round_trip",
    "C13_collection_resave"
   ],
   "note": "Exact record layout, round trip with unknown records inserted anywhere, fixed point of resaving."
  },
  {
   "property": "C14",
   "status": "proved",
   "theorems": [
    "C14_font_round_trip",
    "C14_font_resave"
   ],
   "note": "Exact record layout, round trip with unknown records, resave."
  },
  {
   "property": "C15",
   "status": "proved",
   "theorems": [
    "C15_info_tags_round_trip",
    "C15_info_tags_resave"
   ],
   "note": "Exact record layout, round trip with unknown records, resave."
  },
  {
   "property": "C16",
   "status": "proved",
   "theorems": [
    "C16_info_round_trip",
    "C16_reserved_name_refuted",
    "C16_long_name_refuted"
   ],
   "note": "Names that collide or are too long: refutations."
  },
  {
   "property": "C17",
   "status": "proved",
   "theorems": [
    "C17_game_data_round_trip",
    "C17_game_data_stored_form",
    "C17_stored_form_differs_only_in",
    "C17_game_data_resave",
    "C17_wrong_counter_refuted"
   ],
   "note": "All fields at every version; the stored form is exact (empty lists become absent, the beta flag of C18); the counter of materials is necessary (refutation)."
  },
  {
   "property": "C18",
   "status": "proved",
   "theorems": [
    "C18_position_written",
    "C18_position_survives",
    "C18_flag_after_reading",
    "C18_camera_layout_mode_refuted"
   ],
   "note": "Exact description of the position and of the flag; preservation fails when a camera layout mode is stored (refutation)."
  },
  {
   "property": "C19",
   "status": "proved",
   "theorems": [
    "C19_material_round_trip",
    "C19_material_resave",
    "C19_legacy_materials_round_trip",
    "C19_legacy_physics_materials_round_trip",
    "C19_legacy_names_are_cut"
   ],
   "note": "All three encodings with exact layouts; legacy names are cut to 31 characters."
  },
  {
   "property": "C20",
   "status": "proved",
   "theorems": [
    "C20_legacy_form",
    "C20_legacy_codes_are_stable",
    "C20_legacy_form_panics_on_NaN"
   ],
   "note": "All materials without NaN in the three quantised parameters; a NaN aborts (proved). Uses the real numbers of the standard library through Flocq."
  },
  {
   "property": "C21",
   "status": "proved",
   "theorems": [
    "C21_quantise_8",
    "C21_quantise_percent",
    "C21_quantise_u8",
    "C21_values"
   ],
   "note": "All f32 bit patterns; uses the real numbers of the standard library through Flocq."
  },
  {
   "property": "C22",
   "status": "proved",
   "theorems": [
    "C22_render_probe_keeps_trailing_bytes",
    "C22_render_probe_resave"
   ],
   "note": "Any trailing bytes, unknown records inserted, and resave."
  },
  {
   "property": "C23",
   "status": "proved",
   "theorems": [
    "C23_layout",
    "C23_round_trip",
    "C23_equal",
    "C23_wrong_counter_refuted"
   ],
   "note": "The entries of the file, the round trip, and equality for tables without the values listed as lost elsewhere. Wrong counters: refutation."
  },
  {
   "property": "C24",
   "status": "proved",
   "theorems": [
    "C24_blocks",
    "C24_join",
    "C24_blocks_round_trip"
   ],
   "note": "All data and block lengths 1..255; joining characterised exactly."
  },
  {
   "property": "C25",
   "status": "proved",
   "theorems": [
    "C25_swap_exchanges_red_and_blue",
    "C25_swap_twice",
    "C25_swap_incomplete_pixel",
    "C25_bitmap_export_import",
    "C25_bitmap_transparency",
    "C25_opaque_flag_wins"
   ],
   "note": "All pixel buffers; the bitmap file codec and the LZW coder are oracles that must restore the picture at hand."
  },
  {
   "property": "C26",
   "status": "proved",
   "theorems": [
    "C26_text_written",
    "C26_text_read",
    "C26_text_round_trip",
    "C26_text_accepted",
    "C26_plus_refuted",
    "C26_malformed_refuted",
    "C26_rgb",
    "C26_rgb_number",
    "C26_windows",
    "C26_windows_number",
    "C26_binary"
   ],
   "note": "All colours, all texts, all packed numbers, and the binary form wherever it stands. Findings: a plus sign is accepted as a digit, and a text of 7 or 9 bytes with a multi-byte character at a slice boundary panics instead of being rejected."
  },
  {
   "property": "C27",
   "status": "proved",
   "theorems": [
    "C27_lock_history",
    "C27_last_call",
    "C27_idempotent",
    "C27_written_editable"
   ],
   "note": "Any history on any editable file."
  },
  {
   "property": "C28",
   "status": "proved",
   "theorems": [
    "C28_formula",
    "C28_ends",
    "C28_verifies",
    "C28_covered",
    "C28_not_covered",
    "C28_change_detected",
    "C28_ambiguous_refuted",
    "C28_empty_tag_refuted"
   ],
   "note": "For every hash function. Ambiguity of the hashed bytes and the empty tag: refutations."
  },
  {
   "property": "C29",
   "status": "proved",
   "theorems": [
    "C29_crash_safe",
    "C29_failure",
    "C29_same_reads",
    "C29_name_missing_refuted",
    "C29_same_name_refuted"
   ],
   "note": "All tables, all orders of the directory walk, all crash points (process crashes; loss of unsynced data on power failure is outside the model). Findings: a path ending in .compacting is emptied first; between remove and rename no file has the table's name."
  },
  {
   "property": "C30",
   "status": "proved",
   "theorems": [
    "C30_history",
    "C30_last_write",
    "C30_writer",
    "C30_create_refuted",
    "C30_spelling_refuted"
   ],
   "note": "Every history of calls with any number of open writers; each call is atomic because it takes the lock once. Findings: a created file does not exist until flushed or dropped; paths are compared as spelt."
  },
  {
   "property": "C31",
   "status": "proved",
   "theorems": [
    "C31_unique",
    "C31_round_trip",
    "C31_frame_name_refuted",
    "C31_json_name_refuted"
   ],
   "note": "All lists of items and all write orders. Lower-casing, alphanumeric and JSON parsing are oracles. Findings: a primitive named <other>_anim_<n> swaps data with the other's frame; a primitive named 'json' loses its mesh."
  },
  {
   "property": "C32",
   "status": "proved",
   "theorems": [
    "C32_sounds",
    "C32_sounds_written",
    "C32_dedup_collision_refuted",
    "C32_outside_directory_refuted",
    "C32_images",
    "C32_images_written",
    "C32_bmp_file_refuted"
   ],
   "note": "Sanitising, lower-casing, which names denote the same file, and the image codecs are oracles; the JSON index is C45. Findings: a name like a_dedup1 next to two sounds a stops the extraction; duplicates use the unsanitised name, so a file can be written outside the directory; an encoded .bmp file comes back as pixels."
  },
  {
   "property": "C33",
   "status": "proved",
   "theorems": [
    "C33_fonts",
    "C33_same_name_refuted"
   ],
   "note": "Finding: fonts whose names differ only in case or in sanitised characters overwrite each other silently."
  },
  {
   "property": "C34",
   "status": "proved",
   "theorems": [
    "C34_triangulate",
    "C34_accepted",
    "C34_surface",
    "C34_range_refuted"
   ],
   "note": "C34_triangulate, C34_accepted: the normalising path, for all face lists. C34_surface: any OBJ file. FINDING C34_range_refuted: files made only of triangles with matching indices are not range-checked, so the clause \"any out-of-range index is rejected\" is false there."
  },
  {
   "property": "C35",
   "status": "proved",
   "theorems": [
    "C35_round_trip",
    "C35_restored",
    "C35_panics_refuted"
   ],
   "note": "All 12- and 32-byte strings. FINDING C35_panics_refuted: any other comment starting with \"vpx \" panics the reader when a word is not a hexadecimal byte."
  },
  {
   "property": "C36",
   "status": "proved",
   "theorems": [
    "C36_indices",
    "C36_mesh",
    "C36_partial_face_refuted"
   ],
   "note": "All face lists and vertex counts up to 2^32; C36_mesh: whole stored meshes. FINDING C36_partial_face_refuted: indices that do not fill a face are dropped."
  },
  {
   "property": "C37",
   "status": "proved",
   "theorems": [
    "C37_stored",
    "C37_files",
    "C37_nan_refuted",
    "C37_extra_refuted"
   ],
   "note": "C37_stored: storage form, all frames. C37_files: through OBJ files, when no number is NaN and no frame is longer than the mesh; C37_nan_refuted and C37_extra_refuted show both conditions are needed."
  },
  {
   "property": "C38",
   "status": "proved",
   "theorems": [
    "C38_warnings_are_exact",
    "C38_warnings_are_ordered"
   ],
   "note": "All item lists."
  },
  {
   "property": "C39",
   "status": "proved",
   "theorems": [
    "C39_primitive",
    "C39_light",
    "C39_glass"
   ],
   "note": "All primitives, lights, materials and versions."
  },
  {
   "property": "C40",
   "status": "proved",
   "theorems": [
    "C40_lock",
    "C40_layer",
    "C40_layer_name",
    "C40_layer_visibility",
    "C40_attributes_are_restored"
   ],
   "note": "All kinds; part groups have no editor layer and items of unknown types none of the attributes."
  },
  {
   "property": "C41",
   "status": "proved",
   "theorems": [
    "C41_values_read_back",
    "C41_known_codes_keep_their_integer",
    "C41_unknown_codes_rejected",
    "C41_unknown_codes_fallback",
    "C41_GateType_preserves_every_integer",
    "C41_GateType_values_read_back",
    "C41_GateType_values_read_back_refuted",
    "C41_ToneMapper_preserves_every_integer",
    "C41_ToneMapper_values_read_back",
    "C41_ToneMapper_values_read_back_refuted",
    "C41_json_values_read_back"
   ],
   "note": "All enumerations that are stored as integers; the values-read-back claim needs a proviso for the two enumerations with an unknown payload (refutation included)."
  },
  {
   "property": "C42",
   "status": "proved",
   "theorems": [
    "C42_round_trip",
    "C42_forms",
    "C42_nan_length_refuted",
    "C42_plain_refuted",
    "C42_plain"
   ],
   "note": "All 2^32 bit patterns; that serde_json gives finite numbers back is a premise. Findings: NaN text of a wrong length panics; NaN or infinity in a plain field is written as null."
  },
  {
   "property": "C43",
   "status": "proved",
   "theorems": [
    "C43_edits",
    "C43_image"
   ],
   "note": ""
  },
  {
   "property": "C44",
   "status": "proved",
   "theorems": [
    "C44_version_stream",
    "C44_text_round_trip",
    "C44_parse"
   ],
   "note": ""
  },
  {
   "property": "C45",
   "status": "proved",
   "theorems": [
    "C45_materials",
    "C45_render_probes",
    "C45_collections",
    "C45_table_info",
    "C45_sounds",
    "C45_fonts",
    "C45_images",
    "C45_indices",
    "C45_alpha_refuted",
    "C45_bmp_file_refuted"
   ],
   "note": "All structures; conditions on floats are shown to be needed (C45_alpha_refuted), as is the one on .bmp files (C45_bmp_file_refuted)."
  },
  {
   "property": "C46",
   "status": "proved",
   "theorems": [
    "C46_change_extension",
    "C46_extension_afterwards"
   ],
   "note": "All images; extensions without a dollar sign."
  },
  {
   "property": "C47",
   "status": "proved",
   "theorems": [
    "C47_chunks_kept",
    "C47_header_rewritten",
    "C47_reading_ends"
   ],
   "note": "All inputs."
  },
  {
   "property": "C48",
   "status": "proved",
   "theorems": [
    "C48_import_extract",
    "C48_nul_refuted"
   ],
   "note": "NUL characters: refutation."
  },
  {
   "property": "C49",
   "status": "proved",
   "theorems": [
    "C49_obj",
    "C49_mesh"
   ],
   "note": "For every printing and parsing of numbers satisfying number_texts (an f32 other than NaN is read as an f64 that rounds to it; 0.5 and -1 exactly). The OBJ line syntax is the wavefront-obj-io crate and zlib is an oracle."
  },
  {
   "property": "C50",
   "status": "proved",
   "theorems": [
    "C50_item_restored",
    "C50_entry_restored",
    "C50_nothing_lost",
    "C50_nan_unreadable_refuted",
    "C50_nan_lost_refuted"
   ],
   "note": "All 22 item types; finite plain floats are needed, which two refutations show."
  },
  {
   "property": "C51",
   "status": "proved",
   "theorems": [
    "C51_order_and_extra_keys",
    "C51_old_keys",
    "C51_structs",
    "C51_game_data",
    "C51_sound_internal_name"
   ],
   "note": "For the keys of the item itself (not those of nested points or fonts); items of unknown type excepted. Only successful reads are compared."
  },
  {
   "property": "C52",
   "status": "proved",
   "theorems": [
    "C52_game_data",
    "C52_nothing_lost"
   ],
   "note": "Generated from the Rust structure and both conversions; compare tools/gen_json.py."
  },
  {
   "property": "C53",
   "status": "proved",
   "theorems": [
    "C53_round_trip",
    "C53_written",
    "C53_recomputed",
    "C53_required",
    "C53_twice",
    "C53_reused_directory_refuted",
    "C53_frames_without_mesh_refuted"
   ],
   "note": "Whole-directory round trip for OBJ, GLB and glTF meshes, composed from the models behind C31-C33, C36, C37, C45, C49, C50, C52 and C55; the libraries are arguments constrained by toolbox_ok, and ExampleToolbox.v gives libraries that meet it."
  },
  {
   "property": "C54",
   "status": "proved",
   "theorems": [
    "C54_numbers",
    "C54_flags"
   ],
   "note": ""
  },
  {
   "property": "C55",
   "status": "proved",
   "theorems": [
    "C55_glb",
    "C55_gltf",
    "C55_mesh",
    "C55_frame",
    "C55_container",
    "C55_standard",
    "C55_bounds",
    "C55_cut",
    "C55_cut_error_refuted",
    "C55_foreign_normals",
    "C55_foreign_normals_refuted",
    "C55_edited_normals_refuted"
   ],
   "note": "serde_json printing and parsing are arguments, constrained only on the document at hand. Three findings are proved as refutations (C55_cut_error_refuted, C55_foreign_normals_refuted, C55_edited_normals_refuted)."
  },
  {
   "property": "C56",
   "status": "proved",
   "theorems": [
    "C56_written",
    "C56_round_trip",
    "C56_assembled",
    "C56_extracted",
    "C56_aligned",
    "C56_identical_refuted",
    "C56_small_refuted",
    "C56_range_refuted"
   ],
   "note": "Printing and reading numbers are arguments (number_texts), the lines of an OBJ file are not split further. Three findings are proved as refutations (C56_identical_refuted, C56_small_refuted, C56_range_refuted)."
  },
  {
   "property": "C57",
   "status": "proved",
   "theorems": [
    "C57_shape",
    "C57_triangles",
    "C57_closed",
    "C57_positions",
    "C57_inside",
    "C57_browser",
    "C57_inward_normals",
    "C57_texture"
   ],
   "note": "Sine and cosine are arguments; C57_inward_normals states the finding about normals and assumes that the cosine of pi/n is positive."
  },
  {
   "property": "C58",
   "status": "proved",
   "theorems": [
    "C58_midpoint",
    "C58_overflow_refuted"
   ],
   "note": "C58_overflow_refuted is the finding."
  },
  {
   "property": "C59",
   "status": "proved",
   "theorems": [
    "C59_total",
    "C59_triangles",
    "C59_left",
    "C59_filled",
    "C59_once",
    "C59_measure",
    "C59_complete_refuted"
   ],
   "note": "C59_once: no edge is used twice in the same direction, and the outline is not used backwards, in any result. C59_complete_refuted is the finding: a simple hexagon for which no triangle is found."
  },
  {
   "property": "C60",
   "status": "proved",
   "theorems": [
    "C60_ends",
    "C60_ramp_ends",
    "C60_curve",
    "C60_ramp_curve",
    "C60_corners",
    "C60_marks",
    "C60_ramp_marks",
    "C60_start",
    "C60_nan_refuted",
    "C60_ramp_nan_refuted",
    "C60_accuracy_refuted"
   ],
   "note": "The depth of the recursion is an argument of the model. C60_nan_refuted, C60_ramp_nan_refuted and C60_accuracy_refuted are the findings."
  },
  {
   "property": "C61",
   "status": "proved",
   "theorems": [
    "C61_name",
    "C61_type_name",
    "C61_part_group",
    "C61_images",
    "C61_materials",
    "C61_physics_material",
    "C61_visible"
   ],
   "note": "Stated against the JSON form of the items, which C50 relates to the items."
  },
  {
   "property": "C62",
   "status": "proved",
   "theorems": [
    "C62_convert",
    "C62_stops",
    "C62_total",
    "C62_same_picture",
    "C62_again",
    "C62_only_images",
    "C62_report_refuted"
   ],
   "note": "Relative to the compound file model of C23 and to arbitrary codecs; losslessness of the WebP encoder is a hypothesis of C62_same_picture only. C62_report_refuted: a bmp image without a bitmap is reported as converted."
  },
  {
   "property": "C63",
   "status": "proved",
   "theorems": [
    "C63_normals",
    "C63_total",
    "C63_none",
    "C63_mesh",
    "C63_surface",
    "C63_meshes",
    "C63_top_texture",
    "C63_table_texture",
    "C63_side_texture",
    "C63_manual",
    "C63_automatic",
    "C63_inside_out_refuted",
    "C63_hidden_refuted",
    "C63_top_texture_refuted",
    "C63_manual_refuted",
    "C63_round_refuted"
   ],
   "note": "Drag points within 2^20 units where floating point matters (C63_total, the texture theorems); textures of the top need coordinates that are all equal or at least 2^-100 apart somewhere (C63_top_texture_refuted shows why). C63_inside_out_refuted, C63_hidden_refuted, C63_manual_refuted and C63_round_refuted are findings. Normals are modelled but no theorem is about them."
  },
  {
   "property": "C64",
   "status": "proved",
   "theorems": [
    "C64_none",
    "C64_total",
    "C64_mesh",
    "C64_surface",
    "C64_texture",
    "C64_centre",
    "C64_total_refuted",
    "C64_surface_refuted",
    "C64_thickness_refuted"
   ],
   "note": "Texture coordinates for meshes of up to 2^24 vertices; drag points within 2^20 units for C64_total. Sine and cosine are arbitrary. C64_total_refuted, C64_surface_refuted and C64_thickness_refuted are findings. The distance of the vertices from the curve and the normals are modelled but no theorem is about them."
  },
  {
   "property": "C65",
   "status": "proved",
   "theorems": [
    "C65_none",
    "C65_total",
    "C65_mesh",
    "C65_surface",
    "C65_floor",
    "C65_walls",
    "C65_heights",
    "C65_texture",
    "C65_world",
    "C65_wires",
    "C65_wire_texture",
    "C65_outside",
    "C65_wire_width_refuted",
    "C65_world_refuted",
    "C65_above_refuted"
   ],
   "note": "Drag points within 2^20 units for C65_total, C65_floor, C65_heights, C65_texture; widths and heights up to 2^20, with an error of 2^(p-20) at the last vertex for sizes up to 2^p; texture coordinates of wires for meshes of up to 2^24 vertices. Sine and cosine are arbitrary. C65_outside (for the right wall), C65_wire_width_refuted, C65_world_refuted and C65_above_refuted are findings. The direction across the ramp between its ends (where two sides of the floor meet), the distance of a wire from its line and the normals are modelled but no theorem is about them."
  },
  {
   "property": "C66",
   "status": "proved",
   "theorems": [
    "C66_shapes",
    "C66_materials",
    "C66_files",
    "C66_described",
    "C66_once",
    "C66_strict",
    "C66_scale",
    "C66_parts",
    "C66_total",
    "C66_spaces_refuted",
    "C66_ring_refuted",
    "C66_wall_refuted",
    "C66_placed"
   ],
   "note": "For tables of fewer than 2^32 exported vertices. The meshes of bumpers, flippers, gates, kickers, spinners, targets, triggers and plungers are arguments, as are zlib, weezl, the BMP writer, sanitize_filename, to_lowercase, sine and cosine. A file is the list of lines the OBJ crate is told to write. C66_total asks that lower case keeps the number in the names of copies, that rubbers do not have all their points at one place, and that reading the stored mesh of a primitive does not panic. C66_spaces_refuted, C66_ring_refuted and C66_wall_refuted are findings."
  },
  {
   "property": "C67",
   "status": "proved",
   "theorems": [
    "C67_total",
    "C67_none",
    "C67_mesh",
    "C67_centre",
    "C67_flat",
    "C67_turned",
    "C67_texture",
    "C67_world",
    "C67_glow",
    "C67_light_image",
    "C67_decal",
    "C67_image_refuted",
    "C67_bytes_refuted"
   ],
   "note": "Sine and cosine are arguments. The bounds hold for texture boxes at least 2^-19 wide. C67_image_refuted and C67_bytes_refuted are findings."
  },
  {
   "property": "C68",
   "status": "proved",
   "theorems": [
    "C68_tip_points",
    "C68_parts",
    "C68_total",
    "C68_turns",
    "C68_mesh",
    "C68_surface",
    "C68_places",
    "C68_texture",
    "C68_spring",
    "C68_index_refuted",
    "C68_facing_refuted"
   ],
   "note": "Sine, cosine and the parsing of numbers are arguments. The order of tip points that are not numbers is left open by the library; the model keeps such a point before those that follow it. C68_index_refuted and C68_facing_refuted are findings."
  },
  {
   "property": "C69",
   "status": "proved",
   "theorems": [
    "C69_present",
    "C69_copies",
    "C69_places",
    "C69_wires"
   ],
   "note": "The built-in shapes, sine and cosine are arguments; the shapes in the code meet the hypotheses (counted by a script: every index list is a multiple of three and in range, every number is at most 46.5). That the normals of gates and triggers have length one after scaling is modelled, but not claimed; C69_wires asks that they come out as numbers up to two."
  }
 ]
}
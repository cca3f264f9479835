NOTES = {
 'C01': ('proved', 'Writer layout and reader splitting, for every list of valid records, debug and release builds.'),
 'C02': ('proved', 'Iteration bound for every loop body; instantiated for every reader of the model.'),
 'C04': ('proved', 'Exact characterisation of the strings that survive.'),
 'C05': ('proved', 'Both directions, and rejection of everything else.'),
 'C06': ('proved', 'Every byte string.'),
 'C41': ('proved', 'All enumerations that are stored as integers; the values-read-back claim needs a proviso for the two enumerations with an unknown payload (refutation included).'),
 'C03': ('proved', 'All 21 known kinds; extra records at every position of the item and of its drag points.'),
 'C07': ('proved', 'All 21 known kinds; the stored form is described exactly, including the quantised field.'),
 'C08': ('proved', 'Fixed point for every accepted input below 4 GiB and every known kind; lossless except for primitives with unpaired animation frames; the two exceptions are proved as refutations.'),
 'C09': ('proved', 'All 32-bit type numbers.'),
 'C21': ('proved', 'All f32 bit patterns; uses the real numbers of the standard library through Flocq.'),
 'C38': ('proved', 'All item lists.'),
 'C40': ('proved', 'All kinds; part groups have no editor layer and items of unknown types none of the attributes.'),
 'C13': ('proved', 'Exact record layout, round trip with unknown records inserted anywhere, fixed point of resaving.'),
 'C14': ('proved', 'Exact record layout, round trip with unknown records, resave.'),
 'C15': ('proved', 'Exact record layout, round trip with unknown records, resave.'),
 'C17': ('proved', 'All fields at every version; the stored form is exact (empty lists become absent, the beta flag of C18); the counter of materials is necessary (refutation).'),
 'C18': ('proved', 'Exact description of the position and of the flag; preservation fails when a camera layout mode is stored (refutation).'),
 'C19': ('proved', 'All three encodings with exact layouts; legacy names are cut to 31 characters.'),
 'C20': ('proved', 'All materials without NaN in the three quantised parameters; a NaN aborts (proved). Uses the real numbers of the standard library through Flocq.'),
 'C22': ('proved', 'Any trailing bytes, unknown records inserted, and resave.'),
 'C10': ('proved', 'Exact layout, unknown records, resave; the two conditions (marker in a bitmap, both kinds of picture data) are shown to be necessary.'),
 'C24': ('proved', 'All data and block lengths 1..255; joining characterised exactly.'),
 'C25': ('proved', 'All pixel buffers; the bitmap file codec and the LZW coder are oracles that must restore the picture at hand.'),
 'C46': ('proved', 'All images; extensions without a dollar sign.'),
 'C11': ('proved', 'Exact layout per version; what old versions drop is stated in the theorem, and the unconditional statement is refuted.'),
 'C12': ('proved', 'All formats; recomputed byte rate, wrong sizes for compressed formats and the overflow panic are shown as refutations.'),
 'C47': ('proved', 'All inputs.'),
 'C16': ('proved', 'Names that collide or are too long: refutations.'),
 'C23': ('proved', 'The entries of the file, the round trip, and equality for tables without the values listed as lost elsewhere. Wrong counters: refutation.'),
 'C27': ('proved', 'Any history on any editable file.'),
 'C28': ('proved', 'For every hash function. Ambiguity of the hashed bytes and the empty tag: refutations.'),
 'C43': ('proved', ''),
 'C44': ('proved', ''),
 'C48': ('proved', 'NUL characters: refutation.'),
 'C26': ('proved', 'All colours, all texts, all packed numbers, and the binary form wherever it stands. Findings: a plus sign is accepted as a digit, and a text of 7 or 9 bytes with a multi-byte character at a slice boundary panics instead of being rejected.'),
 'C29': ('proved', "All tables, all orders of the directory walk, all crash points (process crashes; loss of unsynced data on power failure is outside the model). Findings: a path ending in .compacting is emptied first; between remove and rename no file has the table's name."),
 'C30': ('proved', 'Every history of calls with any number of open writers; each call is atomic because it takes the lock once. Findings: a created file does not exist until flushed or dropped; paths are compared as spelt.'),
 'C31': ('proved', "All lists of items and all write orders. Lower-casing, alphanumeric and JSON parsing are oracles. Findings: a primitive named <other>_anim_<n> swaps data with the other's frame; a primitive named 'json' loses its mesh."),
 'C39': ('proved', 'All primitives, lights, materials and versions.'),
 'C42': ('proved', 'All 2^32 bit patterns; that serde_json gives finite numbers back is a premise. Findings: NaN text of a wrong length panics; NaN or infinity in a plain field is written as null.'),
 'C34': ('proved', 'C34_triangulate, C34_accepted: the normalising path, for all face lists. C34_surface: any OBJ file. FINDING C34_range_refuted: files made only of triangles with matching indices are not range-checked, so the clause "any out-of-range index is rejected" is false there.'),
 'C35': ('proved', 'All 12- and 32-byte strings. FINDING C35_panics_refuted: any other comment starting with "vpx " panics the reader when a word is not a hexadecimal byte.'),
 'C36': ('proved', 'All face lists and vertex counts up to 2^32; C36_mesh: whole stored meshes. FINDING C36_partial_face_refuted: indices that do not fill a face are dropped.'),
 'C37': ('proved', 'C37_stored: storage form, all frames. C37_files: through OBJ files, when no number is NaN and no frame is longer than the mesh; C37_nan_refuted and C37_extra_refuted show both conditions are needed.'),
 'C49': ('proved', 'For every printing and parsing of numbers satisfying number_texts (an f32 other than NaN is read as an f64 that rounds to it; 0.5 and -1 exactly). The OBJ line syntax is the wavefront-obj-io crate and zlib is an oracle.'),
 'C32': ('proved', 'Sanitising, lower-casing, which names denote the same file, and the image codecs are oracles; the JSON index is C45. Findings: a name like a_dedup1 next to two sounds a stops the extraction; duplicates use the unsanitised name, so a file can be written outside the directory; an encoded .bmp file comes back as pixels.'),
 'C33': ('proved', 'Finding: fonts whose names differ only in case or in sanitised characters overwrite each other silently.'),
 'C50': ('proved', 'All 22 item types; finite plain floats are needed, which two refutations show.'),
 'C51': ('proved', 'For the keys of the item itself (not those of nested points or fonts); items of unknown type excepted. Only successful reads are compared.'),
 'C45': ('proved', 'All structures; conditions on floats are shown to be needed (C45_alpha_refuted), as is the one on .bmp files (C45_bmp_file_refuted).'),
 'C52': ('proved', 'Generated from the Rust structure and both conversions; compare tools/gen_json.py.'),
 'C54': ('proved', ''),
 'C55': ('proved', 'serde_json printing and parsing are arguments, constrained only on the document at hand. Three findings are proved as refutations (C55_cut_error_refuted, C55_foreign_normals_refuted, C55_edited_normals_refuted).'),
 'C53': ('proved', 'Whole-directory round trip for OBJ, GLB and glTF meshes, composed from the models behind C31-C33, C36, C37, C45, C49, C50, C52 and C55; the libraries are arguments constrained by toolbox_ok, and ExampleToolbox.v gives libraries that meet it.'),
 'C56': ('proved', 'Printing and reading numbers are arguments (number_texts), the lines of an OBJ file are not split further. Three findings are proved as refutations (C56_identical_refuted, C56_small_refuted, C56_range_refuted).'),
 'C57': ('proved', 'Sine and cosine are arguments; C57_inward_normals states the finding about normals and assumes that the cosine of pi/n is positive.'),
 'C58': ('proved', 'C58_overflow_refuted is the finding.'),
 'C60': ('proved', 'The depth of the recursion is an argument of the model. C60_nan_refuted, C60_ramp_nan_refuted and C60_accuracy_refuted are the findings.'),
 'C61': ('proved', 'Stated against the JSON form of the items, which C50 relates to the items.'),
 'C62': ('proved', 'Relative to the compound file model of C23 and to arbitrary codecs; losslessness of the WebP encoder is a hypothesis of C62_same_picture only. C62_report_refuted: a bmp image without a bitmap is reported as converted.'),
 'C63': ('proved', 'Drag points within 2^20 units where floating point matters (C63_total, the texture theorems); textures of the top need coordinates that are all equal or at least 2^-100 apart somewhere (C63_top_texture_refuted shows why). C63_inside_out_refuted, C63_hidden_refuted, C63_manual_refuted and C63_round_refuted are findings. Normals are modelled but no theorem is about them.'),
 'C59': ('proved', 'C59_once: no edge is used twice in the same direction, and the outline is not used backwards, in any result. C59_complete_refuted is the finding: a simple hexagon for which no triangle is found.'),
 'C64': ('proved', 'Texture coordinates for meshes of up to 2^24 vertices; drag points within 2^20 units for C64_total. Sine and cosine are arbitrary. C64_total_refuted, C64_surface_refuted and C64_thickness_refuted are findings. The distance of the vertices from the curve and the normals are modelled but no theorem is about them.'),
 'C65': ('proved', 'Drag points within 2^20 units for C65_total, C65_floor, C65_heights, C65_texture; widths and heights up to 2^20, with an error of 2^(p-20) at the last vertex for sizes up to 2^p; texture coordinates of wires for meshes of up to 2^24 vertices. Sine and cosine are arbitrary. C65_outside (for the right wall), C65_wire_width_refuted, C65_world_refuted and C65_above_refuted are findings. The direction across the ramp between its ends (where two sides of the floor meet), the distance of a wire from its line and the normals are modelled but no theorem is about them.'),
 'C66': ('proved', 'For tables of fewer than 2^32 exported vertices. The meshes of bumpers, flippers, gates, kickers, spinners, targets, triggers and plungers are arguments, as are zlib, weezl, the BMP writer, sanitize_filename, to_lowercase, sine and cosine. A file is the list of lines the OBJ crate is told to write. C66_total asks that lower case keeps the number in the names of copies, that rubbers do not have all their points at one place, and that reading the stored mesh of a primitive does not panic. C66_spaces_refuted, C66_ring_refuted and C66_wall_refuted are findings.'),
 'C67': ('proved', 'Sine and cosine are arguments. The bounds hold for texture boxes at least 2^-19 wide. C67_image_refuted and C67_bytes_refuted are findings.'),
 'C68': ('proved', 'Sine, cosine and the parsing of numbers are arguments. The order of tip points that are not numbers is left open by the library; the model keeps such a point before those that follow it. C68_index_refuted and C68_facing_refuted are findings.'),
 'C69': ('proved', 'The built-in shapes, sine and cosine are arguments; the shapes in the code meet the hypotheses (counted by a script: every index list is a multiple of three and in range, every number is at most 46.5). That the normals of gates and triggers have length one after scaling is modelled, but not claimed; C69_wires asks that they come out as numbers up to two.'),
}

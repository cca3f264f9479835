{"id": "C01", "title": "BIFF record stream framing round-trips", "statement": "Any sequence of (tag, payload) records produced through the BIFF writer is a byte string that the BIFF reader splits back into exactly the same sequence of tags and payload lengths/contents, ending at ENDB, whatever the payload bytes are (including payload bytes that look like record headers).", "quantifier": "all finite sequences of records with 1..4 character tags and payloads of any length below 2^32-4", "why_tests_cant": "payload contents and record counts are unbounded; a test only samples a few record sequences", "anchors": ["src/vpx/biff.rs: BiffWriter::new_tag, end_tag, close, BiffReader::next, child_reader"]}
{"id": "C02", "title": "Reading any byte string as a record stream terminates", "statement": "For every byte string the item read loops end: each iteration either fails (panics) or consumes at least the 8 header bytes, so the number of iterations is at most one more than an eighth of the input length.", "quantifier": "all byte strings and all item types", "why_tests_cant": "termination on adversarial input cannot be observed by finitely many runs", "anchors": ["src/vpx/biff.rs: BiffReader::next, is_eof", "src/vpx/gameitem/*.rs: biff_read"]}
{"id": "C03", "title": "Unknown records are skipped without affecting known fields", "statement": "Inserting a well-formed record whose tag the item type does not know, at any record boundary of a written item, does not change the value that is read back.", "quantifier": "all item values, all unknown tags, all payloads, all insertion positions", "why_tests_cant": "the position, tag and payload spaces are unbounded", "anchors": ["src/vpx/biff.rs: skip_tag", "src/vpx/gameitem/*.rs: biff_read default arm"]}
{"id": "C04", "title": "Latin-1 strings survive a write/read exactly when they are NUL-free and Latin-1", "statement": "write_tagged_string followed by get_string returns the same string for every string whose characters are in U+0001..U+00FF; every string that get_string returns has only such characters; a string containing U+0000 does not survive.", "quantifier": "all strings; all byte strings on the read side", "why_tests_cant": "the boundary between surviving and non-surviving strings is a for-all statement over an infinite set", "anchors": ["src/vpx/biff.rs: write_string, get_string, get_str, get_str_no_remaining_update"]}
{"id": "C05", "title": "UTF-16LE names round-trip for every Unicode string", "statement": "encode_utf16le then decode_utf16le returns the original string for every sequence of Unicode scalar values (including supplementary planes); conversely whenever decode_utf16le accepts a byte string, re-encoding gives exactly these bytes; odd lengths and unpaired surrogates are rejected rather than altered.", "quantifier": "all strings of Unicode scalar values and all byte strings", "why_tests_cant": "1.1M scalar values and unbounded lengths, surrogate pairs in every position", "anchors": ["src/vpx/utf16.rs: encode_utf16le, decode_utf16le"]}
{"id": "C06", "title": "Script bytes are preserved exactly through StringWithEncoding", "statement": "Converting any byte string to a StringWithEncoding and back yields the identical bytes, whether or not they are valid UTF-8; the Utf8 variant is chosen exactly for valid UTF-8.", "quantifier": "all byte strings", "why_tests_cant": "must hold for every byte string, valid or not", "anchors": ["src/vpx/model.rs: StringWithEncoding From<&[u8]>, From<StringWithEncoding> for Vec<u8>"]}
{"id": "C07", "title": "Every game item type round-trips through its binary form", "statement": "For each of the 21 known game item types, reading the bytes written for an item returns an item equal in every field, provided its strings are representable (see C04) and counts fit in 32 bits; the fields that are stored quantised are the documented exception.", "quantifier": "all field values of all item types, including every combination of absent optional fields and any number of drag points", "why_tests_cant": "2^n combinations of optional fields and unbounded point lists; a swapped or forgotten tag can hide behind default values", "anchors": ["src/vpx/gameitem/*.rs: BiffRead::biff_read, BiffWrite::biff_write", "src/vpx/gameitem.rs: read, write"]}
{"id": "C08", "title": "Re-saving an item read from any file is lossless", "statement": "If any byte string is accepted as a game item of a known type, the item can be written, and reading that again gives an item that further load/save cycles no longer change; it is the item first read, except for primitives whose animation frames lack their length or data. Items of unknown types cannot be written.", "quantifier": "all byte strings accepted by the reader, all item types", "why_tests_cant": "ranges over every possible (also hand-made or third-party) input file", "anchors": ["src/vpx/gameitem/*.rs: biff_read, biff_write"]}
{"id": "C09", "title": "Game item type dispatch is faithful", "statement": "The type number written in front of an item selects the same item kind when read back; unknown type numbers are read as generic items without touching other items, and cannot be written back.", "quantifier": "all item kinds and all 32-bit type numbers", "why_tests_cant": "all 2^32 type numbers", "anchors": ["src/vpx/gameitem.rs: read, write, type_id, type_name"]}
{"id": "C10", "title": "Image records round-trip", "statement": "Reading the record written for an image returns an equal image (name, path, dimensions, link, JPEG payload, bitmap payload, MD5, opacity flags) for every image whose strings are representable, whose compressed bitmap does not contain the marker of the next record and which has one kind of picture data. An image loaded from a file can be saved without loss when it has one kind of picture data.", "quantifier": "all image values, payload sizes and optional-field combinations", "why_tests_cant": "payload bytes are arbitrary; the bitmap payload has no length prefix", "anchors": ["src/vpx/image.rs: read, write, read_jpeg, write_jpg, ImageDataBits", "src/vpx/biff.rs: data_until"]}
{"id": "C11", "title": "Sound streams round-trip for every file version", "statement": "Reading the bytes written for a sound at file version v returns the sound; a file older than version 1031 keeps everything but volume, balance and fade, and only WAV sounds (by the extension of the path) keep a wave format. Whatever was read is written so that it reads back equal.", "quantifier": "all sounds and all 32-bit file versions", "why_tests_cant": "version x payload x header space is unbounded", "anchors": ["src/vpx/sound.rs: read, write, write_wave_form, read_wave_form"]}
{"id": "C12", "title": "WAV files exported for sounds re-import to the same sound", "statement": "For a wav sound, importing the file written for it restores the audio data and the wave format fields (bytes per second computed anew); for uncompressed sounds the header sizes equal the actual sizes.", "quantifier": "all wave formats and data lengths", "why_tests_cant": "sizes and formats are unbounded; arithmetic on header sizes may wrap", "anchors": ["src/vpx/sound.rs: write_sound, read_sound, write_wav_header2", "src/vpx/wav.rs: write_wav_header, read_wav_header"]}
{"id": "C13", "title": "Collections round-trip", "statement": "Reading the bytes written for a collection returns the same name, the same items in the same order and the same flags.", "quantifier": "all collections with any number of items and any Unicode names", "why_tests_cant": "unbounded item lists", "anchors": ["src/vpx/collection.rs: read, write"]}
{"id": "C14", "title": "Fonts embedded in a table round-trip", "statement": "Reading the bytes written for an embedded font returns the same name, path and font bytes.", "quantifier": "all fonts", "why_tests_cant": "unbounded payloads", "anchors": ["src/vpx/font.rs: read, write"]}
{"id": "C15", "title": "Custom info tags round-trip and keep their order", "statement": "Reading the bytes written for the list of custom info tags returns the same list in the same order.", "quantifier": "all lists of representable strings", "why_tests_cant": "unbounded lists", "anchors": ["src/vpx/custominfotags.rs: read_custominfotags, write_custominfotags"]}
{"id": "C16", "title": "Table metadata round-trips through the compound file", "statement": "Writing the table info creates one stream per present field and per custom property, with the documented names and UTF-16 contents; reading it back gives the same optional fields, the same screenshot and the same custom properties in whatever order the storage lists its entries, provided property names are usable stream names that differ (ignoring case) from each other and from the reserved names. Without that proviso a property named like a field overwrites it, and a name of more than 31 characters makes the write fail.", "quantifier": "all metadata values and property maps", "why_tests_cant": "unbounded maps; reserved-name collisions", "anchors": ["src/vpx/tableinfo.rs: write_tableinfo, read_tableinfo"]}
{"id": "C17", "title": "Game data round-trips", "statement": "Reading the record stream written for game data at file version v returns equal game data (about 170 fields), provided counters match the lists they count, strings are representable and the documented version-dependent field placement applies.", "quantifier": "all game data values and all file versions", "why_tests_cant": "about 2^90 combinations of optional fields", "anchors": ["src/vpx/gamedata.rs: write_all_gamedata_records, read_all_gamedata_records"]}
{"id": "C18", "title": "FSS flag position in version 1080 files", "statement": "The position of the EFSS record (early 10.8 betas wrote it later) is preserved by a load/save cycle; the reader classifies a file as beta only when the writer placed the record in the beta position.", "quantifier": "all game data values at all versions", "why_tests_cant": "depends on the combination of another optional field, version and flag", "anchors": ["src/vpx/gamedata.rs: write_all_gamedata_records, read_all_gamedata_records"]}
{"id": "C19", "title": "Materials round-trip in all three encodings", "statement": "The 10.8 material records, the legacy fixed-size material blocks and the legacy physics material blocks each read back to the value written; block arrays read back element by element.", "quantifier": "all materials, all list lengths", "why_tests_cant": "unbounded lists and all float bit patterns", "anchors": ["src/vpx/material.rs: Material, SaveMaterial, SavePhysicsMaterial read/write"]}
{"id": "C20", "title": "Legacy materials derived from new materials stay inside their quantised ranges", "statement": "Converting any material to its legacy form and back to the stored ranges never goes outside 0..255 / 0..127 codes and preserves all unquantised fields bit for bit.", "quantifier": "all materials with finite parameters in range", "why_tests_cant": "all 2^32 float values per parameter", "anchors": ["src/vpx/material.rs: SaveMaterial From<&Material>", "src/vpx/math/quantize.rs"]}
{"id": "C21", "title": "Quantisation is stable", "statement": "For every 8-bit (and percent) code, quantising the dequantised value gives the code back, so quantised fields no longer change after the first save; the result of quantising any value in [0,1] is a valid code and quantisation is monotone. The least code stands for 0.0, the greatest for 1.0, and a greater code for a greater value.", "quantifier": "all codes and all f32 values in [0,1]", "why_tests_cant": "floating point rounding for 2^30 inputs", "anchors": ["src/vpx/math/quantize.rs"]}
{"id": "C22", "title": "Render probes keep their trailing garbage", "statement": "A render probe record read from a file and written back reproduces the probe and any trailing bytes after its end tag exactly.", "quantifier": "all probes and all trailing byte strings", "why_tests_cant": "garbage is arbitrary bytes", "anchors": ["src/vpx/renderprobe.rs: RenderProbeWithGarbage"]}
{"id": "C23", "title": "Whole table files round-trip", "statement": "Writing a table to an empty compound file creates exactly the documented entries in the documented order; reading it returns the table: version, info, custom info tags, game data, items, images, sounds, fonts and collections, in order, up to the losses C07, C11 and C17 name, and equal when the table has none of those values, provided the counters in game data equal the list lengths. Wrong counters lose contents.", "quantifier": "all tables with any number of items of any kind", "why_tests_cant": "composition of every codec over unbounded lists", "anchors": ["src/vpx/mod.rs: read_vpx, write_vpx"]}
{"id": "C24", "title": "Bitmap block framing is lossless", "statement": "Splitting compressed data in length-prefixed blocks and joining it again gives the same bytes for every data and block length; every block is non-empty and at most the maximum length and only the last may be shorter. Joining accepts exactly the concatenations of length-prefixed blocks and aborts on anything else.", "quantifier": "all byte strings and all block lengths 1..255", "why_tests_cant": "unbounded data", "anchors": ["src/vpx/lzw.rs: to_blocks, from_blocks"]}
{"id": "C25", "title": "Red/blue swap and opacity handling of bitmaps", "statement": "Swapping red and blue twice is the identity on every whole-pixel buffer, keeps green and alpha; the import/export path therefore restores the stored pixels.", "quantifier": "all pixel buffers", "why_tests_cant": "unbounded buffers", "anchors": ["src/vpx/image.rs: swap_red_and_blue, has_transparent_pixels, vpx_image_to_dynamic_image"]}
{"id": "C26", "title": "Color encodings are mutually inverse", "statement": "The JSON text form, the packed integer forms and the binary form of a colour each decode to the colour they encode, including the unused byte where the form has it.", "quantifier": "all 2^32 colours", "why_tests_cant": "2^32 values and all text inputs", "anchors": ["src/vpx/color.rs"]}
{"id": "C27", "title": "Table lock is a parity counter", "statement": "After lock the table reports locked, after unlock it reports unlocked; lock/unlock never change anything else; repeated lock is idempotent; histories of lock and unlock calls report the last call's effect.", "quantifier": "all initial counters and all finite histories of lock/unlock", "why_tests_cant": "histories are unbounded, the counter wraps", "anchors": ["src/vpx/mod.rs: is_locked, lock, unlock"]}
{"id": "C28", "title": "Message authentication code covers exactly the documented data", "statement": "The MAC is the hash of exactly the documented streams; it does not depend on the save date or revision or on the contents of items, images, sounds and fonts; files whose covered streams are equal get equal MACs; the stored MAC verifies after write; changing one covered stream changes the hashed bytes. Moving text from one covered stream to the next is not detected, because lengths are not hashed.", "quantifier": "all tables and all hash functions", "why_tests_cant": "non-interference over unbounded data", "anchors": ["src/vpx/mod.rs: generate_mac, write_mac, verify"]}
{"id": "C29", "title": "Compacting a file is crash safe", "statement": "At every crash point of compact, at least one of the original and the temporary file holds the complete table (the same storages and streams, so every reader of the crate returns the same from it) and no third file is touched; when it completes, the file holds the same table and no temporary file remains; when it fails, the file is as before.", "quantifier": "all file contents, all paths, all crash points", "why_tests_cant": "crash points cannot be enumerated by unit tests", "anchors": ["src/vpx/mod.rs: compact, compact_cfb"]}
{"id": "C30", "title": "In-memory file system behaves like a map", "statement": "Every history of write, create/append/flush/drop, delete, rename, read and exists calls observes the same results as a plain map from path to bytes; reading a path returns the last content stored under it.", "quantifier": "all finite operation histories, any interleaving of open writers", "why_tests_cant": "unbounded histories and interleavings", "anchors": ["src/filesystem.rs: MemoryFileSystem, MemoryFileWriter"]}
{"id": "C31", "title": "Extracted item file names never collide", "statement": "For every list of items (equal, empty or case-differing names) naming the extracted files ends and the names are pairwise distinct ignoring case; extracting into an empty directory and reading back gives every item its own JSON, mesh and animation frames (for glTF, the .bin file beside each file too), in whatever order the parallel writers write the files (unless a primitive is called like an animation frame of another one, or 'json').", "quantifier": "all lists of items, all interleavings of the writers", "why_tests_cant": "unbounded lists; adversarial names that look like generated suffixes", "anchors": ["src/vpx/expanded/gameitems.rs: FileNameGen, gameitem_filename_stem", "src/vpx/expanded/primitives.rs: animation_frame_file_name, read_gameitem_binaries"]}
{"id": "C32", "title": "Extracted sound and image files never overwrite each other", "statement": "For every list of sounds or images, if extracting succeeds then every entry that is not a link has a file of its own and re-reading the directory returns the same list (bitmaps: the same pixels); extracting succeeds for every list of names that are valid file names and do not look like <name>_dedup<n>, with any number of duplicates up to case.", "quantifier": "all lists of entries, all directory contents, case-sensitive or -insensitive file systems", "why_tests_cant": "adversarial names that look like generated de-duplication suffixes", "anchors": ["src/vpx/expanded/sounds.rs: write_sounds, read_sounds", "src/vpx/expanded/images.rs: write_images, read_images"]}
{"id": "C33", "title": "Extracted fonts keep their own data", "statement": "Extracting any list of fonts whose sanitised names and extensions give different files, and reading the directory back, returns each font with its own bytes.", "quantifier": "all lists of fonts and directory contents", "why_tests_cant": "name collisions after sanitising", "anchors": ["src/vpx/expanded/fonts.rs: write_fonts, read_fonts"]}
{"id": "C34", "title": "OBJ faces are triangulated and de-duplicated without changing the surface", "statement": "For every list of polygon faces accepted by the importer the output triangles are the fan triangulation of the faces (in the requested winding), each output corner refers to the same position/texture/normal triple as the input corner, the combined vertices are pairwise distinct and all used, and any out-of-range or missing index is rejected.", "quantifier": "all face lists", "why_tests_cant": "unbounded polygon sizes and face counts", "anchors": ["src/vpx/obj.rs: triangulate_and_dedup, resolve_index, VpxObjReader::read"]}
{"id": "C35", "title": "Unrepresentable vertices are preserved through OBJ comments", "statement": "The hexadecimal comment written for a vertex parses back to exactly the same 32 (or 12) bytes.", "quantifier": "all 32-byte and 12-byte strings", "why_tests_cant": "256^32 values", "anchors": ["src/vpx/obj.rs: obj_vpx_comment, obj_parse_vpx_comment, write_vertex"]}
{"id": "C36", "title": "Mesh index encoding is lossless at every mesh size", "statement": "Encoding face indices with 2 or 4 bytes depending on the vertex count and decoding them gives the same faces whenever the indices are smaller than the vertex count.", "quantifier": "all meshes, all vertex counts", "why_tests_cant": "the width switch at 65535 and unbounded face lists", "anchors": ["src/vpx/expanded/primitives.rs: vpx_encode_vertices", "src/vpx/obj.rs: write_vertex_index_for_vpx", "src/vpx/gameitem/primitive.rs: read_mesh, raw_indices_to_indices"]}
{"id": "C37", "title": "Animation frames round-trip", "statement": "Animation frame vertex data encoded for storage decodes to the same vertices; the number of frames is preserved.", "quantifier": "all frame lists", "why_tests_cant": "unbounded frames", "anchors": ["src/vpx/gameitem/primitive.rs: write_animation_vertex_data, read_vpx_animation_frame"]}
{"id": "C38", "title": "Part group order validation is exact", "statement": "A warning is produced for an item exactly when it refers to a part group that is not defined at or before it.", "quantifier": "all item lists", "why_tests_cant": "unbounded lists", "anchors": ["src/vpx/gameitem.rs: validate_part_group_order"]}
{"id": "C39", "title": "Compatibility rules only affect old files", "statement": "For files of version 1080 and later the effective values of primitives, lights and the glass equal the stored ones; for older files they are the fields of the object after the player's load-time patches, and depend on nothing else.", "quantifier": "all versions and field values", "why_tests_cant": "2^32 versions", "anchors": ["src/vpx/compat.rs"]}
{"id": "C40", "title": "Item list accessors and editor attributes", "statement": "Setting the lock, layer, layer name and layer visibility on an item and reading it back returns the set value, and no other attribute changes; the stored item index therefore restores them after extraction.", "quantifier": "all items of all kinds", "why_tests_cant": "21 kinds and items of unknown types x all values", "anchors": ["src/vpx/gameitem.rs: set_locked, set_editor_layer, set_editor_layer_name, set_editor_layer_visibility and getters", "src/vpx/expanded/gameitems.rs: write_gameitems, read_game_item"]}
{"id": "C41", "title": "Enumerations stored as integers", "statement": "Each enumeration value written as an integer reads back to the same value; unknown integers are rejected, preserved or mapped to a documented fallback, per enumeration.", "quantifier": "all enumerations and all 32-bit integers", "why_tests_cant": "2^32 integers", "anchors": ["src/vpx/gameitem/*.rs, material.rs, sound.rs, renderprobe.rs, gamedata.rs: From<u32>, From<&Enum> for u32"]}
{"id": "C42", "title": "JSON float encoding keeps special values", "statement": "Every float in a field that uses the special-value encoding (finite, infinite, NaN with payload) is restored from JSON with the same bits; plain float fields restore every finite value.", "quantifier": "all 2^32 bit patterns", "why_tests_cant": "2^32 patterns", "anchors": ["src/vpx/json.rs: F32WithNanInf"]}
{"id": "C43", "title": "Adding or replacing table contents", "statement": "add_game_item keeps the item counter equal to the number of items; add_or_replace_image leaves exactly one image of that name, keeps the others in order and keeps the counter in step; histories of such calls preserve the invariant needed by C23.", "quantifier": "all histories of edit calls on all tables", "why_tests_cant": "unbounded histories", "anchors": ["src/vpx/mod.rs: add_game_item, add_or_replace_image, set_script"]}
{"id": "C44", "title": "File version stream round-trips", "statement": "The version written to the version stream is the version read back, for every 32-bit version; the textual form parses back.", "quantifier": "all 32-bit versions", "why_tests_cant": "2^32 values", "anchors": ["src/vpx/version.rs"]}
{"id": "C45", "title": "JSON side structures keep every field they own", "statement": "Converting a material, render probe, collection, table information (without its screenshot) or an entry of the sound, font or image index to its JSON structure and back restores every field except the payload kept in a side file, provided the floats that have no special JSON form are finite; an image keeps its encoded file exactly when it is neither a link nor a .bmp.", "quantifier": "all materials of the three kinds, render probes with trailing data, collections, table infos with distinct property names, sounds, fonts and images; all JSON libraries that restore finite numbers", "why_tests_cant": "unbounded", "anchors": ["src/vpx/image.rs: ImageDataJson", "src/vpx/sound.rs: SoundDataJson", "src/vpx/font.rs: FontDataJson", "src/vpx/material.rs: *Json", "src/vpx/renderprobe.rs: RenderProbeJson", "src/vpx/jsonmodel.rs"]}
{"id": "C46", "title": "Changing the extension of an image", "statement": "Changing the extension of an image replaces exactly the final dot-and-letters part of its path (and of the path of its file data) and leaves every other path and every other field unchanged.", "quantifier": "all images, paths and extensions", "why_tests_cant": "paths are unbounded strings", "anchors": ["src/vpx/image.rs: ImageData::change_extension, ImageData::ext"]}
{"id": "C47", "title": "WAV headers are found behind any chunks and are written back unchanged", "statement": "Reading a WAV header skips and keeps every chunk before and after the format chunk byte for byte, writing the header that was read reproduces the bytes consumed (up to the value of one padding byte), and every input ends with a header or an error, never a panic or an endless loop.", "quantifier": "all byte strings; all lists of chunks", "why_tests_cant": "chunk sequences, sizes and paddings are unbounded", "anchors": ["src/vpx/wav.rs: read_wav_header, read_fmt_chunk, write_wav_header"]}
{"id": "C48", "title": "Script import and extraction", "statement": "After importing a script into a table file, extracting the script returns the imported text, the rest of the game data and every other stream are as before, and the MAC verifies, for every Unicode script without NUL characters. A NUL character cuts the script.", "quantifier": "all editable table files and all scripts", "why_tests_cant": "all files and scripts; every other stream must be untouched", "anchors": ["src/vpx/mod.rs: importvbs, extractvbs, write_game_data", "src/vpx/gamedata.rs: set_code"]}
{"id": "C49", "title": "Meshes survive extraction to OBJ files", "statement": "Writing the mesh of a primitive as an OBJ file and reading that file back stores the same 32 bytes for every vertex (including NaN payloads, negative zeros and texture coordinates that the flipped V coordinate cannot represent) and the same index triple for every face.", "quantifier": "all meshes, all vertex bit patterns, all mesh sizes, all printing precisions chosen by the writer", "why_tests_cant": "2^256 vertex patterns; the V flip rounds differently in different ranges", "anchors": ["src/vpx/obj.rs: write_obj_to_writer, flipped_v, shortest_recovering_text, VpxObjReader, read_obj_from_reader, write_vertex", "src/vpx/expanded/primitives.rs: read_obj_and_compress", "src/vpx/gameitem/primitive.rs: read_mesh"]}
{"id": "C50", "title": "Game items survive their JSON form", "statement": "A game item of any type (wall, flipper, ..., primitive, part group or an unknown type) that is written as a JSON file plus an entry in gameitems.json is read back as the same item, with every field restored, including the lock and editor layer data kept in the index; only the mesh of a primitive comes from other files. The plain floats of the item must be finite: a required float that is not a number makes the written file unreadable, and an optional one is silently lost.", "quantifier": "all game items of all 22 types, all field values, all file names, all JSON number libraries that restore finite numbers, all iteration orders of hash sets", "why_tests_cant": "The items have several hundred fields with optional values, renamed keys, skipped keys and flattened structures; tests write a few sample values per item.", "anchors": ["src/vpx/gameitem/*.rs: XxxJson, Serialize, Deserialize", "src/vpx/gameitem.rs: GameItemEnum", "src/vpx/expanded/gameitems.rs: GameItemInfoJson, read_game_item", "src/vpx/gameitem/font.rs: FontJson", "src/vpx/gameitem/dragpoint.rs: DragPointJson"]}
{"id": "C51", "title": "Edited item files are still understood", "statement": "Reordering the keys of an item's JSON file or adding keys that no item uses does not change the item that is read, and the keys used by older versions (return_ for a flipper, off_image for a light) mean the same as the current ones.", "quantifier": "all item files that can be read, all permutations of their keys, all additional keys and values", "why_tests_cant": "There are factorially many orders and unboundedly many additional keys.", "anchors": ["src/vpx/gameitem/*.rs: XxxJson", "src/vpx/gameitem/flipper.rs: return_", "src/vpx/gameitem/light.rs: off_image"]}
{"id": "C52", "title": "The game data survive their JSON file", "statement": "Game data written to gamedata.json and read again are equal in every field except those kept in other files: the script, the materials in all forms, the render probes and the counts of items, sounds, images, fonts and collections. Hence tables that differ in any other field have different files.", "quantifier": "all game data whose floats are finite (two of them may be anything) and whose sixteen custom colours are sixteen", "why_tests_cant": "about 150 fields, each of which may be missing, with unbounded texts", "anchors": ["src/vpx/gamedata.rs: GameDataJson::from_game_data, GameDataJson::to_game_data", "src/vpx/jsonmodel.rs: game_data_to_json"]}
{"id": "C53", "title": "Extracting a table to a directory and assembling it gives the table back", "statement": "A table written with the expanded writer into an empty directory, with meshes as OBJ, GLB or glTF files, and read back has the same info (with its screenshot and custom properties), custom info tags, version, game items, images, sounds, fonts, collections, script, materials and render probes, whatever order the parallel writers write the item files in. Meshes and animation frames are compressed anew but decode to the same vertices, faces and frames. If the counts and the derived legacy materials of the table are consistent the game data are equal; they are recomputed in any case, so whatever directory is read the counts match the lists. The version, the game data and the script must be present; a missing index gives an empty list. Writing a table with items a second time to the same directory is an error, never a silent overwrite. Files left by an earlier, different table are not removed: a stale screenshot or materials file is taken over.", "quantifier": "all three mesh formats; all tables with finite floats (see C50, C52), item names that do not look like animation frames (C31), images and sounds that can be stored as files (C32), distinct font files (C33), and scripts that come from bytes; GLB files under 4 GiB; all JSON, zlib, OBJ and image libraries that restore what they wrote; for what is recomputed and required, all directories", "why_tests_cant": "the number of items, assets and fields is unbounded, file names depend on all earlier names, and the writers' schedule is not under a test's control", "anchors": ["src/vpx/expanded/mod.rs: write_fs, read_fs", "src/vpx/expanded/gameitems.rs: write_gameitems, read_gameitems", "src/vpx/expanded/metadata.rs", "src/vpx/expanded/materials.rs", "src/vpx/expanded/primitives.rs: write_gameitem_binaries, read_gameitem_binaries"]}
{"id": "C54", "title": "Numbers and flags in records", "statement": "Any sequence of 32-bit numbers (unsigned, signed or float, including NaN patterns) or flags written under one tag is read back bit for bit; a number read as a flag is true exactly if it is not zero, in any of its four bytes.", "quantifier": "all finite sequences of 32-bit values, all valid tags, debug and release builds", "why_tests_cant": "2^32 values per field and sequences of any length", "anchors": ["src/vpx/biff.rs: BiffReader::get_bool, get_u32, get_i32, get_f32, BiffWriter::write_tagged_bool, write_tagged_u32, write_tagged_i32, write_tagged_f32"]}
{"id": "C55", "title": "Meshes in GLB and glTF files", "statement": "A primitive's mesh written as a GLB file, or as a .gltf file with its .bin file, is read back with the same name, the same faces and the same 32 bytes for every vertex, so importing it stores the same mesh; an animation frame written as GLB or glTF is read back unless a normal is NaN. The file is well formed for other programs: the lengths in the header and the chunks are right and multiples of four, a reader following the glTF specification finds each position, normal, texture coordinate and index, and the bounding box is exact. A GLB file cut off at any byte is never read as a mesh. (Findings: a cut inside a chunk panics; normals of files from other programs, and edited normals, are not stored.)", "quantifier": "all meshes of any size whose file is under 4 GiB, all names, all f32 bit patterns, every length a file can be cut to, all zlib implementations that invert, all JSON printers whose output is parsed back (with trailing spaces)", "why_tests_cant": "vertex data, mesh sizes (16 and 32-bit indices, padding residues) and cut positions are unbounded", "anchors": ["src/vpx/gltf.rs: write_glb, write_gltf, build_gltf_payload, write_glb_payload, read_glb, read_gltf, read_glb_payload_from_reader, parse_gltf_payload, read_glb_indices", "src/vpx/expanded/primitives.rs: read_gltf_and_compress, read_gltf_as_frame, replace_vertices"]}
{"id": "C56", "title": "Meshes through the browser interface", "statement": "mesh_to_obj accepts exactly the arrays that describe a mesh (aligned lengths, indices of existing vertices) and returns an error for any others. Reading its result with obj_to_mesh and the same flag returns the same name (\"object\" for an empty one), positions, texture coordinates, normals and indices bit for bit, for meshes without NaN and, when coordinates are converted, texture coordinates that survive being mirrored; assembling the result stores the same mesh; and obj_to_mesh of an extracted OBJ file returns the mesh of the primitive. Any file obj_to_mesh accepts gives arrays of aligned lengths. (Findings: the documented 'reads back identically' is false for texture coordinates such as -0 and 2^-66; obj_to_mesh may return indices no vertex has, which mesh_to_obj refuses.)", "quantifier": "all names, all arrays of f32 and u32 of any length, both values of the flag, all OBJ files for the alignment, all number printers and parsers that keep an f32", "why_tests_cant": "arrays, bit patterns and files are unbounded", "anchors": ["src/wasm.rs: mesh_to_obj, obj_to_mesh, PrimitiveMesh", "src/vpx/obj.rs: read_obj_from_reader_with_options, flipped_v, shortest_recovering_text"]}
{"id": "C57", "title": "Built-in meshes are closed surfaces", "statement": "A primitive that is drawn with the built-in mesh of n sides gets none for n < 3, and otherwise 4n+2 vertices and 4n triangles, 8n when the inside is drawn as well. Every triangle has three different vertices that exist and every vertex is used. The surface is closed: between the corners of the prism, every edge is used once in each direction; vertices at one corner have one position, the upper ones at height 0.5 and the lower ones at -0.5. Drawing the inside adds each triangle once more, turned over, and changes no vertex. In a browser generate_builtin_primitive returns an error below three sides and otherwise arrays that mesh_to_obj accepts. The picture of a mesh with moderate corners and ends of some extent shows the upper end in the left upper quarter, the lower end beside it and the sides in the lower half, and on both ends it runs along with the coordinates. (Finding: the normals of the sides, documented to point outward, point towards the axis, because the radius is negative.)", "quantifier": "all numbers of sides (for the browser those whose vertices fit in a u32), both values of the flag, all sine and cosine functions", "why_tests_cant": "the number of sides is a u32 and the result of sine and cosine depends on the platform", "anchors": ["src/vpx/mesh/builtin_primitive.rs: build_builtin_primitive_mesh", "src/wasm.rs: generate_builtin_primitive"]}
{"id": "C58", "title": "The middle of a mesh", "statement": "The middle that is returned for a list of positions is, on each axis, half the sum of the smallest and the largest coordinate, and lies between them whenever both are within 2^127; without vertices it is the origin. (Finding: for finite coordinates of 2^127 and more the middle may be infinite.)", "quantifier": "all lists of positions without NaN, of any length, and all three axes", "why_tests_cant": "lists are unbounded and rounding depends on every bit of a coordinate", "anchors": ["src/wasm.rs: PrimitiveMesh::midpoint"]}
{"id": "C59", "title": "Triangles of polygons", "statement": "The top of a wall, a light insert or a flasher is cut into triangles without a panic, for any outline. There are at most n-2 triangles, each of three different vertices of the outline. The edges of the triangles, together with those of the polygon that is left uncut, are the outline once and inner edges once in each direction; if there are n-2 triangles they fill the outline: their signed areas add up to its area, and around every point they wind as often as it does. (Finding: not every simple polygon is cut up. For some no triangle is found, and the part is drawn without a top.)", "quantifier": "all lists of vertices of any length, with any coordinates including NaN and infinities", "why_tests_cant": "outlines are unbounded lists of floating point coordinates, and the choice of each triangle depends on rounding", "anchors": ["src/vpx/mesh/mod.rs: polygon_to_triangles, is_clockwise, advance_point, lines_intersect", "src/vpx/mesh/walls.rs: triangulate_polygon, advance_point, lines_intersect"]}
{"id": "C60", "title": "Smooth curves", "statement": "For drag points whose coordinates are within 2^20 units and any accuracy above zero, the smooth curve of a wall, rubber, light or flasher (smooth_drag_points_2d) and of a ramp is computed: the recursion ends, at most 151 calls deep. Whatever the input, a result consists of the vertices of one segment after the other: no vertex when two neighbours coincide; otherwise the drag point as it is and then points of the curve in ascending order of the parameter, such that from each vertex to the next one the middle of the curve is within the accuracy. The curve is determined by the ends of the segment and, where an end is smooth, by the drag point beyond it; it begins in the drag point exactly. The vertices marked as control points are the drag points that do not coincide with the next one, in order; a ramp ends with its last drag point. (Findings: if a coordinate of a drag point is NaN, or if the accuracy is not above zero, the recursion never ends and the stack overflows.) A vertex at a drag point is as smooth as the drag point; the vertices between are smooth and carry no mark.", "quantifier": "all lists of drag points of any length, all accuracies, open and closed curves, every depth of the stack", "why_tests_cant": "the recursion depends on the rounding of every intermediate result; lists are unbounded and coordinates are arbitrary bit patterns from a file", "anchors": ["src/vpx/mesh/mod.rs: smooth_drag_points_2d, get_rg_vertex_2d, recurse_smooth_line_2d, flat_with_accuracy_2d, CatmullCurve2D", "src/vpx/mesh/mod.rs: get_rg_vertex_3d, recurse_smooth_line_3d, flat_with_accuracy_3d, CatmullCurve3D"]}
{"id": "C61", "title": "What an item reports about itself", "statement": "For every game item, of whatever kind, what GameItemEnum reports is what its JSON form says: name() is the field name, type_name() the kind (with the number of the type for an item of unknown type), part_group_name() the field of that name, images() exactly the non-empty texts of the fields that name a texture (image, side_image, image_decal, image_a, image_b, image_src_link, normal_map, light_map), materials() those of the fields that name a material, physics_material() the non-empty text of that field, and is_visible() the field is_visible or visible, for a wall whether its top and bottom or its side is visible, and nothing for an item without such a field. So no reference to a texture or a material is missed.", "quantifier": "all game items of all kinds with all contents", "why_tests_cant": "There are 22 kinds of items with up to sixty fields each; a test looks at the fields of one item, while the claim is that no field of any item is missed or mistaken for another.", "anchors": ["src/vpx/gameitem.rs: GameItemEnum::images, materials, physics_material, is_visible, name, type_name, part_group_name", "src/vpx/gameitem/*.rs: Serialize"]}
{"id": "C62", "title": "Converting the images of a table to WebP", "statement": "VpxFile::images_to_webp turns the file of a table into exactly the file of the same table with its PNG files and bitmaps replaced by WebP files: every other part of the file, the order of the images and all other fields of the images stay the same, the message authentication code stays valid, and with a lossless encoder every image shows the same pixels. Images with other extensions, PNG files that do not decode and images without picture data are left as they are. When a picture cannot be converted the call fails with the error, the images before it are converted and the file is still a valid table. Converting again changes nothing. On any file at all only the streams of the images are touched. What does not hold: an image with the extension bmp that has no bitmap is reported as converted although nothing changes.", "quantifier": "all tables that can be stored, all image codecs, all outcomes of decoding and encoding; all files for the part about untouched streams", "why_tests_cant": "The call rewrites streams in the middle of a file; a test converts a table or two, while the claim is about every mixture of image kinds, every image at which the encoder may stop, and every other stream of the file.", "anchors": ["src/vpx/mod.rs: VpxFile::images_to_webp, images_to_webp, read_image, write_image", "src/vpx/image.rs: ImageData::change_extension, ext, vpx_image_to_dynamic_image"]}
{"id": "C63", "title": "Meshes of walls", "statement": "For every wall with drag points within a million units both mesh builders return (the mesh of the wall, and the top and the sides for a file of the whole table); there is no mesh exactly for an outline of fewer than three points or, for the mesh of the wall, when no triangle was found for its top. The mesh has four vertices for each side and one for each point of the top, of the parts that are shown, at the corners of the outline at the bottom and top height; every triangle has three different vertices of the mesh. If the top was cut up completely, the mesh of an outline whose signed area is not above zero is one surface, open only at the foot of the wall and with the same side outside everywhere. The texture coordinates of the top are between zero and one; those of the sides go from top to foot, agree at the points of the outline, are those of the drag points that have their own, and otherwise start at zero and never go back. What does not hold: with the outline in the other direction the sides and the top face opposite ways; a wall of which only the sides are visible can have no mesh; an outline narrower than 2^-128 gets coordinates that are not numbers; where two drag points coincide the coordinates of the drag points go to other points; the last side goes back to the start of the texture. The normals of the sides lie flat; at a sharp corner they are at right angles to the side, and at a smooth one in the middle between the two sides, up to rounding, if the corners are apart.", "quantifier": "all walls; all drag points within 2^20 units for the parts about the recursion and the texture, any coordinates including NaN and infinities for the rest", "why_tests_cant": "outlines are unbounded lists of floating point points; the number of vertices, the triangles of the top and the rounding of every coordinate depend on them, and a test looks at a few walls.", "anchors": ["src/vpx/mesh/walls.rs: build_wall_mesh, build_wall_meshes, build_side_mesh, build_top_mesh, build_top_mesh_item_space, compute_side_texture_coords, bounds_xy", "src/vpx/math/vec.rs: Vec2::normalize"]}
{"id": "C64", "title": "Meshes of rubbers", "statement": "A rubber has no mesh exactly when its thickness is zero or it has fewer than two drag points. Every other rubber with drag points within a million units that are not all at one place has a mesh. The mesh has a ring of at least six vertices (twelve for static rendering) for each point of the curve and two triangles for each vertex, with three different vertices of the mesh each. With three points or more on the curve the mesh is one closed tube: every edge belongs to one triangle in each of its two directions. Texture coordinates are between zero and one and the first one is the same all round a ring. Without rotation the mesh is on both sides of the origin on every axis, and the reported centre has the height of the rubber. What does not hold: a rubber whose drag points are all at one place makes the program stop; with two points on the curve edges are used twice; a rubber at height zero whose first side points to the origin has a mesh without thickness.", "quantifier": "all rubbers, detail levels, sine and cosine functions", "why_tests_cant": "The shape depends on every outline and detail level, and the special cases are rare coincidences of coordinates.", "anchors": ["src/vpx/mesh/rubbers.rs: build_rubber_mesh, generate_mesh, get_spline_vertex, apply_rotation", "src/vpx/mesh/mod.rs: vpinball_ring_segments, compute_normals", "src/vpx/math/vec.rs: Vec3, get_rotated_axis"]}
{"id": "C65", "title": "Meshes of ramps", "statement": "A ramp has no mesh exactly when both its widths are zero or its curve has fewer than two vertices (fewer than two drag points, or all of them at one place); with drag points within a million units the program never stops on it. A flat ramp has two vertices for each vertex of its curve in the floor and in each visible wall; each of these is a strip without holes. The floor has a vertex on either side of each vertex of the curve, at the same distance and height; at both ends it is at a right angle to the curve. Its width goes steadily from the bottom width to the top width, its height from the bottom height to the top height above the curve, without going down if the curve and the heights do not. A visible wall stands on its edge of the floor and has its visible height everywhere. An image along the ramp goes from one to zero across and along the ramp; an image over the table stays between zero and one on a table that begins at zero. A wire ramp has one to four tubes without holes, open at both ends, with a ring of at least six vertices (twelve unless its material is transparent) for each vertex of the curve; texture coordinates are between zero and one; a wire above another has the same rings at another height. The triangles of floor and left wall have the same side outside. What does not hold: the right wall has the other side outside; a wire ramp with zero widths has no mesh although it does not use them; an image over the table ignores where the table begins, so its coordinates leave the range elsewhere; the upper wire of a pair is below the lower one if their vertical distance is under six.", "quantifier": "all ramps with any drag points, types, sizes and images; all tables; all detail levels; all sines and cosines", "why_tests_cant": "Tests build a few ramps; that a mesh has no holes, that widths, heights and texture coordinates stay in range and that nothing stops must hold for every curve and size in 32-bit floating point.", "anchors": ["src/vpx/mesh/ramps.rs: build_ramp_mesh, build_flat_ramp_mesh, build_wire_ramp_mesh, create_wire, get_ramp_vertex", "src/vpx/math/vec.rs: Vec2", "src/vpx/mesh/mod.rs: get_rg_vertex_3d, compute_normals"]}
{"id": "C66", "title": "Exporting a table to OBJ", "statement": "Exporting a table writes an OBJ file that can be read back: it holds exactly the triangles of the table's playfield and of the visible items, in the order of the items, each under the name of its item and part, with the corners at the places of the item's own vertices (moved to the item's position and to the height of the wall or ramp it stands on, in the chosen unit to within a five-millionth, mirrored in z with the corners reversed), and with normals and texture coordinates that are numbers. The vertices of a primitive lie, up to rounding, where its mesh is scaled, moved by its translation, turned about z, y and x by its rotation and then by its object rotation, and moved to its position. Every material a triangle uses is described in the material file: with the colours and opacity of the first material of that name in the table, whatever the case of its letters, old material lists included, white if there is none; and with the image of that name if textures are exported. Every image file holds exactly the data of the image, no two image files have names that differ in case only, and only images in use are written. A material and image pair is described once; in strict mode there is one description for each part, in their order, and no image. Export never fails for tables with moderate coordinates, decodable images and meshes whose triangles are in range. What does not hold: two materials whose names differ only in spaces share one name in the files; the ring of a bumper and the plate of a spinner are written without a material, so they get that of the part before them; a wall whose top cannot be cut into triangles loses its sides too if both are visible.", "quantifier": "all tables, items, materials and images; all four export options; all meshes of the items whose builders are not modelled; all sines, cosines and file name sanitizers", "why_tests_cant": "Tests export a few tables; that every face refers to its own vertices, that names never clash and that each part has its own material must hold for every list of items, names and images.", "anchors": ["src/vpx/export/obj_export.rs: export_obj, write_block, emit_mtl_block, ensure_image_written", "src/vpx/export/obj_export.rs: write_gameitem and the writers of the items", "src/vpx/units.rs", "src/vpx/math/matrix.rs", "src/vpx/mesh/playfields.rs"]}
{"id": "C67", "title": "Meshes of flashers, light inserts and decals", "statement": "Building the mesh of a flasher or of the insert of a light returns, for every outline of drag points with moderate coordinates. There is no mesh exactly when there are fewer than three drag points, when the outline has fewer than three vertices, when no triangle can be cut from it, or when the light is on the backglass. A mesh has one vertex for each vertex of the outline and the triangles cut from it, whose corners are three different vertices of the mesh. Its position is the middle of the box around the outline, at the height of the flasher (0 for a light), and the vertices lie around it at height 0 with a normal that points up, to within a sixteen-millionth. A flasher with a rotation is turned about the x, then the y, then the z axis about that position, its normal with it. The image of a flasher that wraps lies over the box around its outline, with coordinates between 0 and 1; that of a flasher aligned to the world lies over the table. The texture of a light without an image is centred at the light and reaches to the farthest vertex; the image of a light lies over the table if the table starts at 0. A decal has a mesh exactly if it shows an image and is not on the backglass: its rectangle turned about its middle, with the image over all of it. What does not hold: on a table that does not start at 0 the image of a light is displaced; the vertices of decals carry no bytes for a file.", "quantifier": "all flashers, lights and decals with coordinates and angles up to 2^20; all tables; all functions of an angle with values between -1 and 1 in place of sine and cosine", "why_tests_cant": "Tests build a few outlines; the bounds on texture coordinates, on rounding and on the indices must hold for every outline, every angle and every table.", "anchors": ["src/vpx/mesh/flashers.rs: build_flasher_mesh, apply_rotation", "src/vpx/mesh/lights/mod.rs: build_light_insert_mesh", "src/vpx/mesh/decals/mod.rs: build_decal_mesh"]}
{"id": "C68", "title": "Meshes of plungers", "statement": "A plunger that is not visible has no mesh. A visible one of the modern or custom type has a rod, a spring, a ring and a tip; any other has only a flat rod. The shape of the tip is a text with parts between semicolons: each part that starts with two numbers is a point, any other part is skipped, and the points are sorted by their distance from the end. In a build that checks for overflow the meshes are returned exactly if the plunger is flat, or its tip has at most 2048 points and its spring at most 8192 rings; an unchecked build always returns, with the same meshes in these cases. A spring has about 24 rings for a turn, so that 341 turns fit and 342 do not. The meshes that fit have known numbers of vertices and triangles, whose corners are three different vertices, and every vertex is used. As surfaces, a flat rod is closed, the rod is open at one end, and the ring, the tip and the spring at two. The vertices of rods, ring and tip lie on circles about the axis of the plunger, with the radius and at the distance along it that the fields say; those of the spring lie on a wire of the given gauge round a line that winds about the axis from the end of the ring. Each part uses its own band of the picture: the tip 0 to 1/4, the ring 1/4 to 1/2, the rod 1/2 to 3/4 and the spring 3/4 to 1. What does not hold: a spring with more rings than fit gets a mesh with vertices no triangle can name (unchecked build) or none (checked build); the triangles of a flat rod go against their normals, and the disc of the rod closes the end at the tip with a normal for the other end.", "quantifier": "all plungers with every value of their fields, including infinities and not-a-number unless stated; all texts of a tip; checked and unchecked builds; all functions in place of sine and cosine, with values between -1 and 1 for the picture", "why_tests_cant": "Tests build a plunger with the usual fields; the limits on indices, the surfaces and the bands of the picture must hold for every number of turns and every shape of the tip.", "anchors": ["src/vpx/mesh/plungers/mod.rs: build_plunger_meshes, parse_tip_shape, generate_flat_rod_mesh, generate_rod_mesh, generate_spring_mesh, generate_ring_mesh, generate_tip_mesh"]}
{"id": "C69", "title": "Meshes of targets, gates, spinners, kickers and triggers", "statement": "These meshes are copies of built-in shapes. There is none for an invisible target, gate or trigger, for a trigger without a shape, or for a kicker of the invisible type; brackets of gates and spinners are there exactly if they are shown, and a spinner has its plate whether it is visible or not. Each mesh has the triangles of the shape for its type in the same order and one vertex for each vertex of the shape, with the same texture coordinates; only the plate of a kicker has none, and a gate of an unknown type is a wire. Up to rounding, a target is scaled to its size and then turned by its angle, spinners and brackets of gates are turned and scaled by their length, the wire of a gate is only turned, the plate of a kicker is scaled by a share of its radius that depends on the type, the body of a kicker is raised, turned and scaled by the radius, and a star or a button is turned, scaled by its radius and raised. A wire trigger is tilted if its type is, turned, scaled in x and y and lowered, and each vertex is then pushed along its own normal by the thickness of the wire, wherever the normals come out as numbers up to two. The normals of targets, spinners and bodies of kickers are turned with them.", "quantifier": "all targets, gates, spinners, kickers and triggers, all shapes whose indices make whole triangles; for the places, all shapes with coordinates up to 1024, sizes up to 2^20, angles up to 2^20 degrees, and all functions for sine and cosine between -1 and 1", "why_tests_cant": "A test sees one object at one angle and size. The order of turning, scaling and raising matters only at angles and sizes that tests do not pick, and the rounding errors must be bounded for all of them.", "anchors": ["src/vpx/mesh/hittargets/mod.rs: build_hit_target_mesh", "src/vpx/mesh/gates/mod.rs: build_gate_meshes", "src/vpx/mesh/spinners/mod.rs: build_spinner_meshes", "src/vpx/mesh/kickers/mod.rs: build_kicker_meshes", "src/vpx/mesh/triggers/mod.rs: build_trigger_mesh", "src/vpx/math/matrix.rs: Matrix3D"]}

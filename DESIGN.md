# Formal model of francisdb/vpin in Rocq (Coq 8.16.1)

Statements of the properties: `properties.jsonl`.  Which theorem proves which: `MANIFEST.json`.  Experiments with wrong programs:
`seeded/LOG.jsonl`.

## 1. How the code is modelled

The model is a set of total, computable Gallina functions, one per Rust function, each with a comment giving the Rust file and the
lines, and what is simplified.  For each area there is a model file, a small specification `Spec*.v` (what the English words
mean, without the code), proofs in `*Facts.v`/`*Props.v`, and the property theorems in `Properties*.v`, each with an `Example`
that meets its hypotheses and `Print Assumptions` below it.

| Rust | Model |
|---|---|
| `u8` | `Coq.Init.Byte.byte` |
| `u16`, `u32`, `i32`, `f32`, `u64`, `f64` as stored | tuples of little-endian bytes (`w16`, `w32`, `w64`) with `w32_to_Z`/`Z_to_w32`; no value outside of the machine type exists |
| arithmetic on integers | `Z`, with explicit wrap-around or `Panic` (argument `checked`: overflow checks on or off) |
| arithmetic on floats | `SpecFloat` of the standard library at binary32/binary64 |
| `String` | list of Unicode scalar values (`rstring`) |
| `Vec<u8>`, `&[u8]` | `list byte` |
| `Result`, panics | `res`: `Ok`, `Err`, `Panic` (`panic!`, `unwrap`, slice out of range, checked overflow), `OutOfFuel` |
| `&mut self` | the new value is returned |
| loops | structural recursion, or fuel, with a theorem that the fuel never runs out |
| external crates | arguments of the functions (Section variables, records of functions); what is assumed of them is a hypothesis of the theorem, and an example in the same file shows functions that satisfy it |
| compound file | finite map from path to bytes plus the set of storages |
| file system | map from path to bytes; traces of operations for crash points and concurrent writers |

The codecs of game items, game data, materials, probes and of their JSON forms are very regular.  Their Gallina text is produced from the
Rust source by `tools/gen_enums.py`, `gen_items.py`, `gen_gameitem.py`, `gen_structs.py` and `gen_json.py` (struct definitions, `Default`,
match arms of `biff_read`, statements of `biff_write`, both `From`s of the JSON structs), with line citations, and is committed.  Nothing
trusts the generators: their output is the model, to be read against the Rust text like hand-written text; every build is from the
committed `.v` files.

## 2. Each property: what is modelled and how it is proved

* C01, C54 framing and scalars (`Biff`, `Common`): reader and writer as the two state machines of `biff.rs`; "each tagged write appends
  `le32(4+n) tag payload`"; the loop over an encoded record list is a fold of the handler (induction on the list).
* C02 termination (`TermFacts`): fuel `len/8+1` never runs out for any handler; instantiated for each reader.
* C03, C07, C08, C09, C40, C41 (`Item*`, `GameItem*`, `Enums`): one step lemma per field and the fold lemma; what is stored is
  described record by record; "every field representable" is an invariant of the reading loop.
* C04-C06 (`Text`): induction over strings; UTF-8 validity decoder for C06.
* C10, C13-C15, C17-C19, C22, C24, C25, C46 (`Image`, `Structs`, `GameData`, `GD*`, `StructMaterial`, `StructRenderProbe`): as C07.  LZW
  (weezl) and the BMP codec are oracles.
* C11, C12, C47 (`Sound`): layouts per version; header arithmetic with wrap-around.
* C16, C23, C27, C28, C43, C44, C48 (`Cfb`, `TableInfo`, `Vpx`): compound file as a map; whole-table round trip by composing the
  codecs; lock parity over histories; the hashed byte chunks for an arbitrary hash function; script import.
* C20, C21 (`Quantize`, `QuantizeMono`): SpecFloat, with Flocq for monotonicity of rounding; all codes by `vm_compute`.
* C26 (`ColorText`): all colours and all texts.
* C29 (`Compact`): traces of file operations, every prefix is a crash state, every directory order.
* C30 (`FileSystem`): refinement of a map under any history with open writers.
* C31 (`ExpandedItems`): the file-name generator over arbitrary lower-casing; writes in any order of threads.
* C32, C33 (`ExpandedAssets`): images, sounds and fonts in their directories.
* C34-C37, C49 (`Mesh`): OBJ triangulation and de-duplication, index widths, frames, round trip through OBJ.  The line syntax
  (wavefront-obj-io), the decimal texts and zlib are oracles.
* C55 (`Gltf`): GLB/glTF container, document and binary buffer; a separate reader following the glTF specification.
* C56 (`Browser`): the arrays of the browser interface to and from OBJ lines, on top of the reader of C34 and C49.
* C57 (`Builtin`): vertices and triangles of the built-in mesh for n sides, over any sine and cosine; edges are compared by the corner of
  the prism they join, so that the caps and the sides meet. C58: the middle of a mesh, with the rounding of f32 through Flocq.
* C59 (`Polygon`): the two ear-clipping loops (tops of walls; lights and flashers) with f32 arithmetic; the area and winding of the triangles
  are compared in exact integer arithmetic.
* C60 (`Smooth`): Catmull-Rom curves in two and three dimensions with the depth of the recursion as an argument; the bound on the depth follows
  the parameters through the binary fractions, with intervals for all intermediate results (`FloatBounds`).
* C61 (`Accessors`): the reports of `GameItem` are computed from the fields of the records; the theorems compare them with the fields of the
  JSON form of the item, kind by kind.
* C62 (`Webp`): the loop over the image streams of a compound file, returning the file also when the call fails; the codecs are arbitrary
  functions. Proved by showing that each step replaces one stream of the file of C23, and that the MAC does not cover images.
* C63 (`Walls`): the mesh of a wall over the curve of C60 and the triangles of C59; edges are compared by the corner of the wall they join. The
  texture coordinates are followed through f32 rounding with the intervals of `FloatBounds` (`WallsReals`).
* C64 (`RubberMesh`): the mesh of a rubber over the curve of C60; sine and cosine are arguments. The tube is treated as a grid of rings and segments
  that is closed in one or in both directions (`RubberFacts`).
* C65 (`Ramps`): the meshes of flat and wire ramps over the curve of C60. A mesh is a number of copies of one strip or one tube, so that its surface
  follows from that of one part (`RampFacts`); lengths, widths, heights and texture coordinates are bounded with the intervals of `FloatBounds` (`RampReals`).
* C66 (`Transform`, `ObjExport`): the scene export to OBJ, as lists of lines. `SpecObjExport` has a reader of both formats; `ObjExportFacts` shows that
  what it reads are the blocks, by induction over them with the invariant that faces are counted from the vertices written so far, and that each name in
  the material file stands for a material and texture in use. Units are real numbers in `TransformReals`.
  `C66_placed`: each row of the world matrix of a primitive goes through the six rotations, with a count of rounding errors (`WorldReals`).
* C67 (`Flats`): flashers, the inserts of lights and decals. The triangles come from C59 and the outline from C60; the product of the three rotations, the
  distances and the shares of a box are real numbers with a bound on each rounding step (`FlatReals`).
* C68 (`Plungers`): plungers, with an argument for whether the build checks for overflow. Strips of two rings follow from one strip, by induction over the
  rings with the number of vertices so far as the invariant (`PlungerFacts`); the count of rings and the bands of the picture are real numbers (`PlungerReals`).
  The cases and findings are in `PropertiesPlungersCases`.
* C69 (`Shapes`): targets, gates, spinners, kickers and triggers, over a library of shapes that is an argument. Each number of a vertex stands for a real number
  with a count of rounding errors, and products, sums and matrices add to the count (`ShapeReals`). Wire triggers are in `WireReals`, in terms of the normals they come out with.
* C57_texture and C63_normals (`PropertiesNormals`): the shares of a box and the unit vectors are real numbers again, with a bound on each rounding step
  (`NormalReals`).
* C38, C39 (`Vpx`, `Compat`): order of part groups; compatibility rules by version.
* C42 (`JsonFloat`), C45, C50-C52 (`Json*`): JSON values; codecs as in serde; texts of finite floats are an oracle.
* C53 (`Extract`): extracting a table and assembling it, composed from all of the above.

A statement that turned out false of the code is kept as a theorem `..._refuted` with a witness, and the property is stated with the
conditions that make it true.

## 3. What is not modelled

* `vpx/export/*` except `obj_export.rs` (glTF scene export, camera), `vpx/mesh/*` except where listed above (generated meshes of parts), `src/gltf.rs`
  (material builder), the JavaScript values of `wasm.rs`, the command line.
* The insides of cfb, weezl, flate2, md2, image, serde_json's text layer, sanitize-filename, wavefront-obj-io, rayon.
* Log messages, error texts, file modification times, permissions, symbolic links, loss of unsynced data at power failure.
* Memory exhaustion, and files of 4 GiB or more where a theorem says so.

## 4. Trusted base

* Coq 8.16.1's kernel, with `vm_compute`.
* The reading of the Rust source (cited by line) and of the external crates (as hypotheses).
* No axioms of our own.  `Print Assumptions` stands below each theorem.  It prints "Closed under the global context" for all theorems of
  `MANIFEST.json` except the following, which use the standard library's real numbers through Flocq (rounding is monotone), and so
  depend on `ClassicalDedekindReals.sig_not_dec`, `ClassicalDedekindReals.sig_forall_dec`,
  `FunctionalExtensionality.functional_extensionality_dep` and `Classical_Prop.classic`:
  `C03_game_data_unknown_records`, `C03_unknown_records_are_skipped`, `C07_what_is_stored`, `C08_resave_reaches_a_fixed_point`,
  `C08_resave_is_lossless`, `C09_type_written_is_the_kind`, `C17_game_data_round_trip`, `C17_game_data_stored_form`,
  `C17_game_data_resave`, `C18_position_written`, `C18_position_survives`, `C18_flag_after_reading`, `C18_camera_layout_mode_refuted`,
  `C20_legacy_form`, `C21_quantise_8`, `C21_quantise_percent`, `C21_quantise_u8`, `C23_layout`, `C23_round_trip`, `C23_equal`,
  `C27_lock_history`, `C27_last_call`, `C27_written_editable`, `C28_verifies`, `C28_not_covered`, `C37_files`, `C48_import_extract`,
  `C49_obj`, `C49_mesh`, `C53_round_trip`, `C53_reused_directory_refuted`, `C53_frames_without_mesh_refuted`, `C56_round_trip`,
  `C56_assembled`, `C56_extracted`, `C56_identical_refuted`, `C57_inward_normals`, `C58_midpoint`, `C60_ends`, `C60_ramp_ends`,
  `C60_curve`, `C60_ramp_curve`, `C60_corners`, `C60_start`, `C60_nan_refuted`, `C60_ramp_nan_refuted`, `C60_accuracy_refuted`,
  `C62_convert`, `C62_stops`, `C62_again`, `C62_report_refuted`, `C63_total`, `C63_top_texture`, `C63_table_texture`, `C63_manual`,
  `C63_automatic`, `C64_total`, `C64_mesh`, `C64_surface`, `C64_texture`, `C64_centre`, `C64_surface_refuted`; all theorems of C65 but `C65_above_refuted` and `C65_world_refuted`;
  `C66_scale`, `C66_total`, `C66_spaces_refuted`, `C66_ring_refuted`; all theorems of C67 but
  `C67_none`, `C67_mesh`, `C67_bytes_refuted`; `C57_texture`, `C63_normals`; `C68_turns`, `C68_texture`; `C69_places`, `C69_wires`, `C66_placed`.

Oracles, by theorem: hashing (C28), order of directory walks (C29), lower-casing and `is_alphanumeric` (C31, C32, C50-C53), `sanitize` and
which names denote one file (C32, C33, C53), image sizes and codecs (C25, C32, C53), number texts (C42, C45, C49-C53, C56), zlib
(C36, C37, C49, C53, C55, C56), JSON text (C53, C55), order of parallel writes (C31, C53), up-casing of compound file names (C16, C23).
The record `toolbox` of `Extract.v` collects them for C53; `ExampleToolbox.v` builds one that satisfies all hypotheses.

(** Meshes in GLB and glTF files: src/vpx/gltf.rs and the part of src/vpx/expanded/primitives.rs that uses them.

    The JSON part is a value of Json.v; the order of the members does not matter to the reader.  Adding and multiplying offsets does not
    overflow here: a file that declares offsets or counts near 2^64 is out of scope (the program panics or runs out of memory). *)
From Coq Require Import Floats.SpecFloat.
From Verif Require Import Base Text Image Sound Quantize ColorText JsonFloat Cfb Json Compat Mesh.

(** gltf.rs:24-35 *)
Definition GLTF_MAGIC : bytes := [x67; x6c; x54; x46].
Definition GLTF_VERSION : Z := 2.
Definition GLB_JSON_CHUNK_TYPE : bytes := [x4a; x53; x4f; x4e].
Definition GLB_BIN_CHUNK_TYPE : bytes := [x42; x49; x4e; x00].
Definition COMPONENT_FLOAT : Z := 5126.
Definition COMPONENT_UNSIGNED_SHORT : Z := 5123.
Definition COMPONENT_UNSIGNED_INT : Z := 5125.
Definition TARGET_ARRAY_BUFFER : Z := 34962.
Definition TARGET_ELEMENT_ARRAY_BUFFER : Z := 34963.

(** [f32::min], [f32::max]: of a NaN and a number it is the number *)
Definition f32_min (a b : f32) : f32 :=
  if f32_is_nan a then b else if f32_is_nan b then a else if SFltb (f32_value b) (f32_value a) then b else a.
Definition f32_max (a b : f32) : f32 :=
  if f32_is_nan a then b else if f32_is_nan b then a else if SFltb (f32_value a) (f32_value b) then b else a.

(** ** Binary data *)
Definition nan_as_zero (x : f32) : f32 := if f32_is_nan x then f32_zero else x.
(** gltf.rs:117-122 *)
Definition position_bytes (w : wrapper) : bytes :=
  let v := w_vertex w in w32_bytes (v_x v) ++ w32_bytes (v_y v) ++ w32_bytes (v_z v).
(** gltf.rs:128-139 *)
Definition normal_bytes (w : wrapper) : bytes :=
  let v := w_vertex w in w32_bytes (nan_as_zero (v_nx v)) ++ w32_bytes (nan_as_zero (v_ny v)) ++ w32_bytes (nan_as_zero (v_nz v)).
(** gltf.rs:151-154 *)
Definition texcoord_bytes (w : wrapper) : bytes := let v := w_vertex w in w32_bytes (v_tu v) ++ w32_bytes (v_tv v).
(** gltf.rs:158-170 (the constant 65535 is repeated there) *)
Definition index_bytes (num_vertices : Z) (fs : list face) : bytes :=
  let use_u32 := 65535 <? num_vertices in
  flat_map (fun f => write_index use_u32 (f_0 f) ++ write_index use_u32 (f_1 f) ++ write_index use_u32 (f_2 f)) fs.
(** gltf.rs:173-176, 313-314: as many as are missing to a multiple of four *)
Definition padding (n : Z) : nat := Z.to_nat ((4 - n mod 4) mod 4).
(** gltf.rs:113-176: the binary buffer *)
Definition gltf_bin (vs : list wrapper) (fs : list face) : bytes :=
  let d := flat_map position_bytes vs ++ flat_map normal_bytes vs ++ flat_map texcoord_bytes vs ++ index_bytes (zlen vs) fs in
  d ++ repeat x00 (padding (zlen d)).
(** gltf.rs:141-146: bytes 12 to 23 of the stored vertex, which always has 32 *)
Definition stored_normal (w : wrapper) : bytes := firstn 12 (skipn 12 (w_bytes w)).

Section Gltf.
Context {L : json_lib}.
(** [serde_json::to_string] of a [Value] and [from_slice] *)
Variable print : json -> bytes.
Variable parse : bytes -> res json.

(** ** Writing *)
Definition int (z : Z) : json := Jnum (NInt z).
Definition str (s : string) : json := Jstr (lit s).
(** [json!] of an f32: null unless it is finite *)
Definition jf32 (x : f32) : json := jc_to jc_f32 x.
(** gltf.rs:189-211 *)
Definition bound (f : f32 -> f32 -> f32) (start : f32) (coordinate : Vtx -> f32) (vs : list wrapper) : f32 :=
  fold_left (fun m w => f m (coordinate (w_vertex w))) vs start.
Definition low (coordinate : Vtx -> f32) (vs : list wrapper) : f32 := bound f32_min f32_infinity coordinate vs.
Definition high (coordinate : Vtx -> f32) (vs : list wrapper) : f32 := bound f32_max f32_neg_infinity coordinate vs.
Definition view (offset length target : Z) : json :=
  Jobj [("buffer"%string, int 0); ("byteOffset"%string, int offset); ("byteLength"%string, int length); ("target"%string, int target)].
Definition accessor (index component count : Z) (kind : string) (more : list (string * json)) : json :=
  Jobj ([("bufferView"%string, int index); ("componentType"%string, int component); ("count"%string, int count); ("type"%string, str kind);
         ("byteOffset"%string, int 0)] ++ more).
(** gltf.rs:106-297 [build_gltf_payload]: the JSON part *)
Definition gltf_json (name : rstring) (vs : list wrapper) (fs : list face) (buffer_uri : option rstring) : json :=
  let positions := zlen (flat_map position_bytes vs) in
  let normals := zlen (flat_map normal_bytes vs) in
  let texcoords := zlen (flat_map texcoord_bytes vs) in
  let indices := zlen (index_bytes (zlen vs) fs) in
  Jobj [
    ("asset"%string, Jobj [("version"%string, str "2.0"); ("generator"%string, str "vpin")]);
    ("scene"%string, int 0);
    ("scenes"%string, Jarr [Jobj [("nodes"%string, Jarr [int 0])]]);
    ("nodes"%string, Jarr [Jobj [("mesh"%string, int 0); ("name"%string, Jstr name)]]);
    ("meshes"%string, Jarr [Jobj [("name"%string, Jstr name); ("primitives"%string, Jarr [Jobj [
      ("attributes"%string, Jobj [("POSITION"%string, int 0); ("NORMAL"%string, int 1); ("TEXCOORD_0"%string, int 2)]);
      ("indices"%string, int 3); ("mode"%string, int 4);
      ("extras"%string, Jobj [("vpx_normals"%string, Jarr (map (fun w => Jstr (hex_encode (stored_normal w))) vs))])]])]]);
    ("accessors"%string, Jarr [
      accessor 0 COMPONENT_FLOAT (zlen vs) "VEC3" [
        ("min"%string, Jarr [jf32 (low v_x vs); jf32 (low v_y vs); jf32 (low v_z vs)]);
        ("max"%string, Jarr [jf32 (high v_x vs); jf32 (high v_y vs); jf32 (high v_z vs)])];
      accessor 1 COMPONENT_FLOAT (zlen vs) "VEC3" [];
      accessor 2 COMPONENT_FLOAT (zlen vs) "VEC2" [];
      accessor 3 (if 65535 <? zlen vs then COMPONENT_UNSIGNED_INT else COMPONENT_UNSIGNED_SHORT) (zlen fs * 3) "SCALAR" []]);
    ("bufferViews"%string, Jarr [
      view 0 positions TARGET_ARRAY_BUFFER;
      view positions normals TARGET_ARRAY_BUFFER;
      view (positions + normals) texcoords TARGET_ARRAY_BUFFER;
      view (positions + normals + texcoords) indices TARGET_ELEMENT_ARRAY_BUFFER]);
    ("buffers"%string, Jarr [Jobj (("byteLength"%string, int (zlen (gltf_bin vs fs))) ::
      match buffer_uri with Some uri => [("uri"%string, Jstr uri)] | None => [] end)])].
(** gltf.rs:299-342 [write_glb_payload]; [as u32] truncates.  (The sum of the lengths overflows from 4 GiB on, which panics with
    overflow checks and wraps without; here it wraps.) *)
Definition write_glb (name : rstring) (vs : list wrapper) (fs : list face) : bytes :=
  let text := print (gltf_json name vs fs None) in
  let json_length := zlen text + Z.of_nat (padding (zlen text)) in
  let bin := gltf_bin vs fs in
  GLTF_MAGIC ++ w32_bytes (Z_to_w32 GLTF_VERSION) ++ w32_bytes (Z_to_w32 (12 + 8 + json_length + 8 + zlen bin)) ++
  w32_bytes (Z_to_w32 json_length) ++ GLB_JSON_CHUNK_TYPE ++ text ++ repeat x20 (padding (zlen text)) ++
  w32_bytes (Z_to_w32 (zlen bin)) ++ GLB_BIN_CHUNK_TYPE ++ bin.
(** gltf.rs:80-102: the .gltf file and the .bin file that it refers to *)
Definition write_gltf (name : rstring) (vs : list wrapper) (fs : list face) (bin_file_name : rstring) : bytes * bytes :=
  (print (gltf_json name vs fs (Some bin_file_name)), gltf_bin vs fs).

(** ** Reading *)
(** [value\[key\]], [value\[index\]] of serde_json: null when there is no such thing; of several members with one name the last counts *)
Fixpoint last_member (key : string) (fields : list (string * json)) (found : json) : json :=
  match fields with [] => found | (k, j) :: fields' => last_member key fields' (if (k =? key)%string then j else found) end.
Definition member (key : string) (j : json) : json := match j with Jobj fields => last_member key fields Jnull | _ => Jnull end.
Definition element (i : nat) (j : json) : json := match j with Jarr l => nth i l Jnull | _ => Jnull end.
Definition as_array (j : json) : option (list json) := match j with Jarr l => Some l | _ => None end.
Definition as_str (j : json) : option rstring := match j with Jstr s => Some s | _ => None end.
(** [as_u64().unwrap()] *)
Definition u64 (j : json) : res Z :=
  match j with Jnum (NInt z) => if (0 <=? z) && (z <? 18446744073709551616) then Ok z else Panic | _ => Panic end.
(** [cursor.read_f32], [read_u32], [read_u16], [read_exact]: an error at the end of the data *)
Definition next_w32 (d : bytes) : res (w32 * bytes) := match d with a :: b :: c :: e :: d' => Ok (W32 a b c e, d') | _ => Err end.
Definition next_w16 (d : bytes) : res (w16 * bytes) := match d with a :: b :: d' => Ok (W16 a b, d') | _ => Err end.
Definition next_4 (d : bytes) : res (bytes * bytes) := match d with a :: b :: c :: e :: d' => Ok ([a; b; c; e], d') | _ => Err end.
(** [&data\[start..\]], [&data\[start..start + n\]]: a panic when out of range *)
Definition from_offset (start : Z) (d : bytes) : res bytes := if start <=? zlen d then Ok (skipn (Z.to_nat start) d) else Panic.
Definition split_at (n : Z) (d : bytes) : res (bytes * bytes) :=
  if n <=? zlen d then Ok (firstn (Z.to_nat n) d, skipn (Z.to_nat n) d) else Panic.
(** [&accessors\[i\]] of a [Vec] *)
Definition vec_element (i : Z) (l : list json) : res json := match nth_error l (Z.to_nat i) with Some j => Ok j | None => Panic end.
Definition bytes_eqb (a b : bytes) : bool := (List.length a =? List.length b)%nat && forallb (fun p => byte_to_Z (fst p) =? byte_to_Z (snd p)) (combine a b).

(** gltf.rs:515-566: the vertex number [i] *)
Definition read_gltf_vertex (bin : bytes) (pos norm tex : Z) (vpx_normals : option (list rstring)) (i : nat) : res wrapper :=
  let k := Z.of_nat i in
  d <~ from_offset (pos + k * 12) bin ;; '(x, d) <~ next_w32 d ;; '(y, d) <~ next_w32 d ;; '(z, _) <~ next_w32 d ;;
  d <~ from_offset (norm + k * 12) bin ;; '(nx, d) <~ next_w32 d ;; '(ny, d) <~ next_w32 d ;; '(nz, _) <~ next_w32 d ;;
  d <~ from_offset (tex + k * 8) bin ;; '(tu, d) <~ next_w32 d ;; '(tv, _) <~ next_w32 d ;;
  let none := repeat x00 12 in
  let normal := match vpx_normals with
                | Some l => match nth_error l i with
                            | Some s => match hex_decode s with Ok d => if zlen d =? 12 then d else none | Fail _ => none end
                            | None => none
                            end
                | None => none
                end in
  Ok (mkWrapper (w32_bytes x ++ w32_bytes y ++ w32_bytes z ++ normal ++ w32_bytes tu ++ w32_bytes tv) (mkVtx x y z nx ny nz tu tv)).
(** gltf.rs:573-601 [read_glb_indices], the face number [i] *)
Definition read_gltf_face (bin : bytes) (offset : Z) (use_u32 : bool) (i : nat) : res face :=
  let k := Z.of_nat i in
  if use_u32 then
    d <~ from_offset (offset + k * 12) bin ;; '(a, d) <~ next_w32 d ;; '(b, d) <~ next_w32 d ;; '(c, _) <~ next_w32 d ;;
    Ok (mkFace (w32_to_Z a) (w32_to_Z b) (w32_to_Z c))
  else
    d <~ from_offset (offset + k * 6) bin ;; '(a, d) <~ next_w16 d ;; '(b, d) <~ next_w16 d ;; '(c, _) <~ next_w16 d ;;
    Ok (mkFace (w16_to_Z a) (w16_to_Z b) (w16_to_Z c)).
(** gltf.rs:456-571 [parse_gltf_payload].  The accessors are taken by their position: 0 positions, 1 normals, 2 texture coordinates,
    3 indices. *)
Definition parse_gltf (j : json) (bin : bytes) : res (rstring * list wrapper * list face) :=
  match as_array (member "accessors" j), as_array (member "bufferViews" j) with
  | Some accessors, Some views =>
      let mesh := element 0 (member "meshes" j) in
      let name := match as_str (member "name" mesh) with Some s => s | None => [] end in
      let vpx_normals :=
        option_map (map (fun v => match as_str v with Some s => s | None => [] end))
          (as_array (member "vpx_normals" (member "extras" (element 0 (member "primitives" mesh))))) in
      let located (n : Z) : res (json * Z) :=
        a <~ vec_element n accessors ;; i <~ u64 (member "bufferView" a) ;; v <~ vec_element i views ;; o <~ u64 (member "byteOffset" v) ;; Ok (a, o) in
      '(pos_accessor, pos) <~ located 0 ;; pos_count <~ u64 (member "count" pos_accessor) ;;
      '(_, norm) <~ located 1 ;; '(_, tex) <~ located 2 ;;
      '(idx_accessor, idx) <~ located 3 ;; idx_count <~ u64 (member "count" idx_accessor) ;; component <~ u64 (member "componentType" idx_accessor) ;;
      vs <~ map_res (read_gltf_vertex bin pos norm tex vpx_normals) (seq 0 (Z.to_nat pos_count)) ;;
      fs <~ map_res (read_gltf_face bin idx (component =? COMPONENT_UNSIGNED_INT)) (seq 0 (Z.to_nat (idx_count / 3))) ;;
      Ok (name, vs, fs)
  | _, _ => Err
  end.
(** gltf.rs:391-454 [read_glb_payload_from_reader], 384-389 [read_glb_from_reader]; the length of the file is not looked at *)
Definition read_glb (d : bytes) : res (rstring * list wrapper * list face) :=
  '(magic, d) <~ next_4 d ;; if negb (bytes_eqb magic GLTF_MAGIC) then Err else
  '(version, d) <~ next_w32 d ;; if negb (w32_to_Z version =? GLTF_VERSION) then Err else
  '(_, d) <~ next_w32 d ;;
  '(json_length, d) <~ next_w32 d ;; '(chunk, d) <~ next_4 d ;; if negb (bytes_eqb chunk GLB_JSON_CHUNK_TYPE) then Err else
  '(text, d) <~ split_at (w32_to_Z json_length) d ;; j <~ parse text ;;
  '(bin_length, d) <~ next_w32 d ;; '(chunk, d) <~ next_4 d ;; if negb (bytes_eqb chunk GLB_BIN_CHUNK_TYPE) then Err else
  '(bin, _) <~ split_at (w32_to_Z bin_length) d ;;
  parse_gltf j bin.
(** [str::starts_with] *)
Definition starts_with (p s : rstring) : bool := match strip_prefix p s with Some _ => true | None => false end.
(** gltf.rs:344-382 [read_gltf] of a .gltf file; [fetch]: the file with this name beside it *)
Definition read_gltf (text : bytes) (fetch : rstring -> option bytes) : res (rstring * list wrapper * list face) :=
  j <~ parse text ;;
  match as_str (member "uri" (element 0 (member "buffers" j))) with
  | None => Err
  | Some uri =>
      if starts_with (lit "data:") uri then Err
      else match fetch uri with Some bin => parse_gltf j bin | None => Err end
  end.

(** expanded/primitives.rs:836-866 [read_gltf_and_compress]: the mesh fields afterwards *)
Definition gltf_mesh (compress : bytes -> bytes) (m : rstring * list wrapper * list face) : mesh_fields :=
  let '(_, vs, fs) := m in
  mkMeshFields (Some (Z_to_w32 (zlen vs))) (Some (compress (flat_map w_bytes vs)))
    (Some (Z_to_w32 (zlen fs * 3))) (Some (compress (encode_faces (zlen vs) fs))).
(** expanded/primitives.rs:947-963 [read_gltf_as_frame] *)
Definition gltf_frame (m : rstring * list wrapper * list face) : list frame_vertex :=
  map (fun w => let v := w_vertex w in mkFv (v_x v) (v_y v) (v_z v) (v_nx v) (v_ny v) (v_nz v)) (snd (fst m)).
End Gltf.

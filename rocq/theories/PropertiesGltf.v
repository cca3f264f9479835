(** C55: meshes in GLB and glTF files.

    The code is in Gltf.v; what the properties mean is in SpecGltf.v. *)
From Coq Require Import Floats.SpecFloat ZifyBool.
From Verif Require Import Base Text Image Sound Quantize ColorText JsonFloat Cfb Json Compat Mesh SpecMesh Gltf SpecGltf ExampleToolbox CfbFacts
  BaseFacts BiffFacts CommonFacts ColorFacts JsonFloatFacts FlipFacts MeshFacts ObjRoundTrip GltfFacts PropertiesMesh.

(** ** Examples: a library that prints nothing and knows the document of one mesh *)
Definition two_vertices : list wrapper := [vertex_a; vertex_b].
Definition two_faces : list face := [mkFace 0 1 1; mkFace 1 0 0].
Definition box_text : bytes := [x7b; x7d; x20].
Definition box_print {L : json_lib} (_ : json) : bytes := box_text.
Definition box_parse {L : json_lib} uri (_ : bytes) : res json := Ok (gltf_json (lit "Box") two_vertices two_faces uri).

(** C55: a mesh written as a GLB file is read back: the name, the faces, and all 32 bytes of each vertex.  (In the numbers beside those
    bytes normals that are NaN are 0.) *)
Theorem C55_glb : forall (L : json_lib) print parse name vs fs,
  Forall stored_vertex vs -> Forall (face_within 0 (largest_index (zlen vs))) fs -> zlen (write_glb print name vs fs) < 4294967296 ->
  (forall k, parse (print (gltf_json name vs fs None) ++ repeat x20 k) = Ok (gltf_json name vs fs None)) ->
  exists vs', read_glb parse (write_glb print name vs fs) = Ok (name, vs', fs) /\
    Forall2 (fun w w' => w_bytes w' = w_bytes w /\ w_vertex w' = shown_vertex (w_vertex w)) vs vs'.
Proof.
  intros L print parse name vs fs S R Z P. exists (map read_back vs). rewrite read_glb_back; try assumption.
  - rewrite faces_back by exact R. split; [reflexivity|]. clear -S. induction S as [|w vs W S IH]; cbn [map]; constructor; [split; [apply read_back_stored, W|reflexivity]|exact IH].
  - revert S. apply Forall_impl. exact stored_full.
Qed.
Print Assumptions C55_glb.
Definition box : json (L := toy_json) := gltf_json (lit "Box") two_vertices two_faces None.
Example C55_glb_case : Forall stored_vertex two_vertices /\ Forall (face_within 0 (largest_index (zlen two_vertices))) two_faces /\
  zlen (write_glb (L := toy_json) box_print (lit "Box") two_vertices two_faces) = 108 /\
  (forall k, box_parse None (box_print box ++ repeat x20 k) = Ok box) /\
  exists vs, read_glb (L := toy_json) (box_parse None) (write_glb (L := toy_json) box_print (lit "Box") two_vertices two_faces) = Ok (lit "Box", vs, two_faces) /\
    map w_bytes vs = map w_bytes two_vertices /\ vs <> two_vertices.
Proof. split; [repeat constructor|]. split; [change (largest_index (zlen two_vertices)) with 65535; unfold two_faces, face_within; do 2 (apply Forall_cons; [cbn [f_0 f_1 f_2]; lia|]); apply Forall_nil|]. split; [reflexivity|]. split; [reflexivity|]. eexists. split; [vm_compute; reflexivity|]. split; [reflexivity|discriminate]. Qed.

(** C55: the same with a .gltf file and the .bin file beside it *)
Theorem C55_gltf : forall (L : json_lib) print parse name vs fs bin_name fetch,
  Forall stored_vertex vs -> Forall (face_within 0 (largest_index (zlen vs))) fs -> zlen (snd (write_gltf print name vs fs bin_name)) < 18446744073709551616 ->
  parse (print (gltf_json name vs fs (Some bin_name))) = Ok (gltf_json name vs fs (Some bin_name)) ->
  starts_with (lit "data:") bin_name = false -> fetch bin_name = Some (snd (write_gltf print name vs fs bin_name)) ->
  exists vs', read_gltf parse (fst (write_gltf print name vs fs bin_name)) fetch = Ok (name, vs', fs) /\
    Forall2 (fun w w' => w_bytes w' = w_bytes w /\ w_vertex w' = shown_vertex (w_vertex w)) vs vs'.
Proof.
  intros L print parse name vs fs bin_name fetch S R Z P U FE. exists (map read_back vs). rewrite read_gltf_back; try assumption.
  - rewrite faces_back by exact R. split; [reflexivity|]. clear -S. induction S as [|w vs W S IH]; cbn [map]; constructor; [split; [apply read_back_stored, W|reflexivity]|exact IH].
  - revert S. apply Forall_impl. exact stored_full.
Qed.
Print Assumptions C55_gltf.
Example C55_gltf_case : let files := write_gltf (L := toy_json) box_print (lit "Box") two_vertices two_faces (lit "Box.bin") in
  starts_with (lit "data:") (lit "Box.bin") = false /\ zlen (snd files) = 76 /\
  exists vs, read_gltf (L := toy_json) (box_parse (Some (lit "Box.bin"))) (fst files) (fun _ => Some (snd files)) = Ok (lit "Box", vs, two_faces) /\
    map w_bytes vs = map w_bytes two_vertices.
Proof. split; [reflexivity|]. split; [reflexivity|]. eexists. split; [vm_compute; reflexivity|reflexivity]. Qed.

(** C55: so the mesh of a primitive is the same after writing it as a GLB file or as a .gltf file and importing that *)
Lemma mesh_back compress decompress name p vs fs vs' : (forall d, decompress (compress d) = Ok d) -> read_mesh decompress p = Ok (Some (vs, fs)) ->
  map w_bytes vs' = map w_bytes vs -> read_mesh decompress (gltf_mesh compress (name, vs', fs)) = Ok (Some (vs, fs)).
Proof.
  intros Z H B. unfold read_mesh in H. destruct (mf_vertices p) as [vd|]; [|discriminate]. destruct (mf_indices p) as [id|]; [|discriminate].
  destruct (decompress vd) as [raw|]; [|discriminate]. cbn [rbind] in H. destruct (decompress id) as [inds|]; [|discriminate]. cbn [rbind] in H.
  set (n := zlen raw / BYTES_PER_VERTEX) in *. destruct (n =? _) eqn:E1; cbn [negb] in H; [|discriminate].
  set (k := zlen inds / index_width (wide_indices n)) in *. destruct (k =? _) eqn:E2; cbn [negb] in H; [|discriminate].
  destruct (read_vertices _ raw) as [vs0|] eqn:RV; [|discriminate]. cbn [rbind] in H. destruct (read_faces _ _ inds) as [fs'|] eqn:RF; [|discriminate].
  cbn [rbind] in H. injection H as -> ->.
  assert (Hn : 0 <= n < 4294967296). { destruct (mf_num_vertices p) as [w|]; [pose proof (w32_to_Z_range w); lia|lia]. }
  assert (Hk : 0 <= k < 4294967296). { destruct (mf_num_indices p) as [w|]; [pose proof (w32_to_Z_range w); lia|lia]. }
  apply read_vertices_stored in RV. destruct RV as [S LV]. apply read_faces_range in RF. destruct RF as [F LF].
  assert (ZV : zlen vs = n) by (unfold zlen; lia). assert (ZF : zlen fs = k / 3) by (unfold zlen; lia).
  clearbody n k. clear E1 E2.
  assert (ZV' : zlen vs' = n) by (pose proof (f_equal (@List.length bytes) B) as B'; rewrite !map_length in B'; unfold zlen in *; lia).
  assert (FB : flat_map w_bytes vs' = flat_map w_bytes vs) by (rewrite !flat_map_concat_map; exact (f_equal (@List.concat byte) B)).
  unfold gltf_mesh. unfold read_mesh. cbn [mf_vertices mf_indices mf_num_vertices mf_num_indices]. rewrite !Z. cbn [rbind].
  change (encode_faces (zlen vs') fs) with (flat_map (face_bytes (wide_indices (zlen vs'))) fs).
  rewrite FB, (vertices_len vs S), ZV, ZV'. unfold BYTES_PER_VERTEX. rewrite (Z.mul_comm 32), Z.div_mul by lia. rewrite (w32_to_Z_small n) by lia.
  rewrite Z.eqb_refl. cbn [negb]. rewrite faces_len.
  assert (WP : 0 < index_width (wide_indices n)) by (destruct (wide_indices n); cbn; lia).
  replace (3 * index_width (wide_indices n) * zlen fs) with (3 * zlen fs * index_width (wide_indices n)) by ring. rewrite Z.div_mul by lia.
  rewrite w32_to_Z_small by lia. replace (3 * zlen fs =? zlen fs * 3) with true by lia. cbn [negb]. rewrite (Z.mul_comm 3), Z.div_mul by lia.
  replace (Z.to_nat n) with (List.length vs) by lia. replace (Z.to_nat (zlen fs)) with (List.length fs) by (unfold zlen; lia).
  rewrite <- (app_nil_r (flat_map w_bytes vs)), (read_vertices_ok vs [] S). cbn [rbind].
  rewrite <- (app_nil_r (flat_map (face_bytes _) fs)), (read_faces_ok _ fs [] F). reflexivity.
Qed.
Lemma mesh_shape decompress p vs fs : read_mesh decompress p = Ok (Some (vs, fs)) ->
  Forall stored_vertex vs /\ Forall (face_within 0 (largest_index (zlen vs))) fs.
Proof.
  intros H. unfold read_mesh in H. destruct (mf_vertices p) as [vd|]; [|discriminate]. destruct (mf_indices p) as [id|]; [|discriminate].
  destruct (decompress vd) as [raw|]; [|discriminate]. cbn [rbind] in H. destruct (decompress id) as [inds|]; [|discriminate]. cbn [rbind] in H.
  set (n := zlen raw / BYTES_PER_VERTEX) in *. destruct (n =? _) eqn:E1; cbn [negb] in H; [|discriminate].
  set (k := zlen inds / index_width (wide_indices n)) in *. destruct (k =? _) eqn:E2; cbn [negb] in H; [|discriminate].
  destruct (read_vertices _ raw) as [vs0|] eqn:RV; [|discriminate]. cbn [rbind] in H. destruct (read_faces _ _ inds) as [fs'|] eqn:RF; [|discriminate].
  cbn [rbind] in H. injection H as -> ->. apply read_vertices_stored in RV. destruct RV as [S LV]. apply read_faces_range in RF. destruct RF as [F LF]. split; [exact S|].
  assert (0 <= n) by (apply Z.div_pos; [apply zlen_nonneg|reflexivity]). assert (ZV : zlen vs = n) by (unfold zlen; lia).
  rewrite ZV. unfold largest_index. unfold wide_indices, MAX_VERTICES_FOR_2_BYTE_INDEX in F. replace (n <=? 65535) with (negb (65535 <? n)) by lia. destruct (65535 <? n); exact F.
Qed.
Theorem C55_mesh : forall (L : json_lib) print parse decompress compress, (forall d, decompress (compress d) = Ok d) ->
  forall p vs fs name bin_name, read_mesh decompress p = Ok (Some (vs, fs)) ->
  zlen (write_glb print name vs fs) < 4294967296 -> starts_with (lit "data:") bin_name = false ->
  (forall uri k, parse (print (gltf_json name vs fs uri) ++ repeat x20 k) = Ok (gltf_json name vs fs uri)) ->
  (exists m, read_glb parse (write_glb print name vs fs) = Ok m /\ read_mesh decompress (gltf_mesh compress m) = Ok (Some (vs, fs))) /\
  (let files := write_gltf print name vs fs bin_name in
   exists m, read_gltf parse (fst files) (fun uri => if rstring_eqb uri bin_name then Some (snd files) else None) = Ok m /\ read_mesh decompress (gltf_mesh compress m) = Ok (Some (vs, fs))).
Proof.
  intros L print parse decompress compress Z p vs fs name bin_name H SZ U P. destruct (mesh_shape _ _ _ _ H) as [S F].
  assert (B : forall vs', Forall2 (fun w w' => w_bytes w' = w_bytes w /\ w_vertex w' = shown_vertex (w_vertex w)) vs vs' -> map w_bytes vs' = map w_bytes vs).
  { intros vs' G. clear -G. induction G as [|w w' vs vs' (G1 & _) G IH]; cbn [map]; [reflexivity|]. rewrite IH, G1. reflexivity. }
  split.
  - destruct (C55_glb L print parse name vs fs S F SZ (P None)) as (vs' & E & G). eexists. split; [exact E|]. exact (mesh_back compress decompress name p vs fs vs' Z H (B _ G)).
  - cbv zeta. destruct (C55_gltf L print parse name vs fs bin_name (fun uri => if rstring_eqb uri bin_name then Some (snd (write_gltf print name vs fs bin_name)) else None) S F) as (vs' & E & G).
    + cbn [snd write_gltf]. rewrite write_glb_length in SZ. pose proof (zlen_nonneg (print (gltf_json name vs fs None))). lia.
    + pose proof (P (Some bin_name) 0%nat) as P0. cbn [repeat] in P0. rewrite app_nil_r in P0. exact P0.
    + exact U.
    + rewrite rstring_eqb_refl. reflexivity.
    + eexists. split; [exact E|]. exact (mesh_back compress decompress name p vs fs vs' Z H (B _ G)).
Qed.
Print Assumptions C55_mesh.
Example C55_mesh_case : read_mesh stored (mkMeshFields (Some (Z_to_w32 2)) (Some (flat_map w_bytes two_vertices)) (Some (Z_to_w32 6)) (Some (encode_faces 2 two_faces))) = Ok (Some (two_vertices, two_faces)) /\
  read_mesh stored (gltf_mesh same (lit "Box", two_vertices, two_faces)) = Ok (Some (two_vertices, two_faces)).
Proof. split; vm_compute; reflexivity. Qed.

(** C55: an animation frame written as a GLB or .gltf file is read back, unless a normal is NaN (which is read as 0) *)
Lemma frame_back (name : rstring) vs fvs (fs : list face) : no_nan_normals fvs -> (List.length fvs <= List.length vs)%nat -> gltf_frame (name, map read_back (replace_vertices vs fvs), fs) = fvs.
Proof.
  intros N LE. unfold gltf_frame. cbn [fst snd]. rewrite map_map. unfold replace_vertices. rewrite map_map. revert vs LE.
  induction fvs as [|a fvs IH]; intros [|w vs] LE; cbn [combine map]; try reflexivity; [cbn in LE; lia|].
  inversion N as [|? ? (N1 & N2 & N3) N']; subst. rewrite (IH N' vs) by (cbn in LE; lia). f_equal.
  unfold read_back. cbn [fst snd w_vertex shown_vertex v_x v_y v_z v_nx v_ny v_nz v_tu v_tv]. unfold shown. rewrite N1, N2, N3. destruct a; reflexivity.
Qed.
Theorem C55_frame : forall (L : json_lib) print parse name vs fs fvs bin_name fetch,
  no_nan_normals fvs -> (List.length fvs <= List.length vs)%nat ->
  (forall uri k, parse (print (gltf_json name (replace_vertices vs fvs) fs uri) ++ repeat x20 k) = Ok (gltf_json name (replace_vertices vs fvs) fs uri)) ->
  (zlen (write_glb print name (replace_vertices vs fvs) fs) < 4294967296 ->
   exists m, read_glb parse (write_glb print name (replace_vertices vs fvs) fs) = Ok m /\ gltf_frame m = fvs) /\
  (let files := write_gltf print name (replace_vertices vs fvs) fs bin_name in
   zlen (snd files) < 18446744073709551616 -> starts_with (lit "data:") bin_name = false -> fetch bin_name = Some (snd files) ->
   exists m, read_gltf parse (fst files) fetch = Ok m /\ gltf_frame m = fvs).
Proof.
  intros L print parse name vs fs fvs bin_name fetch N LE P. split.
  - intros SZ. rewrite read_glb_back; [|exact (replaced_len vs fvs)|exact SZ|exact (P None)]. eexists. split; [reflexivity|]. apply frame_back; assumption.
  - intros files SZ U FE. unfold files in *. rewrite read_gltf_back; [|exact (replaced_len vs fvs)|exact SZ| |exact U|exact FE].
    + eexists. split; [reflexivity|]. apply frame_back; assumption.
    + pose proof (P (Some bin_name) 0%nat) as P0. cbn [repeat] in P0. rewrite app_nil_r in P0. exact P0.
Qed.
Print Assumptions C55_frame.
Definition frame_ab : list frame_vertex := [mkFv f32_half f32_third f32_zero f32_zero f32_half f32_third; mkFv (Z_to_w32 0x7fc00001) f32_third f32_zero f32_zero f32_half f32_third].
Example C55_frame_case : no_nan_normals frame_ab /\ (List.length frame_ab <= List.length two_vertices)%nat /\
  gltf_frame (lit "Box", map read_back (replace_vertices two_vertices frame_ab), two_faces) = frame_ab.
Proof. split; [repeat constructor|]. split; [cbn; lia|]. vm_compute. reflexivity. Qed.

(** C55: the container is well formed: the header gives the length of the file, each chunk its own, both multiples of four *)
Theorem C55_container : forall (L : json_lib) print name vs fs, zlen (write_glb print name vs fs) < 4294967296 ->
  exists total json_length text spaces bin_length,
    write_glb print name vs fs =
      ([x67; x6c; x54; x46] ++ [x02; x00; x00; x00] ++ w32_bytes total) ++
      (w32_bytes json_length ++ [x4a; x53; x4f; x4e] ++ text ++ repeat x20 spaces) ++
      (w32_bytes bin_length ++ [x42; x49; x4e; x00] ++ gltf_bin vs fs) /\
    text = print (gltf_json name vs fs None) /\ (spaces < 4)%nat /\
    w32_to_Z total = zlen (write_glb print name vs fs) /\
    w32_to_Z json_length = zlen (text ++ repeat x20 spaces) /\ w32_to_Z json_length mod 4 = 0 /\
    w32_to_Z bin_length = zlen (gltf_bin vs fs) /\ w32_to_Z bin_length mod 4 = 0.
Proof.
  intros L print name vs fs S. pose proof (write_glb_length print name vs fs) as E. cbv zeta in E. rewrite E in S.
  pose proof (zlen_nonneg (print (gltf_json name vs fs None))). pose proof (zlen_nonneg (gltf_bin vs fs)). rewrite E.
  set (text := print (gltf_json name vs fs None)) in *.
  exists (Z_to_w32 (12 + 8 + (zlen text + Z.of_nat (padding (zlen text))) + 8 + zlen (gltf_bin vs fs))), (Z_to_w32 (zlen text + Z.of_nat (padding (zlen text)))), text, (padding (zlen text)), (Z_to_w32 (zlen (gltf_bin vs fs))).
  split; [unfold write_glb; cbv zeta; rewrite <- !app_assoc; reflexivity|]. split; [reflexivity|].
  split; [unfold padding; pose proof (Z.mod_pos_bound (4 - zlen text mod 4) 4); lia|]. rewrite !w32_to_Z_small by lia. split; [lia|].
  split; [rewrite zlen_app; f_equal; unfold zlen; rewrite repeat_length; reflexivity|]. split; [apply padding_spec|]. split; [reflexivity|]. apply gltf_bin_aligned.
Qed.
Print Assumptions C55_container.
Example C55_container_case : firstn 24 (write_glb (L := toy_json) box_print (lit "Box") two_vertices two_faces) =
  [x67; x6c; x54; x46; x02; x00; x00; x00; x6c; x00; x00; x00; x04; x00; x00; x00; x4a; x53; x4f; x4e; x7b; x7d; x20; x20].
Proof. vm_compute. reflexivity. Qed.

(** C55: a reader that follows the glTF specification (the scene, its node, the mesh, its attributes, their accessors, the buffer views)
    finds for each vertex its position, normal and texture coordinates as f32 numbers, and three indices for each face, of the width
    that is declared *)
Theorem C55_standard : forall (L : json_lib) name vs fs uri,
  let doc := gltf_json name vs fs uri in let bin := gltf_bin vs fs in
  field "name" (scene_mesh doc) = Some (Jstr name) /\
  attribute doc bin "POSITION" = Some (5126, lit "VEC3", zlen vs,
    flat_map (fun w => let v := w_vertex w in w32_bytes (v_x v) ++ w32_bytes (v_y v) ++ w32_bytes (v_z v)) vs) /\
  attribute doc bin "NORMAL" = Some (5126, lit "VEC3", zlen vs,
    flat_map (fun w => let v := shown_vertex (w_vertex w) in w32_bytes (v_nx v) ++ w32_bytes (v_ny v) ++ w32_bytes (v_nz v)) vs) /\
  attribute doc bin "TEXCOORD_0" = Some (5126, lit "VEC2", zlen vs, flat_map (fun w => let v := w_vertex w in w32_bytes (v_tu v) ++ w32_bytes (v_tv v)) vs) /\
  triangles doc bin = Some (
    if zlen vs <=? 65535
    then (5123, lit "SCALAR", 3 * zlen fs, flat_map (fun f => w16_bytes (Z_to_w16 (f_0 f)) ++ w16_bytes (Z_to_w16 (f_1 f)) ++ w16_bytes (Z_to_w16 (f_2 f))) fs)
    else (5125, lit "SCALAR", 3 * zlen fs, flat_map (fun f => w32_bytes (Z_to_w32 (f_0 f)) ++ w32_bytes (Z_to_w32 (f_1 f)) ++ w32_bytes (Z_to_w32 (f_2 f))) fs)) /\
  field "byteLength" (item 0 (field "buffers" (Some doc))) = Some (Jnum (NInt (zlen bin))).
Proof.
  intros L name vs fs uri doc bin. destruct (standard_ok name vs fs uri) as (A & B & C & D). split.
  { unfold doc. destruct (scene_mesh_ok name vs fs uri) as (more & ->). reflexivity. }
  split; [exact A|]. split; [exact B|]. split; [exact C|]. split; [|reflexivity].
  unfold doc, bin. rewrite D. unfold index_bytes. cbv zeta. replace (zlen vs <=? 65535) with (negb (65535 <? zlen vs)) by lia. rewrite (Z.mul_comm (zlen fs)).
  destruct (65535 <? zlen vs); reflexivity.
Qed.
Print Assumptions C55_standard.

(** C55: and the bounding box of the positions is exact: least and greatest x, y and z *)
Definition position_bounds {L : json_lib} (doc : json) (key : string) : option json := field key (item 0 (field "accessors" (Some doc))).
Theorem C55_bounds : forall (L : json_lib) name vs fs uri,
  (exists w, In w vs /\ f32_is_nan (v_x (w_vertex w)) = false) -> (exists w, In w vs /\ f32_is_nan (v_y (w_vertex w)) = false) ->
  (exists w, In w vs /\ f32_is_nan (v_z (w_vertex w)) = false) ->
  exists x0 y0 z0 x1 y1 z1,
    position_bounds (gltf_json name vs fs uri) "min" = Some (Jarr [jc_to jc_f32 x0; jc_to jc_f32 y0; jc_to jc_f32 z0]) /\
    position_bounds (gltf_json name vs fs uri) "max" = Some (Jarr [jc_to jc_f32 x1; jc_to jc_f32 y1; jc_to jc_f32 z1]) /\
    least v_x vs x0 /\ least v_y vs y0 /\ least v_z vs z0 /\ greatest v_x vs x1 /\ greatest v_y vs y1 /\ greatest v_z vs z1.
Proof.
  intros L name vs fs uri X Y Z. exists (low v_x vs), (low v_y vs), (low v_z vs), (high v_x vs), (high v_y vs), (high v_z vs).
  split; [reflexivity|]. split; [reflexivity|]. repeat split; first [apply low_least; assumption | apply high_greatest; assumption].
Qed.
Print Assumptions C55_bounds.
Example C55_bounds_case : (exists w, In w two_vertices /\ f32_is_nan (v_x (w_vertex w)) = false) /\
  position_bounds (L := toy_json) (gltf_json (lit "Box") two_vertices two_faces None) "min" =
    Some (Jarr [jc_to jc_f32 (low v_x two_vertices); jc_to jc_f32 (low v_y two_vertices); jc_to jc_f32 (low v_z two_vertices)]).
Proof. split; [exists vertex_a; split; [left; reflexivity|reflexivity]|reflexivity]. Qed.

(** C55: a GLB file that is cut off anywhere is never read as a mesh *)
Theorem C55_cut : forall (L : json_lib) print parse name vs fs k,
  zlen (write_glb print name vs fs) < 4294967296 -> (k < List.length (write_glb print name vs fs))%nat ->
  exists f, read_glb parse (firstn k (write_glb print name vs fs)) = Fail f.
Proof. intros L print parse name vs fs k. apply read_glb_cut. Qed.
Print Assumptions C55_cut.
(** Finding: but it need not be reported as an error; the program panics when the cut is inside of a chunk *)
Theorem C55_cut_error_refuted : exists (L : json_lib) print parse name vs fs k,
  read_glb parse (firstn k (write_glb print name vs fs)) = Panic.
Proof. exists toy_json, box_print, (box_parse None), (lit "Box"), two_vertices, two_faces, 90%nat. vm_compute. reflexivity. Qed.
Print Assumptions C55_cut_error_refuted.

(** Finding: the normals in the stored data come from the extras that this program writes, not from the normals in the file.  A file
    of another program has no such extras, and its mesh is stored with all normals 0. *)
Lemma map_res_forall {A B} (f : A -> res B) (Q : B -> Prop) l r : (forall a b, f a = Ok b -> Q b) -> map_res f l = Ok r -> Forall Q r.
Proof.
  intros H. revert r. induction l as [|a l IH]; intros r E; cbn [map_res] in E; [injection E as <-; constructor|].
  destruct (f a) as [b|] eqn:Ea; [|discriminate]. cbn [rbind] in E. destruct (map_res f l) as [r'|]; [|discriminate]. cbn [rbind] in E. injection E as <-.
  constructor; [exact (H _ _ Ea)|apply IH; reflexivity].
Qed.
Theorem C55_foreign_normals : forall (L : json_lib) j bin name vs fs, parse_gltf j bin = Ok (name, vs, fs) ->
  (forall l, member "vpx_normals" (member "extras" (element 0 (member "primitives" (element 0 (member "meshes" j))))) <> Jarr l) ->
  Forall (fun w => firstn 12 (skipn 12 (w_bytes w)) = repeat x00 12) vs.
Proof.
  intros L j bin name vs fs H N. unfold parse_gltf in H. destruct (as_array (member "accessors" j)) as [accs|]; [|discriminate]. destruct (as_array (member "bufferViews" j)) as [views|]; [|discriminate].
  replace (as_array (member "vpx_normals" _)) with (@None (list json)) in H
    by (destruct (member "vpx_normals" _) eqn:E; try reflexivity; exfalso; exact (N _ eq_refl)).
  cbv zeta in H. cbn [option_map] in H.
  repeat match type of H with
  | rbind ?e _ = Ok _ => let E := fresh "E" in destruct e eqn:E; [|discriminate]; cbn [rbind] in H
  | (let '(_, _) := ?p in _) = _ => destruct p
  end.
  injection H as _ <- _.
  match goal with E : map_res (read_gltf_vertex _ _ _ _ _) _ = Ok _ |- _ => revert E; apply map_res_forall end.
  intros i w. unfold read_gltf_vertex. cbv zeta. intros G.
  repeat match type of G with
  | rbind ?e _ = Ok _ => destruct e; [|discriminate]; cbn [rbind] in G
  | (let '(_, _) := ?p in _) = _ => destruct p
  end.
  injection G as <-. cbn [w_bytes]. repeat match goal with w : w32 |- _ => destruct w end. reflexivity.
Qed.
Print Assumptions C55_foreign_normals.
Definition without_extras {L : json_lib} (vs : list wrapper) : json :=
  Jobj [("meshes"%string, Jarr [Jobj [("name"%string, Jstr (lit "Box")); ("primitives"%string, Jarr [Jobj []])]]);
        ("accessors"%string, Jarr [accessor 0 5126 1 "VEC3" []; accessor 1 5126 1 "VEC3" []; accessor 2 5126 1 "VEC2" []; accessor 3 5123 3 "SCALAR" []]);
        ("bufferViews"%string, Jarr [view 0 12 34962; view 12 12 34962; view 24 8 34962; view 32 6 34963])].
(** It reads the normal of the vertex and stores another *)
Theorem C55_foreign_normals_refuted : exists (L : json_lib) j bin name w fs,
  parse_gltf j bin = Ok (name, [w], fs) /\ w_vertex w = w_vertex vertex_a /\ ~ stored_vertex w.
Proof.
  exists toy_json, (without_extras [vertex_a]), (gltf_bin [vertex_a] [mkFace 0 0 0]), (lit "Box").
  eexists. eexists. split; [vm_compute; reflexivity|]. split; [reflexivity|]. unfold stored_vertex. vm_compute. discriminate.
Qed.
Print Assumptions C55_foreign_normals_refuted.
(** Finding: nor does it store normals that were edited while the extras were kept *)
Theorem C55_edited_normals_refuted : exists (L : json_lib) name w w' fs,
  w_vertex w <> w_vertex w' /\ w_bytes w <> w_bytes w' /\
  exists r, parse_gltf (gltf_json name [w] fs None) (gltf_bin [w'] fs) = Ok (name, [r], fs) /\ w_vertex r = w_vertex w' /\ w_bytes r = w_bytes w.
Proof.
  exists toy_json, (lit "Box"), vertex_a, (vertex_of f32_third f32_zero f32_half f32_half f32_zero f32_third f32_half f32_third), [mkFace 0 0 0].
  split; [discriminate|]. split; [discriminate|]. eexists. split; [vm_compute; reflexivity|]. split; reflexivity.
Qed.
Print Assumptions C55_edited_normals_refuted.

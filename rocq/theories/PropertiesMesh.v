(** C34, C35, C36, C37 and C49: meshes, OBJ files and animation frames.

    The code is in Mesh.v; what the properties mean is in SpecMesh.v. *)
From Coq Require Import Floats.SpecFloat ZifyBool.
From Flocq Require IEEE754.BinarySingleNaN.
From Verif Require Import Base Text Image Sound Quantize ColorText JsonFloat Cfb Mesh SpecMesh SpecColor Common BaseFacts BiffFacts CommonFacts ColorFacts QuantizeMono FlipFacts MeshFacts ObjFacts ObjRoundTrip.

(** ** An instance of the oracles: numbers kept exactly, data not compressed *)
Definition exact32 (x : f32) : f64 := f64_of_f32 (f32_value x).
Definition exact64 (x : f64) : f64 := x.
Definition exact_digits (_ : nat) (x : f64) : f64 := x.
Definition seven (_ : f32) : nat := 7%nat.
Lemma exact_texts : number_texts exact32 exact64 Some.
Proof.
  constructor.
  - intros x N. exists (exact32 x). split; [reflexivity|]. unfold exact32. rewrite <- (b32_of_value x), widen_equiv.
    split; [destruct (widen (b32_of x)); try reflexivity; assumption|]. rewrite narrow_equiv. apply narrow_widen.
  - intros x _. eexists. reflexivity.
  - intros x. eexists. reflexivity.
  - vm_compute. reflexivity.
  - vm_compute. reflexivity.
Qed.
Definition stored (d : bytes) : res bytes := Ok d.
Definition same (d : bytes) : bytes := d.

(** ** C34: polygons *)
(** The triangles are the fans of the faces in the requested winding, each index refers to the corner's triple, combined corners are
    distinct and used, and every face has existing corners. *)
Theorem C34_triangulate : forall faces np nt nn reverse combined tris, Forall (Forall corner_u32) faces ->
  triangulate_and_dedup faces np nt nn reverse = Ok (combined, tris) ->
  Forall (good_face np nt nn) faces /\
  NoDup combined /\
  (forall k, 0 <= k < zlen combined -> Exists (fun f => uses f k) tris) /\
  map (corners_of combined) tris =
    map (fun t => let '(a, b, c) := t in (Some (triple_of a), Some (triple_of b), Some (triple_of c))) (surface reverse faces).
Proof.
  intros faces np nt nn reverse combined tris H E. unfold triangulate_and_dedup in E.
  destruct (triangulate_spec np nt nn reverse faces H) as [[G T]|[G T]]; rewrite T in E; [|discriminate]. cbn [rbind] in E. injection E as E.
  pose proof (dedup_spec (map triples (surface reverse faces)) [] (NoDup_nil _)) as D. rewrite E in D. destruct D as (N & _ & M & U).
  split; [exact G|]. split; [exact N|]. split; [exact U|]. rewrite M, map_map. apply map_ext. intros [[a b] c]. reflexivity.
Qed.
Print Assumptions C34_triangulate.
Definition quad : list corner := [mkCorner 1 1 1; mkCorner 2 2 1; mkCorner 3 3 1; mkCorner 4 4 1].
Example C34_triangulate_case :
  triangulate_and_dedup [quad; quad] 4 4 1 true =
    Ok ([(3, 3, 0); (2, 2, 0); (1, 1, 0); (0, 0, 0)], [mkFace 0 1 2; mkFace 0 2 3; mkFace 0 1 2; mkFace 0 2 3]).
Proof. vm_compute. reflexivity. Qed.

(** Faces are accepted exactly when they have three or more corners that all exist; everything else is an error (never a panic). *)
Theorem C34_accepted : forall faces np nt nn reverse, Forall (Forall corner_u32) faces ->
  (Forall (good_face np nt nn) faces -> exists c t, triangulate_and_dedup faces np nt nn reverse = Ok (c, t)) /\
  (~ Forall (good_face np nt nn) faces -> triangulate_and_dedup faces np nt nn reverse = Err).
Proof.
  intros faces np nt nn reverse H. unfold triangulate_and_dedup.
  destruct (triangulate_spec np nt nn reverse faces H) as [[G T]|[G T]]; rewrite T; cbn [rbind]; split; intros K; try contradiction.
  - destruct (dedup [] _) as [c t]. exists c, t. reflexivity.
  - reflexivity.
Qed.
Print Assumptions C34_accepted.
Example C34_accepted_case : triangulate_and_dedup [quad] 4 4 0 true = Err /\ ~ good_face 4 4 0 quad.
Proof. split; [vm_compute; reflexivity|]. intros [_ H]. inversion H as [|? ? (_ & _ & C) ?]. cbn in C. lia. Qed.

(** Reading any OBJ file: the corners of the mesh have the position, texture coordinate and normal of the corners of the fans of the file's
    faces. *)
Theorem C34_surface : forall (num : Type) (parse64 : num -> option f64) ls reverse r d,
  read_lines num parse64 ls reader_new = Ok r -> read_obj num parse64 ls reverse = Ok d ->
  map (fun f => (mesh_vertex d (f_0 f), mesh_vertex d (f_1 f), mesh_vertex d (f_2 f))) (o_faces d) =
  map (fun t => let '(a, b, c) := t in (file_vertex r a, file_vertex r b, file_vertex r c)) (surface reverse (r_faces r)).
Proof.
  intros num parse64 ls reverse r d H E.
  assert (O : r_objects r = 1).
  { unfold read_obj in E. rewrite H in E. cbn [rbind] in E. destruct (r_objects r =? 1) eqn:Q; [lia|discriminate]. }
  destruct (r_needs_normalize r) eqn:N.
  - destruct (read_obj_general parse64 ls reverse r H O N) as [(G & d' & l & E' & _ & T & PV & PT & PN)|[_ E']]; rewrite E' in E; [|discriminate].
    injection E as ->. pose proof (read_lines_ok parse64 _ _ _ reader_new_ok H) as [I _].
    destruct (C34_triangulate _ _ _ _ _ _ _ I T) as (_ & _ & _ & M).
    assert (P : forall i, mesh_vertex d i = match at_index l i with
              | Some (p, t, n) => (at_index (r_vertices r) p, at_index (r_tex r) t, at_index (r_normals r) n) | None => (None, None, None) end).
    { intros i. unfold mesh_vertex. rewrite PV, PT, PN. destruct (at_index l i) as [[[p t] n]|]; reflexivity. }
    revert M. clear T. generalize (surface reverse (r_faces r)). induction (o_faces d) as [|f fs IH]; intros [|[[a b] c] ts] M; cbn [map] in M; try discriminate; [reflexivity|].
    unfold corners_of in M. injection M as M1 M2 M3 M. cbn [map]. rewrite (IH _ M). f_equal. rewrite !P, M1, M2, M3. reflexivity.
  - destruct (read_obj_strict parse64 ls reverse r H O N) as (d' & E' & _ & V & T & NN & F). rewrite E' in E. injection E as ->.
    rewrite F, map_map. apply map_ext_in. intros [[a b] c] I. cbn [f_0 f_1 f_2].
    pose proof (read_lines_ok parse64 _ _ _ reader_new_ok H) as [_ M]. specialize (M N).
    pose proof (surface_in reverse (r_faces r) _ I) as S. cbv beta iota in S.
    destruct S as (f & Hf & Ha & Hb & Hc); [eapply Forall_impl; [|exact M]; cbv beta; intros f [Q _]; lia|].
    rewrite Forall_forall in M. destruct (M f Hf) as [_ Q]. rewrite Forall_forall in Q.
    assert (Z : forall x, matched x = true -> mesh_vertex d (c_v x - 1) = file_vertex r x).
    { intros x X. unfold matched in X. unfold mesh_vertex, file_vertex. rewrite V, T, NN. replace (c_vt x) with (c_v x) by lia. replace (c_vn x) with (c_v x) by lia. reflexivity. }
    rewrite !Z by (apply Q; assumption). reflexivity.
Qed.
Print Assumptions C34_surface.
Definition num_one : f64 := f64_one.
(** A square with one shared normal: the corners have different texture and normal indices *)
Definition square_file : list (line f64) :=
  [LObject (lit "a"); LVertex num_one num_one num_one None; LVertex num_one num_one num_one None; LVertex num_one num_one num_one None;
   LVertex num_one num_one num_one None; LTex num_one None None; LNormal num_one num_one num_one;
   LFace [(1, Some 1, Some 1); (2, Some 1, Some 1); (3, Some 1, Some 1); (4, Some 1, Some 1)]%N].
Example C34_surface_case : exists d, read_obj f64 Some square_file true = Ok d /\ o_faces d = [mkFace 0 1 2; mkFace 0 2 3] /\ List.length (o_normals d) = 4%nat.
Proof. eexists. split; [vm_compute; reflexivity|split; reflexivity]. Qed.

(** FINDING: when all faces are triangles whose three indices agree, indices are not checked: a file without any vertex is accepted as a mesh
    with a face. *)
Theorem C34_range_refuted : exists ls d, read_obj f64 Some ls true = Ok d /\ o_vertices d = [] /\ o_faces d = [mkFace 6 5 4].
Proof.
  exists [LObject (lit "a"); LFace [(5, Some 5, Some 5); (6, Some 6, Some 6); (7, Some 7, Some 7)]%N]. eexists.
  split; [vm_compute; reflexivity|split; reflexivity].
Qed.
Print Assumptions C34_range_refuted.

(** ** C35: comments *)
Theorem C35_round_trip : forall d,
  (List.length d = 32%nat -> obj_parse_vpx_comment (obj_vpx_comment d) = Ok (Some (VertexBytes d))) /\
  (List.length d = 12%nat -> obj_parse_vpx_comment (obj_vpx_comment d) = Ok (Some (NormalBytes d))).
Proof. intros d. rewrite parse_comment. split; intros ->; reflexivity. Qed.
Print Assumptions C35_round_trip.
Example C35_round_trip_case : obj_vpx_comment [x00; xff; x1a] = lit "vpx 00 ff 1a".
Proof. vm_compute. reflexivity. Qed.
(** In any file, the vertex of a normal that follows such a comment is stored as exactly these bytes, whatever the numbers of the file are. *)
Theorem C35_restored : forall (num : Type) (parse64 : num -> option f64) d x y z r r', List.length d = 32%nat ->
  read_lines num parse64 [LComment (obj_vpx_comment d); LNormal x y z] r = Ok r' ->
  exists n, r_normals r' = r_normals r ++ [n] /\ forall v, write_vertex v (n_bytes n) = d.
Proof.
  intros num parse64 d x y z r r' L H. cbn [read_lines read_line rbind] in H.
  destruct (parse_f32 num parse64 x); cbn [rbind] in H; [|discriminate]. destruct (parse_f32 num parse64 y); cbn [rbind] in H; [|discriminate].
  destruct (parse_f32 num parse64 z); cbn [rbind] in H; [|discriminate].
  cbn [r_comment] in H. rewrite parse_comment, L in H. cbn [Nat.eqb rbind] in H. injection H as <-. cbn [r_normals].
  eexists. split; [reflexivity|]. reflexivity.
Qed.
Print Assumptions C35_restored.
Example C35_restored_case : exists r', read_lines f64 Some [LComment (obj_vpx_comment (repeat xff 32)); LNormal f64_one f64_one f64_one] reader_new = Ok r'.
Proof. eexists. vm_compute. reflexivity. Qed.
(** FINDING: a comment that starts with "vpx " and has a word that is not a hexadecimal byte makes reading the file panic. *)
Theorem C35_panics_refuted : exists comment, forall (num : Type) (parse64 : num -> option f64) (n : num) v ls, parse64 n = Some v ->
  read_lines num parse64 ([LComment comment; LNormal n n n] ++ ls) reader_new = Panic.
Proof.
  exists (lit "vpx tool"). intros num parse64 n v ls E. cbn [app read_lines read_line rbind]. unfold parse_f32. rewrite E. cbn [rbind r_comment].
  assert (P : obj_parse_vpx_comment (lit "vpx tool") = Panic) by (vm_compute; reflexivity). rewrite P. reflexivity.
Qed.
Print Assumptions C35_panics_refuted.

(** ** C36: indices *)
Theorem C36_indices : forall num_vertices fs, 0 <= num_vertices <= 4294967296 -> Forall (face_within 0 (num_vertices - 1)) fs ->
  zlen (encode_faces num_vertices fs) = (if num_vertices <=? 65535 then 2 else 4) * 3 * zlen fs /\
  read_faces (negb (num_vertices <=? 65535)) (List.length fs) (encode_faces num_vertices fs) = Ok fs.
Proof.
  intros n fs Hn H. assert (W : negb (n <=? 65535) = wide_indices n) by (unfold wide_indices, MAX_VERTICES_FOR_2_BYTE_INDEX; lia).
  rewrite W. change (encode_faces n fs) with (flat_map (face_bytes (wide_indices n)) fs). split.
  - rewrite faces_len. destruct (n <=? 65535); rewrite <- W; cbn; lia.
  - rewrite <- (app_nil_r (flat_map _ fs)). apply read_faces_ok. eapply Forall_impl; [|exact H]. intros f (A & B & C).
    unfold wide_indices, MAX_VERTICES_FOR_2_BYTE_INDEX in *. repeat split; try lia; destruct (65535 <? n) eqn:E; lia.
Qed.
Print Assumptions C36_indices.
Example C36_indices_case : encode_faces 65535 [mkFace 65534 0 256] = [xfe; xff; x00; x00; x00; x01] /\
  encode_faces 65536 [mkFace 65535 0 256] = [xff; xff; x00; x00; x00; x00; x00; x00; x00; x01; x00; x00].
Proof. vm_compute. split; reflexivity. Qed.

(** A whole mesh stored and read *)
Theorem C36_mesh : forall decompress compress vs fs, (forall d, decompress (compress d) = Ok d) ->
  Forall stored_vertex vs -> Forall (face_within 0 (zlen vs - 1)) fs -> zlen vs < 4294967296 -> 3 * zlen fs < 4294967296 ->
  read_mesh decompress (mkMeshFields (Some (Z_to_w32 (zlen vs))) (Some (compress (flat_map w_bytes vs)))
                          (Some (Z_to_w32 (3 * zlen fs))) (Some (compress (encode_faces (zlen vs) fs)))) = Ok (Some (vs, fs)).
Proof.
  intros decompress compress vs fs Z S F NV NF. pose proof (zlen_nonneg vs). pose proof (zlen_nonneg fs).
  destruct (C36_indices (zlen vs) fs ltac:(lia) F) as [L R].
  unfold read_mesh. cbn [mf_vertices mf_indices mf_num_vertices mf_num_indices]. rewrite !Z. cbn [rbind].
  rewrite (vertices_len vs S). unfold BYTES_PER_VERTEX. rewrite (Z.mul_comm 32), Z.div_mul by lia.
  rewrite !w32_to_Z_small by lia. rewrite Z.eqb_refl. cbn [negb].
  assert (W : negb (zlen vs <=? 65535) = wide_indices (zlen vs)) by (unfold wide_indices, MAX_VERTICES_FOR_2_BYTE_INDEX; lia).
  assert (D : zlen (encode_faces (zlen vs) fs) / index_width (wide_indices (zlen vs)) = 3 * zlen fs).
  { rewrite L, <- W. destruct (zlen vs <=? 65535); cbn [negb index_width]; [rewrite <- Z.mul_assoc, Z.mul_comm|rewrite <- Z.mul_assoc, Z.mul_comm]; apply Z.div_mul; lia. }
  rewrite D, Z.eqb_refl. cbn [negb]. rewrite (Z.mul_comm 3), Z.div_mul by lia. unfold zlen at 1 3. rewrite !Nat2Z.id.
  rewrite <- (app_nil_r (flat_map w_bytes vs)), (read_vertices_ok vs [] S). cbn [rbind]. rewrite <- W, R. reflexivity.
Qed.
Print Assumptions C36_mesh.
(** A mesh for the examples *)
Definition f32_third : f32 := Z_to_w32 0x3eaaaaab.
Definition vertex_of (x y z nx ny nz tu tv : f32) : wrapper := let v := mkVtx x y z nx ny nz tu tv in mkWrapper (vertex_bytes v) v.
Definition vertex_a := vertex_of f32_third f32_zero f32_half f32_zero f32_half f32_third f32_half f32_third.
(* a NaN normal with a payload and a texture coordinate of -0 *)
Definition vertex_b := vertex_of f32_two f32_zero f32_half (Z_to_w32 0xffd15d71) f32_half f32_third f32_half (Z_to_w32 0x80000000).
Example C36_mesh_case : read_mesh stored (mkMeshFields (Some (Z_to_w32 2)) (Some (w_bytes vertex_a ++ w_bytes vertex_b)) (Some (Z_to_w32 3)) (Some [x00; x00; x01; x00; x01; x00])) =
  Ok (Some ([vertex_a; vertex_b], [mkFace 0 1 1])).
Proof. vm_compute. reflexivity. Qed.

(** FINDING: indices that do not make up a whole face are dropped by extracting a mesh and reading it back. *)
Theorem C36_partial_face_refuted : exists p vs fs p', read_mesh stored p = Ok (Some (vs, fs)) /\
  read_obj_and_compress f64 Some same (write_obj f64 exact32 exact64 exact_digits Some seven (lit "a") vs fs) = Ok p' /\
  mf_num_indices p = Some (Z_to_w32 4) /\ mf_num_indices p' = Some (Z_to_w32 3).
Proof.
  exists (mkMeshFields (Some (Z_to_w32 1)) (Some (w_bytes vertex_a)) (Some (Z_to_w32 4)) (Some (repeat x00 8))), [vertex_a], [mkFace 0 0 0].
  eexists. split; [vm_compute; reflexivity|]. split; [vm_compute; reflexivity|]. split; vm_compute; reflexivity.
Qed.
Print Assumptions C36_partial_face_refuted.

(** ** C49: meshes survive extraction to OBJ *)
(** Every vertex is stored again with its 32 bytes (NaN payloads, negative zeros, texture coordinates of any size included) and every face
    with its indices. *)
Theorem C49_obj : forall (num : Type) print32 print64 print64_digits (parse64 : num -> option f64) estimate,
  number_texts print32 print64 parse64 ->
  forall name vs fs, Forall stored_vertex vs -> Forall (face_within 0 4294967294) fs ->
  exists x, read_obj_from_reader num parse64 true (write_obj num print32 print64 print64_digits parse64 estimate name vs fs) = Ok x /\
    x_name x = name /\ x_vertices x = zlen vs /\ x_encoded x = flat_map w_bytes vs /\ x_faces x = fs.
Proof.
  intros num print32 print64 print64_digits parse64 estimate NT name vs fs S F.
  destruct (read_from_reader_written print32 print64 print64_digits parse64 estimate NT name vs fs S) as (x & E & A & B & C & D).
  exists x. split; [exact E|]. split; [exact A|]. split; [exact B|]. split; [exact D|]. rewrite C.
  rewrite <- (map_id fs) at 2. apply map_ext_in. intros f Hf. rewrite Forall_forall in F. apply face_back_same. exact (F f Hf).
Qed.
Print Assumptions C49_obj.
Example C49_obj_case : number_texts exact32 exact64 Some /\ Forall stored_vertex [vertex_a; vertex_b] /\ Forall (face_within 0 4294967294) [mkFace 0 1 1].
Proof. split; [exact exact_texts|]. split; [repeat constructor|]. repeat constructor; cbn; lia. Qed.

(** Any stored mesh that can be read at all is the same after writing its OBJ file and reading that file. *)
Theorem C49_mesh : forall (num : Type) print32 print64 print64_digits (parse64 : num -> option f64) estimate decompress compress,
  number_texts print32 print64 parse64 -> (forall d, decompress (compress d) = Ok d) ->
  forall p vs fs name, read_mesh decompress p = Ok (Some (vs, fs)) ->
  exists p', read_obj_and_compress num parse64 compress (write_obj num print32 print64 print64_digits parse64 estimate name vs fs) = Ok p' /\
    read_mesh decompress p' = Ok (Some (vs, fs)).
Proof.
  intros num print32 print64 print64_digits parse64 estimate decompress compress NT Z p vs fs name H.
  unfold read_mesh in H. destruct (mf_vertices p) as [vd|]; [|discriminate]. destruct (mf_indices p) as [id|]; [|discriminate].
  destruct (decompress vd) as [raw|]; [|discriminate]. cbn [rbind] in H. destruct (decompress id) as [inds|]; [|discriminate]. cbn [rbind] in H.
  set (n := zlen raw / BYTES_PER_VERTEX) in *. destruct (n =? _) eqn:E1; cbn [negb] in H; [|discriminate].
  set (k := zlen inds / index_width (wide_indices n)) in *. destruct (k =? _) eqn:E2; cbn [negb] in H; [|discriminate].
  destruct (read_vertices _ raw) as [vs'|] eqn:RV; [|discriminate]. cbn [rbind] in H. destruct (read_faces _ _ inds) as [fs'|] eqn:RF; [|discriminate].
  cbn [rbind] in H. injection H as -> ->.
  assert (Hn : 0 <= n < 4294967296).
  { destruct (mf_num_vertices p) as [w|]; [pose proof (w32_to_Z_range w); lia|lia]. }
  assert (Hk : 0 <= k < 4294967296).
  { destruct (mf_num_indices p) as [w|]; [pose proof (w32_to_Z_range w); lia|lia]. }
  apply read_vertices_stored in RV. destruct RV as [S LV]. apply read_faces_range in RF. destruct RF as [F LF].
  assert (ZV : zlen vs = n) by (unfold zlen; lia). assert (ZF : zlen fs = k / 3) by (unfold zlen; lia).
  clearbody n k. clear E1 E2.
  destruct (read_from_reader_written print32 print64 print64_digits parse64 estimate NT name vs fs S) as (x & E & _ & B & C & D).
  unfold read_obj_and_compress. rewrite E. cbn [rbind]. eexists. split; [reflexivity|].
  rewrite B, C, D. unfold read_mesh. cbn [mf_vertices mf_indices mf_num_vertices mf_num_indices]. rewrite !Z. cbn [rbind].
  assert (EB : encode_faces (zlen vs) (map face_back fs) = flat_map (face_bytes (wide_indices n)) fs).
  { unfold encode_faces. rewrite ZV. clear -F. induction fs as [|f fs IH]; [reflexivity|]. inversion F as [|? ? (F0 & F1 & F2) F']; subst.
    cbn [map flat_map]. rewrite (IH F'). f_equal. unfold face_bytes, face_back. cbn [f_0 f_1 f_2]. rewrite !write_index_back by assumption. reflexivity. }
  rewrite EB, (vertices_len vs S), ZV. unfold BYTES_PER_VERTEX. rewrite (Z.mul_comm 32), Z.div_mul by lia. rewrite (w32_to_Z_small n) by lia.
  rewrite Z.eqb_refl. cbn [negb]. rewrite faces_len.
  assert (WP : 0 < index_width (wide_indices n)) by (destruct (wide_indices n); cbn; lia).
  replace (3 * index_width (wide_indices n) * zlen fs) with (3 * zlen fs * index_width (wide_indices n)) by ring. rewrite Z.div_mul by lia.
  assert (ZM : zlen (map face_back fs) = zlen fs) by (unfold zlen; rewrite map_length; reflexivity). rewrite ZM.
  rewrite w32_to_Z_small by lia. replace (3 * zlen fs =? zlen fs * 3) with true by lia. cbn [negb]. rewrite (Z.mul_comm 3), Z.div_mul by lia.
  replace (Z.to_nat n) with (List.length vs) by lia. replace (Z.to_nat (zlen fs)) with (List.length fs) by (unfold zlen; lia).
  rewrite <- (app_nil_r (flat_map w_bytes vs)), (read_vertices_ok vs [] S). cbn [rbind].
  rewrite <- (app_nil_r (flat_map (face_bytes _) fs)), (read_faces_ok _ fs [] F). reflexivity.
Qed.
Print Assumptions C49_mesh.
Example C49_mesh_case : exists p', read_obj_and_compress f64 Some same (write_obj f64 exact32 exact64 exact_digits Some seven (lit "a") [vertex_a; vertex_b] [mkFace 0 1 1]) = Ok p' /\
  mf_vertices p' = Some (w_bytes vertex_a ++ w_bytes vertex_b).
Proof. eexists. split; vm_compute; reflexivity. Qed.

(** ** C37: animation frames *)
(** The stored form of a frame *)
Theorem C37_stored : forall decompress compress fvs, (forall d, decompress (compress d) = Ok d) ->
  zlen (compress (flat_map write_frame_vertex fvs)) < 4294967296 ->
  read_animation_frame decompress (compress (flat_map write_frame_vertex fvs)) (Z_to_w32 (zlen (compress (flat_map write_frame_vertex fvs)))) = Ok fvs.
Proof.
  intros decompress compress fvs Z L. unfold read_animation_frame. pose proof (zlen_nonneg (compress (flat_map write_frame_vertex fvs))).
  rewrite w32_to_Z_small by lia. rewrite Z.eqb_refl. cbn [negb]. rewrite Z. cbn [rbind]. rewrite frame_len, (Z.mul_comm 24), Z.div_mul by lia.
  unfold zlen. rewrite Nat2Z.id, <- (app_nil_r (flat_map _ fvs)). apply read_frame_vertices_ok.
Qed.
Print Assumptions C37_stored.
Example C37_stored_case : read_animation_frame stored (write_frame_vertex (mkFv f32_third f32_zero f32_half f32_two f32_zero f32_zero)) (Z_to_w32 24) =
  Ok [mkFv f32_third f32_zero f32_half f32_two f32_zero f32_zero].
Proof. vm_compute. reflexivity. Qed.

(** Frames written as OBJ files and read back: the same number of frames with the same vertices, when no number is NaN and no frame has more
    vertices than the mesh. *)
Theorem C37_files : forall (num : Type) print32 print64 print64_digits (parse64 : num -> option f64) estimate decompress compress,
  number_texts print32 print64 parse64 -> (forall d, decompress (compress d) = Ok d) ->
  forall name vs fs frames decoded,
  Forall2 (fun f d => read_animation_frame decompress (fst f) (snd f) = Ok d) frames decoded ->
  Forall (fun d => no_nan d /\ (List.length d <= List.length vs)%nat /\ zlen (compress (flat_map write_frame_vertex d)) < 4294967296) decoded ->
  exists files frames',
    write_frames num print32 print64 print64_digits parse64 estimate decompress name vs fs frames = Ok files /\
    read_frame_files num parse64 compress files = Ok frames' /\
    Forall2 (fun f d => read_animation_frame decompress (fst f) (snd f) = Ok d) frames' decoded.
Proof.
  intros num print32 print64 print64_digits parse64 estimate decompress compress NT Z name vs fs frames decoded H.
  induction H as [|[d n] fvs frames decoded H1 H2 IH]; intros F.
  - exists [], []. split; [reflexivity|]. split; [reflexivity|constructor].
  - inversion F as [|? ? (N & L & C) F2]; subst. destruct (IH F2) as (files & frames' & W & R & A). cbn [fst snd] in H1.
    eexists _, _. cbn [write_frames]. rewrite H1, W. cbn [rbind]. split; [reflexivity|]. cbn [read_frame_files].
    rewrite (read_frame_written print32 print64 print64_digits parse64 estimate NT name vs fs fvs N L). cbn [rbind]. rewrite R. cbn [rbind].
    split; [reflexivity|]. constructor; [|exact A]. cbn [fst snd]. apply C37_stored; assumption.
Qed.
Print Assumptions C37_files.
Definition frame_a := mkFv f32_third f32_zero f32_half f32_two f32_zero f32_zero.
Example C37_files_case : Forall2 (fun f d => read_animation_frame stored (fst f) (snd f) = Ok d) [(write_frame_vertex frame_a, Z_to_w32 24)] [[frame_a]] /\
  Forall (fun d => no_nan d /\ (List.length d <= List.length [vertex_a])%nat /\ zlen (same (flat_map write_frame_vertex d)) < 4294967296) [[frame_a]].
Proof. split; [repeat constructor|]. repeat constructor. Qed.

(** FINDING: a NaN in a frame is not kept (frames have no comment to restore it from): the normal becomes zero. *)
Theorem C37_nan_refuted : exists f d files frames' d', read_animation_frame stored (fst f) (snd f) = Ok [d] /\
  write_frames f64 exact32 exact64 exact_digits Some seven stored (lit "a") [vertex_a] [] [f] = Ok files /\
  read_frame_files f64 Some same files = Ok [frames'] /\ read_animation_frame stored (fst frames') (snd frames') = Ok [d'] /\
  f32_is_nan (fv_nx d) = true /\ fv_nx d' = f32_zero.
Proof.
  exists (write_frame_vertex (mkFv f32_third f32_zero f32_half (Z_to_w32 0xffd15d71) f32_zero f32_zero), Z_to_w32 24). do 4 eexists.
  split; [vm_compute; reflexivity|]. split; [vm_compute; reflexivity|]. split; [vm_compute; reflexivity|]. split; [vm_compute; reflexivity|]. split; vm_compute; reflexivity.
Qed.
Print Assumptions C37_nan_refuted.
(** FINDING: the vertices of a frame beyond those of the mesh are dropped without an error. *)
Theorem C37_extra_refuted : exists f files frames', read_animation_frame stored (fst f) (snd f) = Ok [frame_a; frame_a] /\
  write_frames f64 exact32 exact64 exact_digits Some seven stored (lit "a") [vertex_a] [] [f] = Ok files /\
  read_frame_files f64 Some same files = Ok [frames'] /\ read_animation_frame stored (fst frames') (snd frames') = Ok [frame_a].
Proof.
  exists (write_frame_vertex frame_a ++ write_frame_vertex frame_a, Z_to_w32 48). do 2 eexists.
  split; [vm_compute; reflexivity|]. split; [vm_compute; reflexivity|]. split; [vm_compute; reflexivity|]. vm_compute; reflexivity.
Qed.
Print Assumptions C37_extra_refuted.

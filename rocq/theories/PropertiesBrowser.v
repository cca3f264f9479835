(** C56: the meshes of the browser interface.

    The code is in Browser.v and Mesh.v; what the properties mean is in SpecBrowser.v. *)
From Coq Require Import Floats.SpecFloat ZifyBool.
From Verif Require Import Base Text Image Sound Quantize ColorText JsonFloat Cfb Mesh SpecMesh SpecColor Common BaseFacts BiffFacts CommonFacts ColorFacts FlipFacts MeshFacts ObjFacts ObjRoundTrip
  PropertiesMesh Browser SpecBrowser BrowserFacts.

(** An OBJ file is written exactly for arrays that describe a mesh; any others are an error, never a panic. *)
Theorem C56_written : forall (num : Type) print32 print64 print64_digits (parse64 : num -> option f64) estimate name positions tex_coords normals indices convert,
  let written := mesh_to_obj num print32 print64 print64_digits parse64 estimate name positions tex_coords normals indices convert in
  (mesh_arrays positions tex_coords normals indices -> exists ls, written = Ok ls) /\
  (~ mesh_arrays positions tex_coords normals indices -> written = Err).
Proof.
  intros num print32 print64 print64_digits parse64 estimate name p t m is c written. split; intros H.
  - destruct (mesh_arrays_parts _ _ _ _ H) as (vs & ts & -> & -> & -> & -> & R).
    destruct (mesh_to_obj_written print32 print64 print64_digits parse64 estimate name vs ts c R) as (k & E). eexists. exact E.
  - destruct (mesh_to_obj_total print32 print64 print64_digits parse64 estimate name p t m is c) as [[ls E]|E]; [|exact E].
    destruct (H (mesh_to_obj_ok _ _ _ _ _ _ _ _ _ _ _ _ E)).
Qed.
Print Assumptions C56_written.

(** Written and read with the same flag: the arrays are the same, bit for bit, for every mesh without NaN; when the coordinates are
    converted, for texture coordinates that survive being mirrored. *)
Theorem C56_round_trip : forall (num : Type) print32 print64 print64_digits (parse64 : num -> option f64) estimate,
  number_texts print32 print64 parse64 -> (forall v, (1 <= estimate v <= 17)%nat) ->
  forall name positions tex_coords normals indices convert ls,
  mesh_to_obj num print32 print64 print64_digits parse64 estimate name positions tex_coords normals indices convert = Ok ls ->
  zlen positions < 3 * 4294967296 -> numbers positions -> numbers tex_coords -> numbers normals ->
  (convert = true -> Forall (mirrored print32 print64_digits parse64) (seconds tex_coords)) ->
  obj_to_mesh num parse64 ls convert =
  Ok (mkPrimitiveMesh (match name with [] => lit "object" | _ => name end) positions tex_coords normals indices).
Proof.
  intros num print32 print64 print64_digits parse64 estimate NT B name p t m is c ls E L Np Nt Nm M.
  pose proof (mesh_to_obj_ok _ _ _ _ _ _ _ _ _ _ _ _ E) as A. destruct (mesh_arrays_parts _ _ _ _ A) as (vs & ts & -> & -> & -> & -> & R).
  destruct (mesh_to_obj_written print32 print64 print64_digits parse64 estimate name vs ts c R) as (k & E'). rewrite E' in E. injection E as <-.
  assert (ZV : zlen vs <= 4294967295) by (unfold zlen in *; rewrite (flat3_len xyz 3) in L by reflexivity; lia).
  destruct (read_mesh_back print32 print64 print64_digits parse64 estimate NT name k c vs ts) as (x & X & X1 & X2 & _ & X3 & _).
  - apply no_nan_vertices; assumption.
  - intros C. specialize (M C). unfold uv in M. rewrite seconds_map in M. rewrite Forall_map in M. eapply Forall_impl; [|exact M].
    intros v. apply mirrored_exact. apply B.
  - exact (small_range _ _ ZV R).
  - unfold obj_to_mesh. rewrite X. cbn [rbind]. rewrite X1, X2, X3, indices_back. reflexivity.
Qed.
Print Assumptions C56_round_trip.

(** The same file as the mesh of a primitive that is assembled: the stored mesh has these vertices and triangles. *)
Theorem C56_assembled : forall (num : Type) print32 print64 print64_digits (parse64 : num -> option f64) estimate decompress compress,
  number_texts print32 print64 parse64 -> (forall v, (1 <= estimate v <= 17)%nat) -> (forall d, decompress (compress d) = Ok d) ->
  forall name positions tex_coords normals indices ls,
  mesh_to_obj num print32 print64 print64_digits parse64 estimate name positions tex_coords normals indices true = Ok ls ->
  zlen positions < 3 * 4294967296 -> zlen indices < 4294967296 -> numbers positions -> numbers tex_coords -> numbers normals ->
  Forall (mirrored print32 print64_digits parse64) (seconds tex_coords) ->
  exists p vs fs, read_obj_and_compress num parse64 compress ls = Ok p /\ read_mesh decompress p = Ok (Some (vs, fs)) /\
    arrays_of name (map w_vertex vs) (corners_u32 fs) = mkPrimitiveMesh name positions tex_coords normals indices.
Proof.
  intros num print32 print64 print64_digits parse64 estimate decompress compress NT B Z name p t m is ls E L LI Np Nt Nm M.
  pose proof (mesh_to_obj_ok _ _ _ _ _ _ _ _ _ _ _ _ E) as A. destruct (mesh_arrays_parts _ _ _ _ A) as (vs & ts & -> & -> & -> & -> & R).
  destruct (mesh_to_obj_written print32 print64 print64_digits parse64 estimate name vs ts true R) as (k & E'). rewrite E' in E. injection E as <-.
  assert (ZV : zlen vs <= 4294967295) by (unfold zlen in *; rewrite (flat3_len xyz 3) in L by reflexivity; lia).
  destruct (read_mesh_back print32 print64 print64_digits parse64 estimate NT name k true vs ts) as (x & X & X1 & X2 & X4 & X3 & X5).
  - apply no_nan_vertices; assumption.
  - intros _. unfold uv in M. rewrite seconds_map in M. rewrite Forall_map in M. eapply Forall_impl; [|exact M].
    intros v. apply mirrored_exact. apply B.
  - exact (small_range _ _ ZV R).
  - unfold read_obj_and_compress. rewrite X. cbn [rbind]. rewrite X4, X3, X5.
    set (ws := map (fun v => mkWrapper (vertex_bytes v) v) vs).
    exists (mkMeshFields (Some (Z_to_w32 (zlen ws))) (Some (compress (flat_map w_bytes ws))) (Some (Z_to_w32 (3 * zlen (map face_of ts))))
              (Some (compress (encode_faces (zlen ws) (map face_of ts))))), ws, (map face_of ts).
    assert (ZW : zlen ws = zlen vs) by (unfold ws, zlen; rewrite map_length; reflexivity).
    assert (FW : flat_map w_bytes ws = flat_map vertex_bytes vs) by (unfold ws; clear; induction vs as [|v vs IH]; [reflexivity|]; cbn [map flat_map w_bytes]; f_equal; exact IH).
    assert (SW : Forall stored_vertex ws) by (unfold ws; rewrite Forall_map; apply Forall_forall; reflexivity).
    assert (MW : map w_vertex ws = vs) by (unfold ws; rewrite map_map; apply map_id).
    clearbody ws. split; [rewrite ZW, (Z.mul_comm 3); change (flat_map w_bytes ws) with (@flat_map wrapper byte w_bytes ws); rewrite FW; reflexivity|]. split.
    + apply C36_mesh; [exact Z| | | |].
      * exact SW.
      * rewrite ZW. rewrite Forall_map. eapply Forall_impl; [|exact R]. intros [[i j] q] Q. unfold in_range, three in Q.
        repeat match goal with H : Forall _ (_ :: _) |- _ => apply Forall_cons_iff in H; destruct H end.
        pose proof (w32_to_Z_range i). pose proof (w32_to_Z_range j). pose proof (w32_to_Z_range q). unfold face_within. cbn. lia.
      * lia.
      * unfold zlen in *. rewrite map_length. rewrite (flat3_len three 3) in LI by apply three_len. lia.
    + rewrite MW. unfold arrays_of, corners_u32. rewrite indices_back. reflexivity.
Qed.
Print Assumptions C56_assembled.

(** The OBJ file of an extracted mesh, read by the browser interface: the vertices and triangles of the mesh. *)
Theorem C56_extracted : forall (num : Type) print32 print64 print64_digits (parse64 : num -> option f64) estimate,
  number_texts print32 print64 parse64 -> (forall v, (1 <= estimate v <= 17)%nat) ->
  forall name vs fs, Forall stored_vertex vs -> Forall (face_within 0 4294967294) fs ->
  let m := arrays_of name (map w_vertex vs) (corners_u32 fs) in
  numbers (pm_positions m) -> numbers (pm_tex_coords m) -> numbers (pm_normals m) -> Forall (mirrored print32 print64_digits parse64) (seconds (pm_tex_coords m)) ->
  obj_to_mesh num parse64 (write_obj num print32 print64 print64_digits parse64 estimate name vs fs) true = Ok m.
Proof.
  intros num print32 print64 print64_digits parse64 estimate NT B name vs fs S F m Np Nt Nm M. cbn [m pm_positions pm_tex_coords pm_normals arrays_of] in Np, Nt, Nm, M.
  assert (NN : Forall no_nan_vertex (map w_vertex vs)) by (apply no_nan_vertices; assumption). rewrite Forall_map in NN.
  rewrite seconds_map in M. rewrite !Forall_map in M.
  unfold obj_to_mesh, read_obj_from_reader.
  rewrite (read_obj_written print32 print64 print64_digits parse64 estimate NT) by (eapply Forall_impl; [|exact S]; apply stored_len).
  cbn [rbind x_name x_final x_faces o_name o_faces]. unfold final_vertices. cbn [o_vertices o_tex o_normals]. rewrite combine_maps, !map_map.
  rewrite (map_ext_in _ w_vertex).
  - rewrite (map_ext_in face_back (fun f => f)); [rewrite map_id; reflexivity|]. intros f I. rewrite Forall_forall in F. apply face_back_same. exact (F f I).
  - intros w I. cbn [fst]. rewrite Forall_forall in NN, M. specialize (NN w I). specialize (M w I).
    pose proof (vertex_back print32 print64 print64_digits parse64 estimate NT true (w_vertex w) NN (fun _ => mirrored_exact _ _ _ _ _ _ (B _) M)) as V.
    transitivity (final_vertex true (pos_back print32 parse64 true (w_vertex w)) (tex_back print32 print64 print64_digits parse64 estimate true (w_vertex w)) (normal_back print32 parse64 true (w_vertex w))); [|exact V]. clear V. unfold final_vertex, position, tex, normal, pos_back, tex_back, normal_back, nan_zero, tex_v, vtext, ObjRoundTrip.fv. cbv zeta. cbn [sgn fst snd n_x n_y n_z].
    unfold no_nan_vertex in NN. repeat match goal with H : Forall _ (_ :: _) |- _ => apply Forall_cons_iff in H; destruct H end.
    repeat match goal with K : f32_is_nan _ = false |- _ => rewrite ?K; revert K end. intros. reflexivity.
Qed.
Print Assumptions C56_extracted.

(** Whatever file is read, the arrays describe the same number of vertices and whole triangles. *)
Theorem C56_aligned : forall (num : Type) (parse64 : num -> option f64) ls convert m, obj_to_mesh num parse64 ls convert = Ok m -> aligned_arrays m.
Proof.
  intros num parse64 ls c m H. unfold obj_to_mesh in H. destruct (read_obj_from_reader num parse64 c ls) as [x|]; [|discriminate]. cbn [rbind] in H. injection H as <-.
  exists (zlen (x_final x)), (zlen (x_faces x)). cbn [pm_positions pm_tex_coords pm_normals pm_indices]. unfold zlen.
  split; [|split; [|split]]; [rewrite (flat3_len _ 3)|rewrite (flat3_len _ 2)|rewrite (flat3_len _ 3)|rewrite (flat3_len _ 3)]; try reflexivity; lia.
Qed.
Print Assumptions C56_aligned.

(** A triangle whose texture coordinates are a third, seven tenths and three, away from the points at which a text is easy *)
Definition example_positions : list f32 := [f32_third; f32_zero; f32_half; f32_two; f32_zero; Z_to_w32 0x80000000; f32_half; f32_two; neg_f32 f32_third].
Definition example_tex : list f32 := [f32_half; f32_third; f32_zero; Z_to_w32 0x3f333333; f32_two; Z_to_w32 0x40400000].
Definition example_normals : list f32 := [f32_zero; f32_zero; f32_half; f32_zero; f32_zero; f32_two; f32_zero; f32_zero; f32_third].
Definition example_indices : list u32 := [Z_to_w32 0; Z_to_w32 2; Z_to_w32 1].
Example C56_arrays_case : mesh_arrays example_positions example_tex example_normals example_indices.
Proof. exists 3, 1. do 4 (split; [reflexivity|]). repeat (apply Forall_cons; [reflexivity|]). constructor. Qed.
Example C56_numbers_case : numbers example_positions /\ numbers example_tex /\ numbers example_normals.
Proof. unfold numbers. split; [|split]; (repeat (apply Forall_cons; [reflexivity|])); constructor. Qed.
Example C56_mirrored_case : Forall (mirrored exact32 exact_digits Some) (seconds example_tex).
Proof.
  apply Forall_cons; [|apply Forall_cons; [|apply Forall_cons; [|constructor]]]; (split; [vm_compute; reflexivity|]).
  - right. right. eexists. split; [reflexivity|]. vm_compute. reflexivity.
  - left. split; vm_compute; reflexivity.
  - right. left. eexists. split; [reflexivity|]. vm_compute. reflexivity.
Qed.
Example C56_round_trip_case : exists ls, mesh_to_obj f64 exact32 exact64 exact_digits Some seven (lit "a") example_positions example_tex example_normals example_indices true = Ok ls /\
  nth_error ls 8 = Some (LNormal (exact32 f32_zero) (exact32 f32_zero) (exact32 (neg_f32 f32_half))) /\
  nth_error ls 11 = Some (LFace [(2, Some 2, Some 2); (3, Some 3, Some 3); (1, Some 1, Some 1)]%N).
Proof. eexists. split; [vm_compute; reflexivity|]. split; vm_compute; reflexivity. Qed.
Example C56_written_case : mesh_to_obj f64 exact32 exact64 exact_digits Some seven [] example_positions example_tex example_normals [Z_to_w32 0; Z_to_w32 3; Z_to_w32 1] false = Err /\
  mesh_to_obj f64 exact32 exact64 exact_digits Some seven [] example_positions [] example_normals example_indices false = Err.
Proof. split; vm_compute; reflexivity. Qed.

(** FINDING: the documentation of [mesh_to_obj] says that a converted mesh is read back identically; a texture coordinate of -0 is read as
    0, because the coordinate is mirrored as [1 - v] and no comment keeps its bytes as the files of an extracted table do. *)
Theorem C56_identical_refuted : exists positions tex_coords normals indices ls m,
  number_texts exact32 exact64 Some /\ numbers positions /\ numbers tex_coords /\ numbers normals /\
  mesh_to_obj f64 exact32 exact64 exact_digits Some seven (lit "a") positions tex_coords normals indices true = Ok ls /\
  obj_to_mesh f64 Some ls true = Ok m /\ tex_coords = [f32_zero; Z_to_w32 0x80000000] /\ pm_tex_coords m = [f32_zero; f32_zero].
Proof.
  exists [f32_zero; f32_zero; f32_half], [f32_zero; Z_to_w32 0x80000000], [f32_zero; f32_zero; f32_half], []. do 2 eexists.
  split; [exact exact_texts|]. do 3 (split; [repeat (apply Forall_cons; [reflexivity|]); constructor|]).
  split; [vm_compute; reflexivity|]. split; [vm_compute; reflexivity|]. split; reflexivity.
Qed.
Print Assumptions C56_identical_refuted.
(** FINDING: the same for small numbers: 2^-66 is read as 0. *)
Theorem C56_small_refuted : exists positions tex_coords normals indices ls m,
  mesh_to_obj f64 exact32 exact64 exact_digits Some seven (lit "a") positions tex_coords normals indices true = Ok ls /\
  obj_to_mesh f64 Some ls true = Ok m /\ tex_coords = [f32_zero; Z_to_w32 0x1e800000] /\ pm_tex_coords m = [f32_zero; f32_zero].
Proof.
  exists [f32_zero; f32_zero; f32_half], [f32_zero; Z_to_w32 0x1e800000], [f32_zero; f32_zero; f32_half], []. do 2 eexists.
  split; [vm_compute; reflexivity|]. split; [vm_compute; reflexivity|]. split; reflexivity.
Qed.
Print Assumptions C56_small_refuted.
(** FINDING: indices that no vertex has come back from [obj_to_mesh] without an error; [mesh_to_obj] refuses the result. *)
Theorem C56_range_refuted : exists ls m, obj_to_mesh f64 Some ls false = Ok m /\ pm_positions m = [] /\ pm_indices m = [Z_to_w32 4; Z_to_w32 5; Z_to_w32 6] /\
  mesh_to_obj f64 exact32 exact64 exact_digits Some seven (pm_name m) (pm_positions m) (pm_tex_coords m) (pm_normals m) (pm_indices m) false = Err.
Proof.
  exists [LObject (lit "a"); LFace [(5, Some 5, Some 5); (6, Some 6, Some 6); (7, Some 7, Some 7)]%N]. eexists.
  split; [vm_compute; reflexivity|]. do 2 (split; [reflexivity|]). vm_compute. reflexivity.
Qed.
Print Assumptions C56_range_refuted.

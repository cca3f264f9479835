(** C57 and C58: built-in meshes, and the middle of a mesh.

    The code is in Builtin.v; what the properties mean is in SpecBuiltin.v. *)
From Coq Require Import Floats.SpecFloat ZifyBool Permutation.
From Verif Require Import Base Text Image Sound Quantize ColorText JsonFloat Cfb Mesh SpecMesh SpecColor Common BaseFacts BiffFacts CommonFacts ColorFacts FlipFacts MeshFacts ObjFacts ObjRoundTrip
  PropertiesMesh Browser SpecBrowser BrowserFacts PropertiesBrowser Builtin SpecBuiltin BuiltinFacts BuiltinReals.

(** ** C57: built-in meshes *)
Lemma some_pair {A B} (a c : A) (b d : B) : Some (a, b) = Some (c, d) -> c = a /\ d = b.
Proof. now injection 1 as <- <-. Qed.
Lemma wrapped b (a : Vtx) w : option_map (mkWrapper b) (Some a) = Some w -> w_vertex w = a.
Proof. now injection 1 as <-. Qed.
Lemma build_some sin cos sides inside vs fs : build_builtin sin cos sides inside = Some (vs, fs) ->
  3 <= w32_to_Z sides /\ vs = map (mkWrapper (repeat x00 32)) (builtin_vertices sin cos (w32_to_Z sides)) /\
  fs = flat_map (builtin_faces (w32_to_Z sides) inside) (steps (w32_to_Z sides)).
Proof.
  intros H. unfold build_builtin in H. destruct (w32_to_Z sides <? 3) eqn:N; [discriminate|]. apply some_pair in H. split; [lia|exact H].
Qed.
Theorem C57_shape : forall sin cos sides inside, let n := w32_to_Z sides in
  (n < 3 -> build_builtin sin cos sides inside = None) /\
  (3 <= n -> exists vs fs, build_builtin sin cos sides inside = Some (vs, fs) /\ zlen vs = 4 * n + 2 /\ zlen fs = (if inside then 8 else 4) * n).
Proof.
  intros sin cos sides inside n. unfold build_builtin. fold n. split; intros H.
  - replace (n <? 3) with true by lia. reflexivity.
  - replace (n <? 3) with false by lia. do 2 eexists. split; [reflexivity|]. split; [unfold zlen; rewrite map_length; apply vertices_len; exact H|apply faces_len; lia].
Qed.
Print Assumptions C57_shape.

(** Every triangle has three different vertices that exist, and every vertex is used. *)
Theorem C57_triangles : forall sin cos sides inside vs fs, build_builtin sin cos sides inside = Some (vs, fs) ->
  Forall (fun f => face_within 0 (zlen vs - 1) f /\ distinct_corners f) fs /\ (forall k, 0 <= k < zlen vs -> Exists (fun f => uses f k) fs).
Proof.
  intros sin cos sides inside vs fs H. apply build_some in H. destruct H as (N & -> & ->).
  assert (L : zlen (map (mkWrapper (repeat x00 32)) (builtin_vertices sin cos (w32_to_Z sides))) = 4 * w32_to_Z sides + 2) by (unfold zlen; rewrite map_length; apply vertices_len; lia).
  rewrite L. replace (4 * w32_to_Z sides + 2 - 1) with (4 * w32_to_Z sides + 1) by lia. split.
  - apply Forall_forall. intros f I. apply in_flat_map in I. destruct I as (i & I & F). apply steps_in in I. apply (faces_good _ i inside); [lia|exact I|exact F].
  - intros k K. apply vertex_used; lia.
Qed.
Print Assumptions C57_triangles.

(** The surface is closed: of the edges between places, each occurs once in each direction. *)
Theorem C57_closed : forall sin cos sides vs fs, build_builtin sin cos sides false = Some (vs, fs) ->
  closed_surface (map (places (w32_to_Z sides)) (edges fs)).
Proof.
  intros sin cos sides vs fs H. apply build_some in H. destruct H as (N & -> & ->).
  rewrite all_places by lia. apply surface_closed. lia.
Qed.
Print Assumptions C57_closed.
(** Vertices of one place are at one position, the upper ones at the height 0.5 and the lower ones at -0.5. *)
Theorem C57_positions : forall sin cos sides inside vs fs, build_builtin sin cos sides inside = Some (vs, fs) ->
  exists position, forall k, 0 <= k < zlen vs -> exists w, nth_error vs (Z.to_nat k) = Some w /\
    position_of (w_vertex w) = position (place_of (w32_to_Z sides) k) /\
    v_z (w_vertex w) = match place_of (w32_to_Z sides) k with TopCentre | Top _ => f32_half | BottomCentre | Bottom _ => f32_minus_half end.
Proof.
  intros sin cos sides inside vs fs H. apply build_some in H. destruct H as (N & -> & ->).
  exists (site sin cos (w32_to_Z sides)). intros k. unfold zlen. rewrite map_length. pose proof (vertices_len sin cos (w32_to_Z sides) ltac:(lia)) as L. unfold zlen in L. rewrite L. intros K.
  destruct (vertex_at sin cos (w32_to_Z sides) k ltac:(lia) K) as (v & E & P). exists (mkWrapper (repeat x00 32) v). rewrite nth_error_map, E. split; [reflexivity|]. cbn [w_vertex]. split; [exact P|].
  unfold position_of in P. destruct (place_of _ k); cbn in P; injection P; auto.
Qed.
Print Assumptions C57_positions.
(** With the inside drawn as well, each triangle is there a second time, turned over. *)
Theorem C57_inside : forall sin cos sides vs fs vs' fs', build_builtin sin cos sides false = Some (vs, fs) -> build_builtin sin cos sides true = Some (vs', fs') ->
  vs' = vs /\ Permutation fs' (fs ++ map turned fs).
Proof.
  intros sin cos sides vs fs vs' fs' H H'. apply build_some in H, H'. destruct H as (N & -> & ->). destruct H' as (_ & -> & ->).
  split; [reflexivity|]. apply inside_turned.
Qed.
Print Assumptions C57_inside.
(** In a browser: an error for fewer than three sides, and otherwise a mesh that [mesh_to_obj] writes. *)
Theorem C57_browser : forall sin cos sides inside, w32_to_Z sides < 1073741823 ->
  match generate_builtin sin cos sides inside with
  | Ok m => mesh_arrays (pm_positions m) (pm_tex_coords m) (pm_normals m) (pm_indices m) /\ 3 <= w32_to_Z sides
  | e => e = Err /\ w32_to_Z sides < 3
  end.
Proof.
  intros sin cos sides inside B. unfold generate_builtin. destruct (build_builtin sin cos sides inside) as [[vs fs]|] eqn:E.
  - destruct (C57_triangles _ _ _ _ _ _ E) as [T _]. destruct (C57_shape sin cos sides inside) as [S1 S2].
    destruct (Z_lt_le_dec (w32_to_Z sides) 3) as [N|N]; [rewrite (S1 N) in E; discriminate|]. destruct (S2 N) as (vs' & fs' & E' & LV & LF). rewrite E in E'. injection E' as <- <-.
    split; [|exact N]. cbn [pm_positions pm_tex_coords pm_normals pm_indices]. exists (zlen vs), (zlen fs). unfold zlen in *.
    split; [rewrite (flat3_len _ 3) by reflexivity; rewrite map_length; lia|]. split; [rewrite (flat3_len _ 2) by reflexivity; rewrite map_length; lia|].
    split; [rewrite (flat3_len _ 3) by reflexivity; rewrite map_length; lia|]. split; [rewrite (flat3_len _ 3) by reflexivity; lia|].
    rewrite Forall_flat_map. eapply Forall_impl; [|exact T]. intros f ((F0 & F1 & F2) & _). repeat (apply Forall_cons; [rewrite w32_to_Z_small by lia; lia|]). constructor.
  - split; [reflexivity|]. destruct (Z_lt_le_dec (w32_to_Z sides) 3) as [N|N]; [exact N|]. destruct (C57_shape sin cos sides inside) as [_ S2]. destruct (S2 N) as (vs & fs & E' & _). congruence.
Qed.
Print Assumptions C57_browser.
(** FINDING: the normals of the sides are documented to point outward; the radius is negative, so in neither direction do they point to the
    side of the axis on which their vertex is. *)
Theorem C57_inward_normals : forall sin cos sides inside vs fs i v, build_builtin sin cos sides inside = Some (vs, fs) ->
  above_zero (cos (div32 f32_pi (int32 (w32_to_Z sides)))) ->
  2 * w32_to_Z sides + 2 <= i < zlen vs -> nth_error vs (Z.to_nat i) = Some v ->
  (above_zero (v_nx (w_vertex v)) -> ~ above_zero (v_x (w_vertex v))) /\ (below_zero (v_nx (w_vertex v)) -> ~ below_zero (v_x (w_vertex v))) /\
  (above_zero (v_ny (w_vertex v)) -> ~ above_zero (v_y (w_vertex v))) /\ (below_zero (v_ny (w_vertex v)) -> ~ below_zero (v_y (w_vertex v))).
Proof.
  intros sin cos sides inside vs fs i v H C I E. apply build_some in H. destruct H as (N & -> & ->).
  set (n := w32_to_Z sides) in *. assert (L : zlen (map (mkWrapper (repeat x00 32)) (builtin_vertices sin cos n)) = 4 * n + 2) by (unfold zlen; rewrite map_length; apply vertices_len; lia).
  rewrite L in I. rewrite nth_error_map in E.
  assert (K : exists k, 0 <= k < n /\ (i = 2 * n + 2 + k \/ i = 3 * n + 2 + k)).
  { destruct (Z_lt_le_dec i (3 * n + 2)); [exists (i - (2 * n + 2))|exists (i - (3 * n + 2))]; lia. }
  destruct K as (k & K & D). destruct (side_vertex sin cos n k ltac:(lia) K) as (a & b & A & B & X & Y & NX & NY & WX & WY & PX & PY).
  destruct (radius_signed cos n C) as [R RN].
  assert (V : v_x (w_vertex v) = ring_x sin cos n k /\ v_y (w_vertex v) = ring_y cos n k /\ v_nx (w_vertex v) = sin (ring_angle n k) /\ v_ny (w_vertex v) = cos (ring_angle n k)).
  { destruct D as [-> | ->]; [rewrite A in E|rewrite B in E]; apply wrapped in E; rewrite E, ?WX, ?WY, ?PX, ?PY; exact (conj X (conj Y (conj NX NY))). }
  destruct V as (-> & -> & -> & ->).
  destruct (opposite_signs (sin (ring_angle n k)) (outer_radius cos n) (ring_x sin cos n k) R RN eq_refl).
  destruct (opposite_signs (cos (ring_angle n k)) (outer_radius cos n) (ring_y cos n k) R RN eq_refl). repeat split; assumption.
Qed.
Print Assumptions C57_inward_normals.

(** A prism with four sides; sine and cosine are only looked up where they are needed: at a quarter of the way around and between. *)
Definition sine (x : f32) : f32 := if w32_eqb x f32_pi then f32_zero else f32_half.
Definition cosine (x : f32) : f32 := f32_half.
Example C57_shape_case : exists vs fs, build_builtin sine cosine (Z_to_w32 4) true = Some (vs, fs) /\ zlen vs = 18 /\ zlen fs = 32 /\ nth_error fs 25 = Some (mkFace 5 9 6).
Proof. eexists _, _. split; [reflexivity|]. split; [vm_compute; reflexivity|]. split; [vm_compute; reflexivity|]. vm_compute. reflexivity. Qed.
Example C57_inward_normals_case : above_zero (cosine (div32 f32_pi (int32 4))) /\
  exists v, nth_error (builtin_vertices sine cosine 4) 11 = Some v /\ above_zero (v_nx v) /\ below_zero (v_x v).
Proof. split; [vm_compute; reflexivity|]. eexists. split; [reflexivity|]. split; vm_compute; reflexivity. Qed.

(** ** C58: the middle of a mesh *)
Lemma on_axis_in k ts x : (k < 3)%nat -> on_axis k (flat_map three ts) x <-> In x (map (nth_of k) ts).
Proof.
  intros K. unfold on_axis. induction ts as [|[[a b] c] ts IH].
  - split; [intros (j & E); destruct (3 * j + k)%nat; discriminate|intros []].
  - cbn [map In flat_map three app]. rewrite <- IH. split.
    + intros ([|j] & E).
      * left. destruct k as [|[|[|k]]]; cbn in E |- *; congruence || lia.
      * right. exists j. replace (3 * S j + k)%nat with (S (S (S (3 * j + k)))) in E by lia. exact E.
    + intros [<-|(j & E)].
      * exists 0%nat. destruct k as [|[|[|k]]]; try reflexivity. lia.
      * exists (S j). replace (3 * S j + k)%nat with (S (S (S (3 * j + k)))) by lia. exact E.
Qed.
Theorem C58_midpoint : forall positions vertices k, numbers positions -> positions <> [] -> zlen positions = 3 * vertices -> (k < 3)%nat ->
  exists low high, least_on (on_axis k positions) low /\ greatest_on (on_axis k positions) high /\
    nth_of k (midpoint positions) = mul32 (add32 low high) f32_half /\
    (lt32 (Z_to_w32 0xff000000) low = true -> lt32 high (Z_to_w32 0x7f000000) = true ->
     le32 low (nth_of k (midpoint positions)) /\ le32 (nth_of k (midpoint positions)) high).
Proof.
  intros ps n k N NE L K. destruct (triples_of (Z.to_nat n) ps) as (ts & -> & LT); [unfold zlen in L; lia|].
  set (l := map (nth_of k) ts).
  assert (NL : l <> []) by (unfold l; destruct ts; [destruct (NE eq_refl)|discriminate]).
  assert (FL : Forall (fun x => f32_is_nan x = false) l).
  { apply Forall_forall. intros x I. apply (on_axis_in k ts x K) in I. destruct I as (j & E). apply nth_error_In in E. unfold numbers in N. rewrite Forall_forall in N. exact (N x E). }
  assert (M : nth_of k (midpoint (flat_map three ts)) = axis_mid l).
  { unfold midpoint. rewrite chunks3_three. unfold l. destruct ts as [|[[a b] c] ts]; [destruct (NE eq_refl)|]. cbn [flat_map three app].
    destruct k as [|[|[|k]]]; try lia; cbn [nth_of]; f_equal; apply map_ext; intros [[? ?] ?]; reflexivity. }
  destruct (ring_min_spec l NL FL) as [I1 L1]. destruct (ring_max_spec l NL FL) as [I2 L2].
  exists (ring_min l), (ring_max l). split; [split; [apply (on_axis_in k ts _ K), I1|intros x X; apply L1, (on_axis_in k ts x K), X]|].
  split; [split; [apply (on_axis_in k ts _ K), I2|intros x X; apply L2, (on_axis_in k ts x K), X]|].
  rewrite M. split; [reflexivity|]. intros A B. unfold axis_mid. apply between; [apply L1, I2|exact A|exact B].
Qed.
Print Assumptions C58_midpoint.
Example C58_midpoint_case : numbers example_positions /\ zlen example_positions = 3 * 3 /\ midpoint example_positions = (Z_to_w32 0x3f955555, f32_one, Z_to_w32 0x3daaaaaa).
Proof. split; [apply C56_numbers_case|]. split; [reflexivity|]. vm_compute. reflexivity. Qed.
(** No vertices: the origin *)
Example C58_empty_case : midpoint [] = (f32_zero, f32_zero, f32_zero).
Proof. reflexivity. Qed.
(** FINDING: the sum is rounded before it is halved, so the middle of a mesh around 2^127 is infinite. *)
Theorem C58_overflow_refuted : exists positions, numbers positions /\ zlen positions = 3 /\ Forall (fun x => lt32 x (f32_inf false) = true) positions /\
  nth_of 0 (midpoint positions) = f32_inf false.
Proof.
  exists [Z_to_w32 0x7f000000; f32_zero; f32_zero]. split; [repeat (apply Forall_cons; [reflexivity|]); constructor|]. split; [reflexivity|].
  split; [repeat (apply Forall_cons; [vm_compute; reflexivity|]); constructor|]. vm_compute. reflexivity.
Qed.
Print Assumptions C58_overflow_refuted.

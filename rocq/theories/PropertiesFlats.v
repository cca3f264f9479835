(** C67: flat meshes: flashers, the inserts of lights, and decals.

    The code is in Flats.v; what the property means is in SpecFlats.v. *)
From Coq Require Import Reals Lra Floats.SpecFloat ZifyBool.
From Verif Require Import Base Text Json Image Sound Quantize QuantizeMono ColorText Cfb JsonFloat Mesh SpecMesh Browser Common Enums ItemWall ItemFlasher ItemLight ItemDecal Builtin SpecBuiltin BuiltinFacts Polygon SpecPolygon PolygonFacts PropertiesPolygon Smooth SpecSmooth PropertiesSmooth Walls SpecWalls WallsFacts WallsReals PropertiesWalls RubberMesh RubberReals PropertiesRubber FloatBounds Ramps SpecRamps RampReals PropertiesRamps Transform TransformReals Flats SpecFlats FlatReals.
Local Open Scope Z_scope.

(** ** When there is a mesh *)
Definition moderate_points (l : list DragPoint) : Prop := Forall (fun p => Forall moderate (flat_coordinates p)) l.
(** The functions return, on every outline within bounds, however deep the curve is divided. *)
Theorem C67_total : forall sin cos f l td, moderate_points (Flasher_drag_points f) -> moderate_points (Light_drag_points l) ->
  exists m n, forall depth, (151 <= depth)%nat -> build_flasher_mesh sin cos depth f td = Ok m /\ build_light_insert_mesh depth l td = Ok n.
Proof.
  intros sin cos f l td MF ML. destruct (C60_ends _ f32_four true MF eq_refl) as (ps & GP). destruct (C60_ends _ f32_four true ML eq_refl) as (qs & GQ).
  destruct (C59_total triangulate_flasher (map flat_point ps) (or_intror eq_refl)) as (ts & TP). destruct (C59_total triangulate_flasher (map flat_point qs) (or_intror eq_refl)) as (us & TQ).
  assert (A : exists m, forall depth, (151 <= depth)%nat -> build_flasher_mesh sin cos depth f td = Ok m).
  { eexists. intros depth D. unfold build_flasher_mesh. destruct (GP depth D) as [-> _]. cbn [rbind]. rewrite TP. cbn [rbind]. cbv zeta.
    instantiate (1 := if (List.length (Flasher_drag_points f) <? 3)%nat then None else if (List.length ps <? 3)%nat then None else if is_empty ts then None else _). destruct (_ <? _)%nat; [reflexivity|]. destruct (_ <? _)%nat; [reflexivity|]. destruct (is_empty ts); reflexivity. }
  assert (B : exists n, forall depth, (151 <= depth)%nat -> build_light_insert_mesh depth l td = Ok n).
  { eexists. intros depth D. unfold build_light_insert_mesh. destruct (GQ depth D) as [-> _]. cbn [rbind]. rewrite TQ. cbn [rbind]. cbv zeta.
    instantiate (1 := if (Light_is_backglass l || (List.length (Light_drag_points l) <? 3)%nat) then None else if (List.length qs <? 3)%nat then None else if is_empty us then None else _). destruct (Light_is_backglass l || _); [reflexivity|]. destruct (_ <? _)%nat; [reflexivity|]. destruct (is_empty us); reflexivity. }
  destruct A as (m & A). destruct B as (n & B). exists m, n. intros depth D. split; [apply A, D|apply B, D].
Qed.
Print Assumptions C67_total.
(** There is no mesh when there are fewer than three drag points, when the outline has fewer than three vertices, when no triangle was cut off, and for a light of the backglass. *)
Theorem C67_none : forall fuel points,
  (forall sin cos f td, get_vertices fuel (Flasher_drag_points f) f32_four true = Ok points ->
     (build_flasher_mesh sin cos fuel f td = Ok None <-> zlen (Flasher_drag_points f) < 3 \/ zlen points < 3 \/ triangulate_flasher (map flat_point points) = Ok [])) /\
  (forall l td, get_vertices fuel (Light_drag_points l) f32_four true = Ok points ->
     (build_light_insert_mesh fuel l td = Ok None <-> Light_is_backglass l = true \/ zlen (Light_drag_points l) < 3 \/ zlen points < 3 \/ triangulate_flasher (map flat_point points) = Ok [])).
Proof.
  intros fuel points. destruct (C59_total triangulate_flasher (map flat_point points) (or_intror eq_refl)) as (ts & T). split.
  - intros sin cos f td G. unfold build_flasher_mesh, zlen. destruct (_ <? 3)%nat eqn:D1; [split; [left; lia|reflexivity]|]. rewrite G. cbn [rbind]. destruct (List.length points <? 3)%nat eqn:D2; [split; [right; left; lia|reflexivity]|]. rewrite T. cbn [rbind]. cbv zeta.
    destruct ts as [|t ts]; cbn [is_empty]; [split; auto|]. split; [discriminate|]. intros [L|[L|L]]; [lia|lia|discriminate].
  - intros l td G. unfold build_light_insert_mesh, zlen. destruct (Light_is_backglass l) eqn:B; [split; auto|]. cbn [orb]. destruct (_ <? 3)%nat eqn:D1; [split; [right; left; lia|reflexivity]|]. rewrite G. cbn [rbind]. destruct (List.length points <? 3)%nat eqn:D2; [split; [right; right; left; lia|reflexivity]|]. rewrite T. cbn [rbind]. cbv zeta.
    destruct ts as [|t ts]; cbn [is_empty]; [split; auto|]. split; [discriminate|]. intros [L|[L|[L|L]]]; [discriminate|lia|lia|discriminate].
Qed.
Print Assumptions C67_none.

(** ** What they make *)
Definition flasher_box (f : Flasher) (td : TableDimensions) (points : list RenderVertex) : f32 * f32 * f32 * f32 :=
  match Flasher_image_alignment f with
  | RampImageAlignment_World => (td_left td, td_right td, td_top td, td_bottom td)
  | _ => (smallest (map rv_x points), largest (map rv_x points), smallest (map rv_y points), largest (map rv_y points))
  end.
Definition flasher_middle (part : RenderVertex -> f32) (points : list RenderVertex) : f32 := mul32 (add32 (smallest (map part points)) (largest (map part points))) f32_half.
Definition light_middle (part : RenderVertex -> f32) (points : list RenderVertex) : f32 := mul32 (add32 (fold_left min32 (map part points) f32_largest) (fold_left max32 (map part points) f32_lowest)) f32_half.
Definition light_texture (l : Light) (td : TableDimensions) (points : list RenderVertex) (p : RenderVertex) : f32 * f32 :=
  let inv := inverse_distance (max_distance (Light_center l) points) in
  if negb (is_empty (Light_image l))
  then (mul32 (rv_x p) (inverse_table (td_left td) (td_right td)), mul32 (rv_y p) (inverse_table (td_top td) (td_bottom td)))
  else (add32 f32_half (mul32 (sub32 (rv_x p) (v2_x (Light_center l))) inv), add32 f32_half (mul32 (sub32 (rv_y p) (v2_y (Light_center l))) inv)).
Definition light_vertex (l : Light) (td : TableDimensions) (points : list RenderVertex) (p : RenderVertex) : Vtx :=
  mkVtx (sub32 (rv_x p) (light_middle rv_x points)) (sub32 (rv_y p) (light_middle rv_y points)) f32_zero f32_zero f32_zero f32_one (fst (light_texture l td points p)) (snd (light_texture l td points p)).
Lemma flasher_parts sin cos fuel f td points vs fs c : get_vertices fuel (Flasher_drag_points f) f32_four true = Ok points -> build_flasher_mesh sin cos fuel f td = Ok (Some (vs, fs, c)) ->
  triangulate_flasher (map flat_point points) = Ok fs /\ 3 <= zlen points /\ fs <> [] /\ c = mkVec3 (flasher_middle rv_x points) (flasher_middle rv_y points) (Flasher_height f) /\
  vs = map wrap (turn_flat sin cos (let '(xl, xh, yl, yh) := flasher_box f td points in map (flasher_vertex xl xh yl yh) points) (Flasher_rot_x f) (Flasher_rot_y f) (Flasher_rot_z f) (flasher_middle rv_x points) (flasher_middle rv_y points)).
Proof.
  intros G H. unfold build_flasher_mesh in H. destruct (_ <? 3)%nat; [discriminate|]. rewrite G in H. cbn [rbind] in H. destruct (List.length points <? 3)%nat eqn:N; [discriminate|]. cbv zeta in H.
  destruct (triangulate_flasher (map flat_point points)) as [ts|e]; cbn [rbind] in H; [|discriminate]. destruct ts as [|t ts]; cbn [is_empty] in H; [discriminate|].
  match type of H with Ok (Some (?a, ?b, ?d)) = _ => assert (E : a = vs /\ b = fs /\ d = c) by (injection H; auto) end. clear H. destruct E as (<- & <- & <-).
  split; [reflexivity|]. split; [unfold zlen; lia|]. split; [discriminate|]. split; [reflexivity|]. unfold flasher_box. destruct (Flasher_image_alignment f); reflexivity.
Qed.
Lemma light_parts fuel l td points vs fs c : get_vertices fuel (Light_drag_points l) f32_four true = Ok points -> build_light_insert_mesh fuel l td = Ok (Some (vs, fs, c)) ->
  triangulate_flasher (map flat_point points) = Ok fs /\ 3 <= zlen points /\ fs <> [] /\ c = mkVec3 (light_middle rv_x points) (light_middle rv_y points) f32_zero /\ vs = map (fun p => wrap (light_vertex l td points p)) points.
Proof.
  intros G H. unfold build_light_insert_mesh in H. destruct (Light_is_backglass l || _); [discriminate|]. rewrite G in H. cbn [rbind] in H. destruct (List.length points <? 3)%nat eqn:N; [discriminate|]. cbv zeta in H.
  destruct (triangulate_flasher (map flat_point points)) as [ts|e]; cbn [rbind] in H; [|discriminate]. destruct ts as [|t ts]; cbn [is_empty] in H; [discriminate|].
  match type of H with Ok (Some (?a, ?b, ?d)) = _ => assert (E : a = vs /\ b = fs /\ d = c) by (injection H; auto) end. clear H. destruct E as (<- & <- & <-).
  split; [reflexivity|]. split; [unfold zlen; lia|]. split; [discriminate|]. split; [reflexivity|]. apply map_ext. intros p. unfold light_vertex, light_texture. cbv zeta. destruct (negb (is_empty (Light_image l))); reflexivity.
Qed.
Lemma turn_len sin cos vs a b c x y : List.length (turn_flat sin cos vs a b c x y) = List.length vs.
Proof. unfold turn_flat. destruct (_ && _); cbv zeta; apply map_length. Qed.
(** A mesh has one vertex for each vertex of the outline, with its bytes; and the triangles are those cut from the outline, so their corners are vertices. *)
Theorem C67_mesh : forall fuel points vs fs c td,
  ((exists sin cos f, get_vertices fuel (Flasher_drag_points f) f32_four true = Ok points /\ build_flasher_mesh sin cos fuel f td = Ok (Some (vs, fs, c))) \/
   (exists l, get_vertices fuel (Light_drag_points l) f32_four true = Ok points /\ build_light_insert_mesh fuel l td = Ok (Some (vs, fs, c)))) ->
  zlen vs = zlen points /\ Forall stored_vertex vs /\ triangulate_flasher (map flat_point points) = Ok fs /\ fs <> [] /\ Forall (face_within 0 (zlen vs - 1)) fs /\ Forall distinct_corners fs.
Proof.
  intros fuel points vs fs c td H.
  assert (X : zlen vs = zlen points /\ Forall stored_vertex vs /\ triangulate_flasher (map flat_point points) = Ok fs /\ fs <> []).
  { destruct H as [(sin & cos & f & G & H)|(l & G & H)].
    - destruct (flasher_parts _ _ _ _ _ _ _ _ _ G H) as (T & _ & NE & _ & ->). split; [|split; [|auto]].
      + unfold zlen. rewrite map_length, turn_len. destruct (flasher_box f td points) as [[[xl xh] yl] yh]. rewrite map_length. reflexivity.
      + apply Forall_forall. intros w W. apply in_map_iff in W. destruct W as (x & <- & _). apply wrap_stored.
    - destruct (light_parts _ _ _ _ _ _ _ G H) as (T & _ & NE & _ & ->). split; [|split; [|auto]].
      + unfold zlen. rewrite map_length. reflexivity.
      + apply Forall_forall. intros w W. apply in_map_iff in W. destruct W as (x & <- & _). apply wrap_stored. }
  destruct X as (L & S & T & NE). split; [exact L|]. split; [exact S|]. split; [exact T|]. split; [exact NE|].
  destruct (C59_triangles _ _ _ (or_intror eq_refl) T) as [_ F]. replace (zlen (map flat_point points)) with (zlen vs) in F by (rewrite L; unfold zlen; rewrite map_length; reflexivity). rewrite Forall_forall in F.
  split; apply Forall_forall; intros x X; apply (F x X).
Qed.
Print Assumptions C67_mesh.

(** ** The place of the mesh *)
Lemma points_bounded fuel dps points : moderate_points dps -> get_vertices fuel dps f32_four true = Ok points -> Forall (within 54) (map rv_x points) /\ Forall (within 54) (map rv_y points).
Proof.
  intros M G. pose proof (vertices_bounded _ _ _ _ _ M G) as F. rewrite Forall_forall in F. split; apply Forall_forall; intros x X; apply in_map_iff in X; destruct X as (p & <- & X); apply (F p X).
Qed.
Lemma box_middle_of lo hi l : box_of lo hi l -> Forall (within 54) l -> within 54 (mul32 (add32 lo hi) f32_half) /\ in_the_middle (mul32 (add32 lo hi) f32_half) l.
Proof.
  intros (IL & IH & B) F. rewrite Forall_forall in F. destruct (middle_close lo hi (F _ IL) (F _ IH)) as [W E]. split; [exact W|]. exists lo, hi. split; [exact IL|]. split; [exact IH|].
  rewrite (real_val lo), (real_val hi), (real_val _ (proj1 W)) by (apply F; assumption). split; [|exact E]. intros x X. rewrite (real_val x) by (apply F, X). apply B, X.
Qed.
Lemma map_some {A B} (f : A -> B) l : 3 <= zlen l -> map f l <> [].
Proof. destruct l; [unfold zlen; cbn; lia|discriminate]. Qed.
Lemma flasher_middle_of fuel dps points : moderate_points dps -> get_vertices fuel dps f32_four true = Ok points -> 3 <= zlen points ->
  (within 54 (flasher_middle rv_x points) /\ in_the_middle (flasher_middle rv_x points) (map rv_x points)) /\ (within 54 (flasher_middle rv_y points) /\ in_the_middle (flasher_middle rv_y points) (map rv_y points)).
Proof.
  intros M G N. destruct (points_bounded _ _ _ M G) as [X Y]. split; (apply box_middle_of; [apply box_flasher; [apply map_some, N|assumption]|assumption]).
Qed.
Lemma light_middle_of fuel dps points : moderate_points dps -> get_vertices fuel dps f32_four true = Ok points -> 3 <= zlen points ->
  (within 54 (light_middle rv_x points) /\ in_the_middle (light_middle rv_x points) (map rv_x points)) /\ (within 54 (light_middle rv_y points) /\ in_the_middle (light_middle rv_y points) (map rv_y points)).
Proof.
  intros M G N. destruct (points_bounded _ _ _ M G) as [X Y]. split; (apply box_middle_of; [apply box_light; [apply map_some, N|assumption]|assumption]).
Qed.
(** The position of the node is the middle of the box around the outline, at the height of the flasher; the insert of a light is at 0. *)
Theorem C67_centre : forall fuel points vs fs c td,
  (forall sin cos f, moderate_points (Flasher_drag_points f) -> get_vertices fuel (Flasher_drag_points f) f32_four true = Ok points -> build_flasher_mesh sin cos fuel f td = Ok (Some (vs, fs, c)) ->
     in_the_middle (vec_x c) (map rv_x points) /\ in_the_middle (vec_y c) (map rv_y points) /\ vec_z c = Flasher_height f) /\
  (forall l, moderate_points (Light_drag_points l) -> get_vertices fuel (Light_drag_points l) f32_four true = Ok points -> build_light_insert_mesh fuel l td = Ok (Some (vs, fs, c)) ->
     in_the_middle (vec_x c) (map rv_x points) /\ in_the_middle (vec_y c) (map rv_y points) /\ vec_z c = f32_zero).
Proof.
  intros fuel points vs fs c td. split; [intros sin cos f M G H|intros l M G H].
  - destruct (flasher_parts _ _ _ _ _ _ _ _ _ G H) as (_ & N & _ & -> & _). destruct (flasher_middle_of _ _ _ M G N) as [[_ X] [_ Y]]. auto.
  - destruct (light_parts _ _ _ _ _ _ _ G H) as (_ & N & _ & -> & _). destruct (light_middle_of _ _ _ M G N) as [[_ X] [_ Y]]. auto.
Qed.
Print Assumptions C67_centre.

Lemma point_within fuel dps points i p : moderate_points dps -> get_vertices fuel dps f32_four true = Ok points -> nth_error points i = Some p -> within 54 (rv_x p) /\ within 54 (rv_y p).
Proof. intros M G P. pose proof (vertices_bounded _ _ _ _ _ M G) as F. rewrite Forall_forall in F. apply F, (nth_error_In _ _ P). Qed.
Lemma moved_rounded x c : within 54 x -> within 54 c -> rounded (sub32 x c) (real x - real c).
Proof.
  intros X C. destruct (moved_close x c X C) as [W E]. unfold rounded. rewrite (real_val _ (proj1 W)), (real_val _ (proj1 X)), (real_val _ (proj1 C)). pose proof (Rabs_pos (val x - val c)). lra.
Qed.
Lemma flat_zero : real f32_zero = 0%R.
Proof. rewrite (real_val _ (proj1 zero_val)). apply zero_val. Qed.
Lemma flat_one : real f32_one = 1%R.
Proof. rewrite (real_val _ (proj1 one_val)). apply one_val. Qed.
(** The vertex of a light, or of a flasher that is not turned, is the vertex of the outline relative to that position, at height 0 with its normal upwards. *)
Definition flat_vertex (p : RenderVertex) (c : Vec3) (v : wrapper) : Prop :=
  rounded (v_x (w_vertex v)) (real (rv_x p) - real (vec_x c)) /\ rounded (v_y (w_vertex v)) (real (rv_y p) - real (vec_y c)) /\ v_z (w_vertex v) = f32_zero /\ normal_of (w_vertex v) = (f32_zero, f32_zero, f32_one).
Theorem C67_flat : forall fuel points vs fs c td i p v, nth_error points i = Some p -> nth_error vs i = Some v ->
  (forall sin cos f, moderate_points (Flasher_drag_points f) -> get_vertices fuel (Flasher_drag_points f) f32_four true = Ok points -> build_flasher_mesh sin cos fuel f td = Ok (Some (vs, fs, c)) ->
     Forall (fun a => finite32 a /\ exact a = 0) [Flasher_rot_x f; Flasher_rot_y f; Flasher_rot_z f] -> flat_vertex p c v) /\
  (forall l, moderate_points (Light_drag_points l) -> get_vertices fuel (Light_drag_points l) f32_four true = Ok points -> build_light_insert_mesh fuel l td = Ok (Some (vs, fs, c)) -> flat_vertex p c v).
Proof.
  intros fuel points vs fs c td i p v P V. split; [intros sin cos f M G H T|intros l M G H]; destruct (point_within _ _ _ _ _ M G P) as [X Y].
  - destruct (flasher_parts _ _ _ _ _ _ _ _ _ G H) as (_ & N & _ & -> & E). destruct (flasher_middle_of _ _ _ M G N) as [[CX _] [CY _]]. cbn [vec_x vec_y].
    inversion T as [|? ? T1 T']; subst. inversion T' as [|? ? T2 T'']; subst. inversion T'' as [|? ? T3 _]; subst. apply exact_zero in T1, T2, T3. unfold turn_flat in V. rewrite T1, T2, T3 in V. cbn [andb] in V.
    destruct (flasher_box f td points) as [[[xl xh] yl] yh]. rewrite !map_map, nth_error_map, P in V. injection V as <-. cbn [wrap w_vertex flasher_vertex v_x v_y v_z v_nx v_ny v_nz]. unfold flat_vertex. cbn [w_vertex v_x v_y v_z v_nx v_ny v_nz vec_x vec_y normal_of]. split; [apply moved_rounded; assumption|]. split; [apply moved_rounded; assumption|]. split; reflexivity.
  - destruct (light_parts _ _ _ _ _ _ _ G H) as (_ & N & _ & -> & ->). destruct (light_middle_of _ _ _ M G N) as [[CX _] [CY _]]. rewrite nth_error_map, P in V. injection V as <-. unfold flat_vertex. cbn [wrap w_vertex light_vertex v_x v_y v_z v_nx v_ny v_nz vec_x vec_y normal_of]. split; [apply moved_rounded; assumption|]. split; [apply moved_rounded; assumption|]. split; reflexivity.
Qed.
Print Assumptions C67_flat.

(** ** Turned flashers *)
Lemma turn_map sin cos vs a b c x y : eq32b a f32_zero && eq32b b f32_zero && eq32b c f32_zero = false ->
  let cos_x := cos (in_radians a) in let sin_x := sin (in_radians a) in let cos_y := cos (in_radians b) in let sin_y := sin (in_radians b) in let cos_z := cos (in_radians c) in let sin_z := sin (in_radians c) in
  let turn (p : f32 * f32 * f32) := let '(x, y, z) := p in
    (turned_row (mul32 cos_z cos_y) (sub32 (mul32 (mul32 cos_z sin_y) sin_x) (mul32 sin_z cos_x)) (add32 (mul32 (mul32 cos_z sin_y) cos_x) (mul32 sin_z sin_x)) x y z,
     turned_row (mul32 sin_z cos_y) (add32 (mul32 (mul32 sin_z sin_y) sin_x) (mul32 cos_z cos_x)) (sub32 (mul32 (mul32 sin_z sin_y) cos_x) (mul32 cos_z sin_x)) x y z,
     turned_row (neg_f32 sin_y) (mul32 cos_y sin_x) (mul32 cos_y cos_x) x y z) in
  exists f, turn_flat sin cos vs a b c x y = map f vs /\ forall v, position_of (f v) = turn (sub32 (v_x v) x, sub32 (v_y v) y, f32_zero) /\ normal_of (f v) = turn (normal_of v) /\ v_tu (f v) = v_tu v /\ v_tv (f v) = v_tv v.
Proof. intros E. unfold turn_flat. rewrite E. cbv zeta. eexists. split; [reflexivity|]. intros v. repeat split; reflexivity. Qed.
(** A flasher is turned about the x axis, then about the y axis, then about the z axis, about its centre, and its normal with it. *)
Theorem C67_turned : forall sin cos fuel f td points vs fs c, sine_and_cosine sin cos -> moderate_points (Flasher_drag_points f) -> Forall moderate [Flasher_rot_x f; Flasher_rot_y f; Flasher_rot_z f] ->
  get_vertices fuel (Flasher_drag_points f) f32_four true = Ok points -> build_flasher_mesh sin cos fuel f td = Ok (Some (vs, fs, c)) ->
  forall i p v, nth_error points i = Some p -> nth_error vs i = Some v ->
  let x := (real (rv_x p) - real (vec_x c))%R in let y := (real (rv_y p) - real (vec_y c))%R in let turn := turned_by sin cos (Flasher_rot_x f) (Flasher_rot_y f) (Flasher_rot_z f) in
  close_to ((Rabs x + Rabs y) / 1000000 + / 100000000000000000000000000000) (reals (position_of (w_vertex v))) (turn (x, y, 0%R)) /\
  close_to (/ 900000) (reals (normal_of (w_vertex v))) (turn (0%R, 0%R, 1%R)).
Proof.
  intros sin cos fuel f td points vs fs c SC M R G H i p v P V x y turn. destruct (point_within _ _ _ _ _ M G P) as [X Y]. destruct (eq32b (Flasher_rot_x f) f32_zero && eq32b (Flasher_rot_y f) f32_zero && eq32b (Flasher_rot_z f) f32_zero) eqn:Z.
  - apply andb_prop in Z. destruct Z as [Z Z3]. apply andb_prop in Z. destruct Z as [Z1 Z2]. apply zero_exact in Z1, Z2, Z3.
    destruct (C67_flat fuel points vs fs c td i p v P V) as [FL _]. specialize (FL sin cos f M G H). destruct FL as (RX & RY & VZ & NV); [repeat first [apply Forall_nil|apply Forall_cons; [assumption|]]|].
    destruct SC as (_ & _ & S0). unfold turn, turned_by, reals, position_of, normal_of in *. rewrite VZ. injection NV as -> -> ->.
    assert (D : forall a, moderate a -> exact a = 0 -> real (sin (in_radians a)) = 0%R /\ real (cos (in_radians a)) = 1%R) by (intros a A E; destruct (degrees_finite a A) as (F & E' & _); apply S0; auto).
    inversion R as [|? ? R1 R']; subst. inversion R' as [|? ? R2 R'']; subst. inversion R'' as [|? ? R3 _]; subst.
    destruct (D _ R1 (proj2 Z1)) as [-> ->]. destruct (D _ R2 (proj2 Z2)) as [-> ->]. destruct (D _ R3 (proj2 Z3)) as [-> ->]. rewrite flat_zero, flat_one. unfold rounded in RX, RY. fold x in RX. fold y in RY.
    pose proof (Rabs_pos x). pose proof (Rabs_pos y). assert (I : forall a b d, about_z 1 0 (about_y 1 0 (about_x 1 0 (a, b, d))) = (a, b, d)) by (intros a b d; unfold about_x, about_y, about_z; f_equal; [f_equal|]; ring). rewrite !I. unfold close_to.
    split; (split; [|split]); first [lra|rewrite Rminus_diag_eq, Rabs_R0 by reflexivity; lra].
  - destruct (flasher_parts _ _ _ _ _ _ _ _ _ G H) as (_ & N & _ & -> & E). destruct (flasher_middle_of _ _ _ M G N) as [[CX _] [CY _]]. cbn [vec_x vec_y] in *. subst vs.
    destruct (flasher_box f td points) as [[[xl xh] yl] yh] in V. destruct (turn_map sin cos (map (flasher_vertex xl xh yl yh) points) _ _ _ (flasher_middle rv_x points) (flasher_middle rv_y points) Z) as (g & E & K). rewrite E in V. clear E.
    rewrite !map_map, nth_error_map, P in V. injection V as <-. cbn [wrap w_vertex]. destruct (K (flasher_vertex xl xh yl yh p)) as (KP & KN & _). rewrite KP, KN. clear KP KN K g. cbn [flasher_vertex v_x v_y v_nx v_ny v_nz normal_of].
    inversion R as [|? ? R1 R']; subst. inversion R' as [|? ? R2 R'']; subst. inversion R'' as [|? ? R3 _]; subst. destruct SC as (BS & BC & _).
    destruct (degrees_finite _ R1) as (F1 & _). destruct (degrees_finite _ R2) as (F2 & _). destruct (degrees_finite _ R3) as (F3 & _).
    pose proof (turned_close _ _ _ _ _ _ (bounded_at _ _ BC F1) (bounded_at _ _ BS F1) (bounded_at _ _ BC F2) (bounded_at _ _ BS F2) (bounded_at _ _ BC F3) (bounded_at _ _ BS F3)) as T.
    unfold turn, turned_by. rewrite !(real_val (sin _)), !(real_val (cos _)) by (apply finite_fin; (apply BS || apply BC); assumption).
    split.
    + destruct (T _ _ _ _ _ _ (moved_by _ _ X CX) (moved_by _ _ Y CY) (moved_self _ (zero_within 56))) as [_ T']. rewrite (proj2 zero_val), Rabs_R0, Rplus_0_r in T'. unfold x, y. rewrite (real_val _ (proj1 X)), (real_val _ (proj1 Y)), (real_val _ (proj1 CX)), (real_val _ (proj1 CY)). exact T'.
    + assert (WO : within 56 f32_one) by (destruct one_val as [FO VO]; split; [exact FO|]; rewrite VO, Rabs_pos_eq by lra; apply (Rle_trans _ (pow2 0)); [change (pow2 0) with 1%R; lra|apply Flocq.Core.Raux.bpow_le; lia]).
      destruct (T _ _ _ _ _ _ (moved_self _ (zero_within 56)) (moved_self _ (zero_within 56)) (moved_self _ WO)) as [_ T']. rewrite (proj2 zero_val), (proj2 one_val), Rabs_R0, Rabs_R1 in T'. revert T'.
      match goal with |- close_to _ ?a ?b -> _ => generalize a b end. intros [[a1 a2] a3] [[b1 b2] b3] (T1 & T2 & T3). repeat split; lra.
Qed.
Print Assumptions C67_turned.

(** ** The textures *)
Lemma turn_texture sin cos vs a b c x y i w : nth_error (turn_flat sin cos vs a b c x y) i = Some w -> exists v, nth_error vs i = Some v /\ v_tu w = v_tu v /\ v_tv w = v_tv v.
Proof.
  unfold turn_flat. destruct (_ && _); cbv zeta; rewrite nth_error_map; destruct (nth_error vs i) as [v|]; intros E; [| discriminate E| |discriminate E]; exists v; (split; [reflexivity|]).
  - injection E as <-. split; reflexivity.
  - pose proof (f_equal (option_map (fun q => (v_tu q, v_tv q))) E) as E'. cbn [option_map v_tu v_tv] in E'. injection E' as E1 E2. split; symmetry; assumption.
Qed.
Lemma flasher_texture sin cos fuel f td points vs fs c i p v : get_vertices fuel (Flasher_drag_points f) f32_four true = Ok points -> build_flasher_mesh sin cos fuel f td = Ok (Some (vs, fs, c)) ->
  nth_error points i = Some p -> nth_error vs i = Some v ->
  let '(xl, xh, yl, yh) := flasher_box f td points in v_tu (w_vertex v) = mul32 (sub32 (rv_x p) xl) (inverse_size xl xh) /\ v_tv (w_vertex v) = mul32 (sub32 (rv_y p) yl) (inverse_size yl yh).
Proof.
  intros G H P V. destruct (flasher_parts _ _ _ _ _ _ _ _ _ G H) as (_ & _ & _ & _ & ->). destruct (flasher_box f td points) as [[[xl xh] yl] yh]. rewrite nth_error_map in V.
  destruct (nth_error (turn_flat _ _ _ _ _ _ _ _) i) as [w|] eqn:W; [|discriminate]. injection V as <-. apply turn_texture in W. destruct W as (q & Q & E1 & E2). rewrite nth_error_map, P in Q. injection Q as <-. cbn [wrap w_vertex]. rewrite E1, E2. split; reflexivity.
Qed.
Lemma size_share lo hi x : within 54 lo -> within 54 hi -> within 54 x -> wide lo hi -> share (mul32 (sub32 x lo) (inverse_size lo hi)) lo hi x.
Proof.
  intros L H X W. unfold wide in W. rewrite (real_val _ (proj1 L)), (real_val _ (proj1 H)) in W. destruct (wide_enough lo hi L H W) as (E & F & B & D). unfold inverse_size. rewrite E.
  destruct (share_close _ _ _ _ (moved_by _ _ X L) F (conj W B) D) as [FT ET]. unfold share. cbv zeta. rewrite (real_val _ (proj1 L)), (real_val _ (proj1 H)), (real_val _ (proj1 X)), (real_val _ FT). split; [apply fin_finite, FT|exact ET].
Qed.
(** A texture that wraps lies over the box around the outline: its coordinates are between 0 and 1, and are the shares of the box (unless it is smaller than 2^-19). *)
Theorem C67_texture : forall sin cos fuel f td points vs fs c, moderate_points (Flasher_drag_points f) -> get_vertices fuel (Flasher_drag_points f) f32_four true = Ok points ->
  build_flasher_mesh sin cos fuel f td = Ok (Some (vs, fs, c)) -> Flasher_image_alignment f <> RampImageAlignment_World ->
  exists left right top bottom, box_around left right (map rv_x points) /\ box_around top bottom (map rv_y points) /\
  forall i p v, nth_error points i = Some p -> nth_error vs i = Some v ->
    unit_interval (v_tu (w_vertex v)) /\ unit_interval (v_tv (w_vertex v)) /\
    (wide left right -> share (v_tu (w_vertex v)) left right (rv_x p)) /\ (wide top bottom -> share (v_tv (w_vertex v)) top bottom (rv_y p)).
Proof.
  intros sin cos fuel f td points vs fs c M G H A. pose proof (flasher_texture sin cos fuel f td points vs fs c) as T. destruct (flasher_parts _ _ _ _ _ _ _ _ _ G H) as (_ & N & _). destruct (points_bounded _ _ _ M G) as [FX FY].
  pose proof (box_flasher _ (map_some rv_x points N) FX) as BX. pose proof (box_flasher _ (map_some rv_y points N) FY) as BY.
  exists (smallest (map rv_x points)), (largest (map rv_x points)), (smallest (map rv_y points)), (largest (map rv_y points)).
  assert (AR : forall lo hi l, box_of lo hi l -> Forall (within 54) l -> box_around lo hi l).
  { intros lo hi l (IL & IH & B) F. rewrite Forall_forall in F. split; [exact IL|]. split; [exact IH|]. intros x X. rewrite (real_val lo), (real_val hi), (real_val x) by (apply F; assumption). apply B, X. }
  split; [apply AR; assumption|]. split; [apply AR; assumption|]. intros i p v P V. specialize (T i p v G H P V). unfold flasher_box in T. destruct (point_within _ _ _ _ _ M G P) as [X Y].
  assert (IX : In (rv_x p) (map rv_x points)) by (apply in_map, (nth_error_In _ _ P)). assert (IY : In (rv_y p) (map rv_y points)) by (apply in_map, (nth_error_In _ _ P)).
  rewrite Forall_forall in FX, FY. destruct BX as (X1 & X2 & X3). destruct BY as (Y1 & Y2 & Y3).
  destruct (Flasher_image_alignment f); try contradiction; destruct T as [-> ->]; (split; [apply inverse_unit; auto|]; split; [apply inverse_unit; auto|]; split; intros W; apply size_share; auto).
Qed.
Print Assumptions C67_texture.
(** A texture of the world lies over the table: its coordinates are the shares of the table, and are between 0 and 1 on it. *)
Theorem C67_world : forall sin cos fuel f td points vs fs c, moderate_points (Flasher_drag_points f) -> Forall moderate [td_left td; td_right td; td_top td; td_bottom td] ->
  get_vertices fuel (Flasher_drag_points f) f32_four true = Ok points -> build_flasher_mesh sin cos fuel f td = Ok (Some (vs, fs, c)) -> Flasher_image_alignment f = RampImageAlignment_World ->
  forall i p v, nth_error points i = Some p -> nth_error vs i = Some v ->
    (wide (td_left td) (td_right td) -> share (v_tu (w_vertex v)) (td_left td) (td_right td) (rv_x p)) /\ (wide (td_top td) (td_bottom td) -> share (v_tv (w_vertex v)) (td_top td) (td_bottom td) (rv_y p)) /\
    ((real (td_left td) <= real (rv_x p) <= real (td_right td))%R -> unit_interval (v_tu (w_vertex v))) /\ ((real (td_top td) <= real (rv_y p) <= real (td_bottom td))%R -> unit_interval (v_tv (w_vertex v))).
Proof.
  intros sin cos fuel f td points vs fs c M D G H A i p v P V. pose proof (flasher_texture _ _ _ _ _ _ _ _ _ _ _ _ G H P V) as T. unfold flasher_box in T. rewrite A in T. destruct T as [-> ->]. destruct (point_within _ _ _ _ _ M G P) as [X Y].
  inversion D as [|? ? D1 D']; subst. inversion D' as [|? ? D2 D'']; subst. inversion D'' as [|? ? D3 D''']; subst. inversion D''' as [|? ? D4 _]; subst. apply moderate_within, (within_mono 20 54 _ ltac:(lia)) in D1, D2, D3, D4.
  split; [intros W; apply size_share; assumption|]. split; [intros W; apply size_share; assumption|].
  rewrite (real_val _ (proj1 D1)), (real_val _ (proj1 D2)), (real_val _ (proj1 D3)), (real_val _ (proj1 D4)), (real_val _ (proj1 X)), (real_val _ (proj1 Y)). split; intros B; apply inverse_unit; assumption.
Qed.
Print Assumptions C67_world.
Lemma light_coordinates fuel l td points vs fs c i p v : get_vertices fuel (Light_drag_points l) f32_four true = Ok points -> build_light_insert_mesh fuel l td = Ok (Some (vs, fs, c)) ->
  nth_error points i = Some p -> nth_error vs i = Some v -> (v_tu (w_vertex v), v_tv (w_vertex v)) = light_texture l td points p.
Proof. intros G H P V. destruct (light_parts _ _ _ _ _ _ _ G H) as (_ & _ & _ & _ & ->). rewrite nth_error_map, P in V. injection V as <-. cbn [wrap w_vertex light_vertex v_tu v_tv]. destruct (light_texture l td points p); reflexivity. Qed.
(** The texture of a light without an image is around its centre, and reaches as far as the farthest vertex of the outline. *)
Theorem C67_glow : forall fuel l td points vs fs c d, moderate_points (Light_drag_points l) -> moderate (v2_x (Light_center l)) -> moderate (v2_y (Light_center l)) -> Light_image l = [] ->
  get_vertices fuel (Light_drag_points l) f32_four true = Ok points -> build_light_insert_mesh fuel l td = Ok (Some (vs, fs, c)) ->
  farthest (v2_x (Light_center l)) (v2_y (Light_center l)) points d -> (/ 1000000000000000 <= d)%R ->
  forall i p v, nth_error points i = Some p -> nth_error vs i = Some v ->
    finite32 (v_tu (w_vertex v)) /\ (Rabs (real (v_tu (w_vertex v)) - (/ 2 + (real (rv_x p) - real (v2_x (Light_center l))) / (2 * d))) <= / 1000000)%R /\
    finite32 (v_tv (w_vertex v)) /\ (Rabs (real (v_tv (w_vertex v)) - (/ 2 + (real (rv_y p) - real (v2_y (Light_center l))) / (2 * d))) <= / 1000000)%R.
Proof.
  intros fuel l td points vs fs c d M CX CY I G H FA D i p v P V. pose proof (light_coordinates _ _ _ _ _ _ _ _ _ _ G H P V) as T. unfold light_texture in T. rewrite I in T. cbn [is_empty negb] in T. cbv zeta in T.
  pose proof (f_equal fst T) as TU. pose proof (f_equal snd T) as TV. cbn [fst snd] in TU, TV. clear T. rewrite TU, TV. clear TU TV V.
  apply moderate_within, (within_mono 20 54 _ ltac:(lia)) in CX, CY. destruct (point_within _ _ _ _ _ M G P) as [X Y]. pose proof (vertices_bounded _ _ _ _ _ M G) as F. assert (D60 : (pow2 (-60) <= d)%R) by (apply (Rle_trans _ _ _ small_60), D).
  assert (DP : (distance (v2_x (Light_center l)) (v2_y (Light_center l)) p <= d)%R) by (apply FA, (nth_error_In _ _ P)). unfold distance in DP. rewrite (real_val _ (proj1 CX)), (real_val _ (proj1 CY)), (real_val _ (proj1 X)), (real_val _ (proj1 Y)) in *.
  destruct (light_close (Light_center l) points d _ _ CX CY F FA D60 X CX) as [F1 E1]; [exact (Rle_trans _ _ _ (axis_below _ _) DP)|].
  destruct (light_close (Light_center l) points d _ _ CX CY F FA D60 Y CY) as [F2 E2]; [rewrite Rplus_comm in DP; exact (Rle_trans _ _ _ (axis_below _ _) DP)|].
  rewrite (real_val _ F1), (real_val _ F2). split; [apply fin_finite, F1|]. split; [exact E1|]. split; [apply fin_finite, F2|exact E2].
Qed.
Print Assumptions C67_glow.
Lemma table_share_of lo hi x : within 54 lo -> within 54 hi -> within 54 x -> wide lo hi -> let t := mul32 x (inverse_table lo hi) in let s := (real x / (real hi - real lo))%R in
  finite32 t /\ (Rabs (real t - s) <= Rabs s / 1000000 + / 100000000000000000000)%R.
Proof.
  intros L H X W. unfold wide in W. rewrite (real_val _ (proj1 L)), (real_val _ (proj1 H)) in *. destruct (wide_enough lo hi L H W) as (E & F & B & D). unfold inverse_table. cbv zeta. rewrite E.
  destruct (share_close _ _ _ _ (moved_self x (within_mono 54 56 _ ltac:(lia) X)) F (conj W B) D) as [FT ET]. rewrite (real_val _ (proj1 X)), (real_val _ FT). split; [apply fin_finite, FT|exact ET].
Qed.
(** The image of a light lies over the table, whose left and top edges are taken to be at 0. *)
Theorem C67_light_image : forall fuel l td points vs fs c, moderate_points (Light_drag_points l) -> Forall moderate [td_left td; td_right td; td_top td; td_bottom td] -> Light_image l <> [] ->
  get_vertices fuel (Light_drag_points l) f32_four true = Ok points -> build_light_insert_mesh fuel l td = Ok (Some (vs, fs, c)) ->
  exact (td_left td) = 0 -> exact (td_top td) = 0 -> wide (td_left td) (td_right td) -> wide (td_top td) (td_bottom td) ->
  forall i p v, nth_error points i = Some p -> nth_error vs i = Some v -> share (v_tu (w_vertex v)) (td_left td) (td_right td) (rv_x p) /\ share (v_tv (w_vertex v)) (td_top td) (td_bottom td) (rv_y p).
Proof.
  intros fuel l td points vs fs c M D I G H EL ET W1 W2 i p v P V. pose proof (light_coordinates _ _ _ _ _ _ _ _ _ _ G H P V) as T. unfold light_texture in T. destruct (Light_image l) as [|ch r]; [contradiction|]. cbn [is_empty negb] in T. cbv zeta in T.
  pose proof (f_equal fst T) as TU. pose proof (f_equal snd T) as TV. cbn [fst snd] in TU, TV. clear T. rewrite TU, TV. destruct (point_within _ _ _ _ _ M G P) as [X Y].
  inversion D as [|? ? D1 D']; subst. inversion D' as [|? ? D2 D'']; subst. inversion D'' as [|? ? D3 D''']; subst. inversion D''' as [|? ? D4 _]; subst. apply moderate_within, (within_mono 20 54 _ ltac:(lia)) in D1, D2, D3, D4.
  assert (Z : forall a, exact a = 0 -> real a = 0%R) by (intros a E; unfold real; rewrite E; unfold Rdiv; apply Rmult_0_l).
  pose proof (table_share_of _ _ _ D1 D2 X W1) as S1. pose proof (table_share_of _ _ _ D3 D4 Y W2) as S2. unfold share. cbv zeta in *. rewrite (Z _ EL), (Z _ ET) in *. rewrite !Rminus_0_r in *. split; assumption.
Qed.
Print Assumptions C67_light_image.

(** ** Decals *)
Lemma corner_from c s x y z w X Y Z W e : (Rabs (x - X) <= e)%R -> (Rabs (y - Y) <= e)%R -> (0 <= e)%R -> z = 0%R -> about_z c s w = (X, Y, Z) -> Z = 0%R -> W = about_z c s w -> close_to e (x, y, z) W.
Proof. intros A B E -> H -> ->. rewrite H. unfold close_to. split; [exact A|]. split; [exact B|]. rewrite Rminus_diag_eq, Rabs_R0 by reflexivity. exact E. Qed.
(** There is a mesh for the image of a decal that is not on the backglass.  It is the rectangle of the decal, turned about its middle, with the image over all of it, as two triangles that have one side in common. *)
Theorem C67_decal : forall sin cos d, sine_and_cosine sin cos -> Forall moderate [Decal_width d; Decal_height d; Decal_rotation d] ->
  (build_decal_mesh sin cos d = None <-> Decal_decal_type d = DecalType_Text \/ Decal_backglass d = true \/ Decal_image d = []) /\
  forall vs fs, build_decal_mesh sin cos d = Some (vs, fs) ->
    let a := times_radian (Decal_rotation d) in
    Forall2 (decal_corner (real (cos a)) (real (sin a)) ((Rabs (real (Decal_width d)) + Rabs (real (Decal_height d))) / 2000000 + / 100000000000000000000000000000)) vs (rectangle (real (Decal_width d)) (real (Decal_height d))) /\
    fs = [mkFace 0 1 2; mkFace 2 1 3].
Proof.
  intros sin cos d (BS & BC & _) M. split.
  - unfold build_decal_mesh. destruct (Decal_decal_type d); cbn; (split; [|]); try (intros _; left; reflexivity); try reflexivity;
      destruct (Decal_backglass d); try (intros; auto; fail); destruct (Decal_image d); try (intros; auto; fail); try discriminate; intros [E|[E|E]]; discriminate.
  - intros vs fs H. cbv zeta. inversion M as [|? ? M1 M']; subst. inversion M' as [|? ? M2 M'']; subst. inversion M'' as [|? ? M3 _]; subst. destruct (degrees_finite _ M3) as (_ & _ & F). change (times_radian (Decal_rotation d)) with (radians (Decal_rotation d)) in *.
    unfold build_decal_mesh in H. destruct (match Decal_decal_type d with DecalType_Text => true | _ => false end); [discriminate|]. destruct (Decal_backglass d); [discriminate|]. destruct (is_empty (Decal_image d)); [discriminate|]. cbv zeta in H.
    set (s := sin (radians (Decal_rotation d))) in *. set (c := cos (radians (Decal_rotation d))) in *. assert (WS : within 0 s) by (apply bounded_at; assumption). assert (WC : within 0 c) by (apply bounded_at; assumption). clearbody s c.
    apply moderate_within, (within_mono 20 54 _ ltac:(lia)) in M1, M2. destruct (half_moved _ M1) as [MW _]. destruct (half_moved _ M2) as [_ MH]. destruct (self_entry s WS) as [ES ES']. destruct (self_entry c WC) as [EC EC'].
    rewrite (real_val _ (proj1 M1)), (real_val _ (proj1 M2)), (real_val _ (proj1 WC)), (real_val _ (proj1 WS)).
    revert MW MH H. generalize (mul32 (Decal_width d) f32_half) (add32 (mul32 (Decal_height d) f32_half) f32_zero) (val (Decal_width d)) (val (Decal_height d)). intros w h W H' MW MH H.
    match type of H with Some (?a, ?b) = _ => assert (E : a = vs /\ b = fs) by (injection H; auto) end. clear H. destruct E as (<- & <-). split; [|reflexivity].
    assert (TE : ((Rabs (H' / 2) + Rabs (W / 2) + Rabs 0) / 1000000 + / 100000000000000000000000000000 = (Rabs W + Rabs H') / 2000000 + / 100000000000000000000000000000)%R).
    { rewrite Rabs_R0. unfold Rdiv. rewrite !Rabs_mult, (Rabs_pos_eq (/ 2)) by lra. field. }
    destruct (pair_moved _ _ _ _ _ _ _ _ ES EC MH MW) as [[F1 P1] [F2 P2]]. destruct (pair_moved _ _ _ _ _ _ _ _ ES' EC MH MW) as [[F3 P3] [F4 P4]]. destruct (pair_moved _ _ _ _ _ _ _ _ EC ES MH MW) as [[F5 P5] [F6 P6]]. destruct (pair_moved _ _ _ _ _ _ _ _ EC' ES MH MW) as [[F7 P7] [F8 P8]].
    rewrite TE in *. assert (E0 : (0 <= (Rabs W + Rabs H') / 2000000 + / 100000000000000000000000000000)%R) by (pose proof (Rabs_pos W); pose proof (Rabs_pos H'); lra). clear TE.
    unfold rectangle. repeat first [apply Forall2_nil|apply Forall2_cons]; unfold decal_corner, reals, position_of, normal_of; cbn [w_vertex v_x v_y v_z v_nx v_ny v_nz v_tu v_tv]; rewrite ?flat_zero, ?flat_one; (split; [|split; [reflexivity|split; reflexivity]]); rewrite !real_val by assumption.
    + eapply corner_from; [exact P2|exact P8|exact E0|reflexivity| |reflexivity|reflexivity]. unfold about_z. f_equal. f_equal; field.
    + eapply corner_from; [exact P1|exact P7|exact E0|reflexivity| |reflexivity|reflexivity]. unfold about_z. f_equal. f_equal; field.
    + eapply corner_from; [exact P4|exact P6|exact E0|reflexivity| |reflexivity|reflexivity]. unfold about_z. f_equal. f_equal; field.
    + eapply corner_from; [exact P3|exact P5|exact E0|reflexivity| |reflexivity|reflexivity]. unfold about_z. f_equal. f_equal; field.
Qed.
Print Assumptions C67_decal.

(** ** Cases *)
(** Quarter turns for every angle that is not zero *)
Definition quarter_sin (a : f32) : f32 := if exact a =? 0 then f32_zero else f32_one.
Definition quarter_cos (a : f32) : f32 := if exact a =? 0 then f32_one else f32_zero.
Example C67_turned_case : sine_and_cosine quarter_sin quarter_cos.
Proof.
  unfold sine_and_cosine, bounded_function, quarter_sin, quarter_cos. split; [|split].
  - intros a _. destruct (exact a =? 0); (split; [exact I|]); rewrite ?flat_zero, ?flat_one, ?Rabs_R0, ?Rabs_R1; lra.
  - intros a _. destruct (exact a =? 0); (split; [exact I|]); rewrite ?flat_zero, ?flat_one, ?Rabs_R0, ?Rabs_R1; lra.
  - intros a _ E. rewrite E. change (0 =? 0) with true. cbv iota. split; [exact flat_zero|exact flat_one].
Qed.
Definition upright : Flasher := set_Flasher_rot_z (int32 90) (set_Flasher_drag_points triangle Flasher_default).
Definition insert (image : rstring) : Light := set_Light_image image (set_Light_center (mkVertex2D (int32 130) (int32 130)) (set_Light_drag_points triangle Light_default)).
Definition outline_of (dps : list DragPoint) : list RenderVertex := match get_vertices 151 dps f32_four true with Ok l => l | Fail _ => [] end.
Definition flat_table : TableDimensions := mkTableDimensions f32_zero f32_zero (int32 1000) (int32 2000).
Definition makes_mesh (m : res (option (list wrapper * list face * Vec3))) : bool := match m with Ok (Some (vs, fs, _)) => (zlen vs =? 3) && (zlen fs =? 1) | _ => false end.
Example C67_total_case : moderate_points (Flasher_drag_points upright) /\ moderate_points (Light_drag_points (insert [])) /\ Forall moderate [Flasher_rot_x upright; Flasher_rot_y upright; Flasher_rot_z upright] /\
  Forall moderate [td_left flat_table; td_right flat_table; td_top flat_table; td_bottom flat_table] /\ moderate (v2_x (Light_center (insert []))) /\ moderate (v2_y (Light_center (insert []))).
Proof.
  assert (I : forall z, In z [0; 90; 130; 1000; 2000] -> moderate (int32 z)) by (intros z Z; cbn [In] in Z; repeat destruct Z as [<-|Z]; try contradiction; split; vm_compute; (exact I || discriminate)).
  assert (Z0 : moderate f32_zero) by (split; vm_compute; (exact Logic.I || discriminate)).
  split; [apply moderate_cases; vm_compute; reflexivity|]. split; [apply moderate_cases; vm_compute; reflexivity|].
  split; [repeat first [apply Forall_nil|apply Forall_cons]; (exact Z0 || (apply I; cbn; tauto))|]. split; [repeat first [apply Forall_nil|apply Forall_cons]; (exact Z0 || (apply I; cbn; tauto))|]. split; apply I; cbn; tauto.
Qed.
Example C67_mesh_case : get_vertices 151 triangle f32_four true = Ok (outline_of triangle) /\ zlen (outline_of triangle) = 3 /\ makes_mesh (build_flasher_mesh quarter_sin quarter_cos 151 upright flat_table) = true /\
  makes_mesh (build_light_insert_mesh 151 (insert []) flat_table) = true /\ makes_mesh (build_light_insert_mesh 151 (insert (lit "glow")) flat_table) = true.
Proof. split; [vm_compute; reflexivity|]. split; [vm_compute; reflexivity|]. split; [vm_compute; reflexivity|]. split; vm_compute; reflexivity. Qed.
Definition picture : Decal := set_Decal_image (lit "logo") (set_Decal_decal_type DecalType_Image Decal_default).
Example C67_decal_case : Forall moderate [Decal_width picture; Decal_height picture; Decal_rotation picture] /\ build_decal_mesh quarter_sin quarter_cos picture <> None.
Proof. split; [repeat first [apply Forall_nil|apply Forall_cons]; (split; vm_compute; (exact I || discriminate))|discriminate]. Qed.

(** ** What does not hold *)
(** The image of a light lies over the table: not if the table does not start at 0. This light is on the table, and its image is outside. *)
Definition moved_table : TableDimensions := mkTableDimensions (int32 50) (int32 50) (int32 100) (int32 100).
Definition small_light : Light := set_Light_image (lit "glow") (set_Light_drag_points [auto_point 60 60 false; auto_point 60 90 false; auto_point 90 60 false] Light_default).
Theorem C67_image_refuted : ~ (forall fuel l td points vs fs c, moderate_points (Light_drag_points l) -> Light_image l <> [] ->
  get_vertices fuel (Light_drag_points l) f32_four true = Ok points -> build_light_insert_mesh fuel l td = Ok (Some (vs, fs, c)) ->
  (forall p, In p points -> (real (td_left td) <= real (rv_x p) <= real (td_right td))%R) -> wide (td_left td) (td_right td) ->
  forall i p v, nth_error points i = Some p -> nth_error vs i = Some v -> share (v_tu (w_vertex v)) (td_left td) (td_right td) (rv_x p)).
Proof.
  intros H. assert (M : moderate_points (Light_drag_points small_light)) by (apply moderate_cases; vm_compute; reflexivity).
  assert (G : get_vertices 151 (Light_drag_points small_light) f32_four true = Ok (outline_of (Light_drag_points small_light))) by (vm_compute; reflexivity).
  assert (R : forall z, In z [50; 60; 90; 100] -> real (int32 z) = IZR z).
  { intros z Z. unfold real. apply (Rmult_eq_reg_r (IZR (2 ^ 149))); [|apply not_0_IZR; discriminate]. unfold Rdiv. rewrite Rmult_assoc, Rinv_l, Rmult_1_r, <- mult_IZR by (apply not_0_IZR; discriminate). apply f_equal. cbn [In] in Z. repeat destruct Z as [<-|Z]; try contradiction; vm_compute; reflexivity. }
  assert (E : exists vs fs c v, build_light_insert_mesh 151 small_light moved_table = Ok (Some (vs, fs, c)) /\ nth_error vs 0 = Some v /\ v_tu (w_vertex v) = mul32 (int32 60) (div32 f32_one (int32 50))).
  { eexists _, _, _, _. split; [vm_compute; reflexivity|]. split; [reflexivity|]. vm_compute. reflexivity. }
  destruct E as (vs & fs & c & v & B & V & T). assert (P : exists p, nth_error (outline_of (Light_drag_points small_light)) 0 = Some p /\ rv_x p = int32 60) by (eexists; split; vm_compute; reflexivity). destruct P as (p & P & X).
  specialize (H 151%nat small_light moved_table _ vs fs c M ltac:(discriminate) G B).
  assert (IN : forall p, In p (outline_of (Light_drag_points small_light)) -> rv_x p = int32 60 \/ rv_x p = int32 90) by (intros q Q; vm_compute in Q; repeat destruct Q as [<-|Q]; try contradiction; vm_compute; auto).
  pose proof (R 50 ltac:(cbn; tauto)) as R5. pose proof (R 100 ltac:(cbn; tauto)) as R10. pose proof (R 60 ltac:(cbn; tauto)) as R6. pose proof (R 90 ltac:(cbn; tauto)) as R9.
  assert (K : (1 <= real (mul32 (int32 60) (div32 f32_one (int32 50))))%R).
  { unfold real. apply (Rmult_le_reg_r (IZR (2 ^ 149))); [apply IZR_lt; reflexivity|]. unfold Rdiv. rewrite Rmult_assoc, Rinv_l, Rmult_1_r, Rmult_1_l by (apply not_0_IZR; discriminate). apply IZR_le. vm_compute. discriminate. }
  cbn [moved_table td_left td_right] in H. revert H. rewrite <- T in K. generalize dependent (int32 50). generalize dependent (int32 100). generalize dependent (int32 60). generalize dependent (int32 90). clear - P V K.
  intros n N s X IN S h HH f T F H. destruct (H) with (i := 0%nat) (p := p) (v := v) as [_ C]; [|unfold wide; rewrite F, HH, Rabs_pos_eq; lra|exact P|exact V|].
  - intros q Q. destruct (IN q Q) as [W|W]; rewrite W, F, HH; [rewrite S|rewrite N]; lra.
  - cbv zeta in C. rewrite X, F, HH, S in C. revert C K. generalize (real (v_tu (w_vertex v))). clear. intros r C K.
    replace ((60 - 50) / (100 - 50))%R with (/ 5)%R in C by field. rewrite (Rabs_pos_eq (/ 5)) in C by lra. pose proof (Rle_abs (r - / 5)). lra.
Qed.
Print Assumptions C67_image_refuted.
(** The vertices of every mesh carry their bytes: not those of decals. *)
Theorem C67_bytes_refuted : ~ (forall sin cos d vs fs, build_decal_mesh sin cos d = Some (vs, fs) -> Forall stored_vertex vs).
Proof. intros H. specialize (H quarter_sin quarter_cos picture _ _ eq_refl). inversion H as [|? ? A _]; subst. unfold stored_vertex in A. vm_compute in A. discriminate. Qed.
Print Assumptions C67_bytes_refuted.

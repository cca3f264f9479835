(** C63: meshes of walls.

    The code is in Walls.v; what the property means is in SpecWalls.v. *)
From Verif Require Import Base Text Image Sound Quantize ColorText Cfb JsonFloat Mesh SpecMesh Browser Common ItemWall Builtin SpecBuiltin BuiltinFacts Polygon SpecPolygon PolygonFacts PropertiesPolygon Smooth SpecSmooth PropertiesSmooth Walls SpecWalls WallsFacts WallsReals FloatBounds.
From Coq Require Import Floats.SpecFloat ZifyBool Permutation.

Definition moderate_wall (w : Wall) : Prop := Forall (fun p => Forall moderate (flat_coordinates p)) (Wall_drag_points w).

Lemma some_pair {A B} (a c : A) (b d : B) : (Ok (Some (a, b)) : res (option (A * B))) = Ok (Some (c, d)) -> a = c /\ b = d.
Proof. intros H. injection H as -> ->. auto. Qed.
(** What the two functions make of an outline *)
Lemma mesh_of fuel w points : get_vertices fuel (Wall_drag_points w) f32_four true = Ok points -> 3 <= zlen points ->
  let coords := if is_empty (Wall_side_image w) then None else Some (compute_side_texture_coords points (Wall_drag_points w)) in
  let side := build_side_mesh w points coords in
  exists top_vs top_fs, build_top_mesh_item_space w points = Ok (top_vs, top_fs) /\ triangulate_wall (map flat_point points) = Ok top_fs /\ zlen top_vs = zlen points /\
  build_wall_mesh fuel w = Ok (if is_empty top_fs then None else
    Some (map wrap ((if sides_shown w then fst side else []) ++ (if top_shown w then top_vs else [])),
          (if sides_shown w then snd side else []) ++ (if top_shown w then map (shifted (side_vertex_count w (zlen points))) top_fs else []))).
Proof.
  intros G N coords side. destruct (C59_total triangulate_wall (map flat_point points) (or_introl eq_refl)) as (fs & T).
  assert (B : build_top_mesh_item_space w points = Ok (map (top_vertex w (relative (bounds (map rv_x points))) (relative (bounds (map rv_y points)))) points, fs)) by (unfold build_top_mesh_item_space; rewrite T; reflexivity).
  eexists _, fs. split; [exact B|]. split; [exact T|]. split; [unfold zlen; rewrite map_length; reflexivity|]. unfold build_wall_mesh, build_render_vertices. rewrite G. cbn [rbind].
  unfold zlen in N. replace (List.length points <? 3)%nat with false by lia. cbv zeta. fold coords. fold side. pose proof (side_count w points coords) as C. fold side in C.
  destruct side as [svs sfs]. cbn [fst snd] in *. rewrite B. cbn [rbind]. destruct (is_empty fs); [reflexivity|].
  assert (Z0 : map (shifted 0) fs = fs) by (rewrite <- (map_id fs) at 2; apply map_ext; intros [a b c]; unfold shifted; cbn; rewrite !Z.add_0_r; reflexivity).
  unfold side_vertex_count, sides_shown, top_shown. rewrite <- C. destruct (Wall_is_top_bottom_visible w), (Wall_is_side_visible w); cbn [orb andb negb app]; rewrite ?Z0, ?app_nil_r; reflexivity.
Qed.
Lemma meshes_of fuel w td points : get_vertices fuel (Wall_drag_points w) f32_four true = Ok points -> 3 <= zlen points ->
  let coords := if is_empty (Wall_side_image w) && is_empty (Wall_image w) then None else Some (compute_side_texture_coords points (Wall_drag_points w)) in
  let side := build_side_mesh w points coords in
  exists top_vs top_fs, build_top_mesh w points td = Ok (top_vs, top_fs) /\ triangulate_wall (map flat_point points) = Ok top_fs /\ zlen top_vs = zlen points /\
  build_wall_meshes fuel w td = Ok (Some (mkWallMeshes (if is_empty top_fs then None else Some (map wrap top_vs, top_fs)) (Some (map wrap (fst side), snd side)))).
Proof.
  intros G N coords side. destruct (C59_total triangulate_wall (map flat_point points) (or_introl eq_refl)) as (fs & T).
  assert (B : build_top_mesh w points td = Ok (map (top_vertex w (on_table (td_left td) (td_right td)) (on_table (td_top td) (td_bottom td))) points, fs)) by (unfold build_top_mesh; rewrite T; reflexivity).
  eexists _, fs. split; [exact B|]. split; [exact T|]. split; [unfold zlen; rewrite map_length; reflexivity|]. unfold build_wall_meshes, build_render_vertices. rewrite G. cbn [rbind].
  unfold zlen in N. replace (List.length points <? 3)%nat with false by lia. cbv zeta. fold coords. fold side. pose proof (side_count w points coords) as C. fold side in C.
  destruct side as [svs sfs]. cbn [fst snd] in *. rewrite B. cbn [rbind]. destruct svs as [|v svs]; [unfold zlen in C; cbn in C; lia|]. cbn [is_empty]. destruct (is_empty fs); reflexivity.
Qed.

(** ** Every wall has its meshes *)
(** For drag points within a million units both functions return: the recursion of the curve is at most 151 deep, and nothing panics. *)
Theorem C63_total : forall w td, moderate_wall w -> exists m ms, forall depth, (151 <= depth)%nat -> build_wall_mesh depth w = Ok m /\ build_wall_meshes depth w td = Ok ms.
Proof.
  intros w td M. destruct (C60_ends (Wall_drag_points w) f32_four true M eq_refl) as (points & G). destruct (Z_lt_le_dec (zlen points) 3) as [N|N].
  - exists None, None. intros depth D. destruct (G depth D) as [E _]. unfold build_wall_mesh, build_wall_meshes, build_render_vertices. rewrite E. cbn [rbind].
    unfold zlen in N. replace (List.length points <? 3)%nat with true by lia. split; reflexivity.
  - assert (X : forall depth, (151 <= depth)%nat -> build_wall_mesh depth w = build_wall_mesh 151 w /\ build_wall_meshes depth w td = build_wall_meshes 151 w td).
    { intros depth D. unfold build_wall_mesh, build_wall_meshes, build_render_vertices. destruct (G depth D) as [-> _]. destruct (G 151%nat (le_n _)) as [-> _]. split; reflexivity. }
    destruct (G 151%nat (le_n _)) as [E _]. destruct (mesh_of 151 w points E N) as (? & ? & _ & _ & _ & E1). destruct (meshes_of 151 w td points E N) as (? & ? & _ & _ & _ & E2).
    do 2 eexists. intros depth D. destruct (X depth D) as [-> ->]. split; [exact E1|exact E2].
Qed.
Print Assumptions C63_total.

(** There is no mesh for fewer than three points, or when no triangle was found for the top. *)
Theorem C63_none : forall fuel w points, get_vertices fuel (Wall_drag_points w) f32_four true = Ok points ->
  (build_wall_mesh fuel w = Ok None <-> zlen points < 3 \/ triangulate_wall (map flat_point points) = Ok []) /\
  (forall td, build_wall_meshes fuel w td = Ok None <-> zlen points < 3).
Proof.
  intros fuel w points G. destruct (Z_lt_le_dec (zlen points) 3) as [N|N].
  - assert (E : build_wall_mesh fuel w = Ok None /\ forall td, build_wall_meshes fuel w td = Ok None).
    { unfold build_wall_mesh, build_wall_meshes, build_render_vertices. rewrite G. cbn [rbind]. unfold zlen in N. replace (List.length points <? 3)%nat with true by lia. split; reflexivity. }
    destruct E as [-> E]. split; [split; auto|]. intros td. rewrite E. split; auto.
  - destruct (mesh_of fuel w points G N) as (tvs & tfs & _ & T & _ & ->). split; [split|].
    + intros E. right. rewrite T. destruct tfs; [reflexivity|discriminate].
    + intros [L|L]; [lia|]. rewrite T in L. injection L as ->. reflexivity.
    + intros td. destruct (meshes_of fuel w td points G N) as (? & ? & _ & _ & _ & ->). split; [discriminate|lia].
Qed.
Print Assumptions C63_none.

(** ** Vertices and triangles *)
Lemma wrap_stored v : stored_vertex (wrap v).
Proof. unfold stored_vertex, wrap, to_vpx_bytes, vertex_bytes. cbn [w_bytes w_vertex flat_map]. now rewrite app_nil_r. Qed.
Lemma top_corner w points tu tv k v : nth_error (map (top_vertex w tu tv) points) k = Some v ->
  (k < List.length points)%nat /\ corner_at points (Wall_height_bottom w) (Wall_height_top w) (Top (Z.of_nat k)) = Some (position_of v) /\
  exists p, nth_error points k = Some p /\ v_tu v = tu (rv_x p) /\ v_tv v = tv (rv_y p).
Proof.
  rewrite nth_error_map. intros H. destruct (nth_error points k) as [p|] eqn:E; [|discriminate]. injection H as <-. split; [apply nth_error_Some; congruence|].
  unfold corner_at. rewrite Nat2Z.id, E. split; [reflexivity|]. exists p. auto.
Qed.
Lemma item_vertices w points top : build_top_mesh_item_space w points = Ok top -> fst top = map (top_vertex w (relative (bounds (map rv_x points))) (relative (bounds (map rv_y points)))) points.
Proof. unfold build_top_mesh_item_space. destruct (triangulate_wall _); [|discriminate]. intros H. injection H as <-. reflexivity. Qed.
Lemma table_vertices w points td top : build_top_mesh w points td = Ok top -> fst top = map (top_vertex w (on_table (td_left td) (td_right td)) (on_table (td_top td) (td_bottom td))) points.
Proof. unfold build_top_mesh. destruct (triangulate_wall _); [|discriminate]. intros H. injection H as <-. reflexivity. Qed.
Lemma app_cases {A} (a b : list A) k x : nth_error (a ++ b) k = Some x -> ((k < List.length a)%nat /\ nth_error a k = Some x) \/ ((List.length a <= k)%nat /\ nth_error b (k - List.length a) = Some x).
Proof.
  intros H. destruct (Nat.lt_ge_cases k (List.length a)) as [L|L]; [left|right]; (split; [exact L|]); [rewrite nth_error_app1 in H by exact L|rewrite nth_error_app2 in H by exact L]; exact H.
Qed.
Lemma shown w : sides_shown w = true \/ top_shown w = true.
Proof. unfold sides_shown, top_shown. destruct (Wall_is_side_visible w), (Wall_is_top_bottom_visible w); auto. Qed.

(** The vertices of the mesh: four for each side, then one for each point of the top, of the parts that are shown; where they are; and the triangles *)
Theorem C63_mesh : forall fuel w points vs fs, get_vertices fuel (Wall_drag_points w) f32_four true = Ok points -> build_wall_mesh fuel w = Ok (Some (vs, fs)) ->
  let n := zlen points in let sides := side_vertex_count w n in
  zlen vs = sides + (if top_shown w then n else 0) /\
  (forall k v, 0 <= k -> nth_error vs (Z.to_nat k) = Some v -> stored_vertex v /\
     corner_at points (Wall_height_bottom w) (Wall_height_top w) (wall_place n sides k) = Some (position_of (w_vertex v))) /\
  Forall (fun f => face_within 0 (zlen vs - 1) f /\ distinct_corners f) fs.
Proof.
  intros fuel w points vs fs G H n sides. destruct (C63_none fuel w points G) as [[_ C] _].
  assert (N : 3 <= n) by (destruct (Z_lt_le_dec n 3) as [L|L]; [rewrite C in H by auto; discriminate|exact L]). clear C.
  destruct (mesh_of fuel w points G N) as (tvs & tfs & B & T & L & E). cbv zeta in E. rewrite E in H. clear E.
  set (coords := if is_empty (Wall_side_image w) then None else Some (compute_side_texture_coords points (Wall_drag_points w))) in *.
  destruct (is_empty tfs); [discriminate|]. apply some_pair in H. destruct H as [<- <-]. pose proof (side_count w points coords) as SC. pose proof (item_vertices _ _ _ B) as TV. cbn [fst] in TV.
  assert (LS : zlen (if sides_shown w then fst (build_side_mesh w points coords) else []) = sides) by (unfold sides, side_vertex_count; destruct (sides_shown w); [exact SC|reflexivity]).
  assert (LT : zlen (if top_shown w then tvs else []) = if top_shown w then n else 0) by (destruct (top_shown w); [exact L|reflexivity]).
  assert (LV : zlen (map wrap ((if sides_shown w then fst (build_side_mesh w points coords) else []) ++ (if top_shown w then tvs else []))) = sides + (if top_shown w then n else 0)).
  { unfold zlen in *. rewrite map_length, app_length. lia. }
  split; [exact LV|]. rewrite LV. split.
  - intros k v K E. rewrite nth_error_map in E. destruct (nth_error _ (Z.to_nat k)) as [x|] eqn:X; [|discriminate]. injection E as <-. split; [apply wrap_stored|]. cbn [wrap w_vertex].
    unfold wall_place. apply app_cases in X. destruct X as [[LK X]|[LK X]].
    + assert (KS : k < sides) by (rewrite <- LS; unfold zlen; lia). replace (k <? sides) with true by lia. destruct (sides_shown w); [|destruct (Z.to_nat k); discriminate].
      apply side_vertex in X. rewrite Z2Nat.id in X by exact K. apply X.
    + assert (KS : sides <= k) by (rewrite <- LS; unfold zlen; lia). replace (k <? sides) with false by lia. destruct (top_shown w); [|destruct (Z.to_nat k - _)%nat; discriminate].
      rewrite TV in X. apply top_corner in X. destruct X as (_ & X & _). replace (k - sides) with (Z.of_nat (Z.to_nat k - List.length (if sides_shown w then fst (build_side_mesh w points coords) else []))) by (unfold zlen in LS; lia). exact X.
  - apply Forall_app. split.
    + destruct (sides_shown w) eqn:SS; [|constructor]. apply Forall_forall. intros f I. apply side_faces_good in I. destruct I as [(I0 & I1 & I2) D]. split; [|exact D].
      assert (S4 : sides = 4 * n) by (unfold sides, side_vertex_count; rewrite SS; reflexivity). fold n in I0, I1, I2. unfold face_within. destruct (top_shown w); lia.
    + destruct (top_shown w); [|constructor]. apply Forall_map. destruct (C59_triangles triangulate_wall _ _ (or_introl eq_refl) T) as [_ F]. eapply Forall_impl; [|exact F].
      intros f [(I0 & I1 & I2) (D0 & D1 & D2)]. unfold zlen in I0, I1, I2. rewrite map_length in I0, I1, I2. fold (zlen points) in I0, I1, I2. fold n in I0, I1, I2.
      change (side_vertex_count w (zlen points)) with sides. clearbody sides n. assert (0 <= sides) by (rewrite <- LS; unfold zlen; lia). unfold face_within, distinct_corners, shifted. cbn [f_0 f_1 f_2]. lia.
Qed.
Print Assumptions C63_mesh.

(** ** The surface *)
Lemma between_shift n k fs : (forall f, In f fs -> face_within 0 (n - 1) f) -> map (between (wall_place n k)) (edges (map (shifted k) fs)) = map (between Top) (edges fs).
Proof.
  induction fs as [|f fs IH]; intros W; [reflexivity|]. cbn [map]. rewrite !edges_cons, !map_app, IH by (intros; apply W; right; assumption). f_equal.
  destruct (W f (or_introl eq_refl)) as (I0 & I1 & I2). assert (P : forall i, 0 <= i -> wall_place n k (i + k) = Top i) by (intros i I; unfold wall_place; replace (i + k <? k) with false by lia; f_equal; lia).
  unfold between, shifted. cbn [map fst snd f_0 f_1 f_2]. rewrite !P by lia. reflexivity.
Qed.
Lemma between_sides n fs : Forall (fun f => face_within 0 (4 * n - 1) f) fs -> map (between (wall_place n (4 * n))) (edges fs) = map (between (side_place n)) (edges fs).
Proof.
  intros F. induction F as [|f fs (I0 & I1 & I2) F IH]; [reflexivity|]. rewrite !edges_cons, !map_app, IH. f_equal.
  assert (P : forall i, i <= 4 * n - 1 -> wall_place n (4 * n) i = side_place n i) by (intros i I; unfold wall_place; replace (i <? 4 * n) with true by lia; reflexivity).
  unfold between. cbn [map fst snd]. rewrite !P by lia. reflexivity.
Qed.
Lemma shown_face_count w n side_fs (tfs : list face) k : zlen side_fs = 2 * n -> zlen ((if sides_shown w then side_fs else []) ++ (if top_shown w then map (shifted k) tfs else [])) =
  (if sides_shown w then 2 * n else 0) + (if top_shown w then zlen tfs else 0).
Proof. intros E. unfold zlen in *. rewrite app_length. destruct (sides_shown w), (top_shown w); rewrite ?map_length; cbn [List.length]; lia. Qed.

(** A wall that is shown as a whole, with all the triangles of its top: seen by its corners the mesh is a surface that is open only at the foot of
    the wall, and all of it has the same side outside, if the signed area of the outline is not above zero; otherwise the sides and the top have
    opposite sides outside. *)
Theorem C63_surface : forall fuel w points vs fs, get_vertices fuel (Wall_drag_points w) f32_four true = Ok points -> build_wall_mesh fuel w = Ok (Some (vs, fs)) ->
  sides_shown w = true -> top_shown w = true -> let n := zlen points in zlen fs = 2 * n + (n - 2) ->
  let es := map (between (wall_place n (4 * n))) (edges fs) in
  if lt32 f32_zero (signed_area (map flat_point points)) then ~ NoDup es else closed_surface (es ++ bottom_outline n).
Proof.
  intros fuel w points vs fs G H SS TS n C es. destruct (C63_none fuel w points G) as [[_ C0] _].
  assert (N : 3 <= n) by (destruct (Z_lt_le_dec n 3) as [L|L]; [rewrite C0 in H by auto; discriminate|exact L]). clear C0.
  destruct (mesh_of fuel w points G N) as (tvs & tfs & _ & T & _ & E). cbv zeta in E. rewrite E in H. clear E.
  set (coords := if is_empty (Wall_side_image w) then None else Some (compute_side_texture_coords points (Wall_drag_points w))) in *.
  destruct (is_empty tfs); [discriminate|]. apply some_pair in H. destruct H as [_ H]. assert (FC := shown_face_count w n (snd (build_side_mesh w points coords)) tfs (side_vertex_count w (zlen points)) (side_face_count w points coords)).
  rewrite H in FC. rewrite SS, TS in *. unfold side_vertex_count in H. rewrite SS in H.
  assert (LM : zlen (map flat_point points) = n) by (unfold n, zlen; rewrite map_length; reflexivity).
  destruct (top_filled _ _ T ltac:(lia) ltac:(lia)) as (ND & D). rewrite LM in D.
  assert (ES : es = flat_map (side_edges n) (steps n) ++ map (between Top) (edges tfs)).
  { unfold es. rewrite <- H. rewrite edges_app, map_app. f_equal.
    - rewrite between_sides; [unfold n; apply sides_placed|]. apply Forall_forall. intros f I. apply side_faces_good in I. apply I.
    - apply between_shift. intros f I. destruct (C59_triangles triangulate_wall _ _ (or_introl eq_refl) T) as [_ F]. rewrite Forall_forall in F. rewrite LM in F. apply F, I. }
  rewrite ES. destruct (lt32 f32_zero (signed_area (map flat_point points))); [apply wall_twice; assumption|]. destruct D as (B & ds & P). apply (wall_surface n tfs ds); assumption.
Qed.
Print Assumptions C63_surface.

(** For a file of the whole table: both surfaces whatever is visible, the sides as rectangles between the outlines and the top as the triangles that
    were found, with the same places *)
Theorem C63_meshes : forall fuel w td points top side, get_vertices fuel (Wall_drag_points w) f32_four true = Ok points -> build_wall_meshes fuel w td = Ok (Some (mkWallMeshes top side)) ->
  let n := zlen points in let at_corner (place_of : Z -> place) (vs : list wrapper) := forall k v, 0 <= k -> nth_error vs (Z.to_nat k) = Some v -> stored_vertex v /\
    corner_at points (Wall_height_bottom w) (Wall_height_top w) (place_of k) = Some (position_of (w_vertex v)) in
  exists side_vs side_fs, side = Some (side_vs, side_fs) /\ zlen side_vs = 4 * n /\ at_corner (side_place n) side_vs /\
    closed_surface (map (between (side_place n)) (edges side_fs) ++ map swap (top_outline n) ++ bottom_outline n) /\
    match top with
    | None => triangulate_wall (map flat_point points) = Ok []
    | Some (top_vs, top_fs) => zlen top_vs = n /\ at_corner Top top_vs /\ triangulate_wall (map flat_point points) = Ok top_fs /\
        (zlen top_fs = n - 2 -> lt32 f32_zero (signed_area (map flat_point points)) = false ->
         closed_surface ((map (between (side_place n)) (edges side_fs) ++ map (between Top) (edges top_fs)) ++ bottom_outline n))
    end.
Proof.
  intros fuel w td points top side G H n at_corner. destruct (C63_none fuel w points G) as [_ C0].
  assert (N : 3 <= n) by (destruct (Z_lt_le_dec n 3) as [L|L]; [specialize (C0 td); destruct C0 as [_ C0]; rewrite C0 in H by auto; discriminate|exact L]). clear C0.
  destruct (meshes_of fuel w td points G N) as (tvs & tfs & B & T & L & E). cbv zeta in E. rewrite E in H. clear E.
  set (coords := if is_empty (Wall_side_image w) && is_empty (Wall_image w) then None else Some (compute_side_texture_coords points (Wall_drag_points w))) in *.
  assert (HT : top = if is_empty tfs then None else Some (map wrap tvs, tfs)) by congruence.
  assert (HS : side = Some (map wrap (fst (build_side_mesh w points coords)), snd (build_side_mesh w points coords))) by congruence. clear H.
  exists (map wrap (fst (build_side_mesh w points coords))), (snd (build_side_mesh w points coords)). split; [exact HS|]. split; [unfold zlen; rewrite map_length; apply side_count|].
  assert (LM : zlen (map flat_point points) = n) by (unfold n, zlen; rewrite map_length; reflexivity). split; [|split].
  - intros k v K E. rewrite nth_error_map in E. destruct (nth_error _ (Z.to_nat k)) as [x|] eqn:X; [|discriminate]. injection E as <-. split; [apply wrap_stored|]. apply side_vertex in X. rewrite Z2Nat.id in X by exact K. apply X.
  - unfold n. rewrite sides_placed. apply sides_surface, N.
  - rewrite HT. destruct tfs as [|f tfs]; cbn [is_empty]; [exact T|]. split; [unfold zlen; rewrite map_length; exact L|]. split; [|split; [exact T|]].
    + intros k v K E. rewrite nth_error_map in E. destruct (nth_error _ (Z.to_nat k)) as [x|] eqn:X; [|discriminate]. injection E as <-. split; [apply wrap_stored|].
      pose proof (table_vertices _ _ _ _ B) as TV. cbn [fst] in TV. rewrite TV in X. apply top_corner in X. rewrite Z2Nat.id in X by exact K. apply X.
    + intros C S. destruct (top_filled _ _ T ltac:(lia) ltac:(lia)) as (ND & D). rewrite LM, S in D. destruct D as (BO & ds & P). unfold n at 1. rewrite sides_placed. apply (wall_surface n _ ds); assumption.
Qed.
Print Assumptions C63_meshes.

(** ** Texture coordinates of the top *)
Lemma outline_bounded fuel w points : moderate_wall w -> get_vertices fuel (Wall_drag_points w) f32_four true = Ok points -> Forall (within 54) (map rv_x points) /\ Forall (within 54) (map rv_y points).
Proof.
  intros M G. pose proof (vertices_bounded _ _ _ _ _ M G) as B. split; apply Forall_map; (eapply Forall_impl; [|exact B]); intros v [X Y]; assumption.
Qed.
(** The texture lies over the bounding box of the outline: the coordinates of the top are between zero and one. *)
Theorem C63_top_texture : forall fuel w points vs fs, moderate_wall w -> get_vertices fuel (Wall_drag_points w) f32_four true = Ok points -> build_wall_mesh fuel w = Ok (Some (vs, fs)) ->
  spread (map rv_x points) -> spread (map rv_y points) ->
  forall k v, side_vertex_count w (zlen points) <= k -> nth_error vs (Z.to_nat k) = Some v -> unit_interval (v_tu (w_vertex v)) /\ unit_interval (v_tv (w_vertex v)).
Proof.
  intros fuel w points vs fs M G H SX SY k v K E. destruct (C63_none fuel w points G) as [[_ C] _].
  assert (N : 3 <= zlen points) by (destruct (Z_lt_le_dec (zlen points) 3) as [L|L]; [rewrite C in H by auto; discriminate|exact L]). clear C.
  destruct (mesh_of fuel w points G N) as (tvs & tfs & B & _ & _ & Q). cbv zeta in Q. rewrite Q in H. clear Q.
  set (coords := if is_empty (Wall_side_image w) then None else Some (compute_side_texture_coords points (Wall_drag_points w))) in *.
  destruct (is_empty tfs); [discriminate|]. apply some_pair in H. destruct H as [<- _]. pose proof (side_count w points coords) as SC. pose proof (item_vertices _ _ _ B) as TV. cbn [fst] in TV.
  assert (LS : zlen (if sides_shown w then fst (build_side_mesh w points coords) else []) = side_vertex_count w (zlen points)) by (unfold side_vertex_count; destruct (sides_shown w); [exact SC|reflexivity]).
  rewrite nth_error_map in E. destruct (nth_error _ (Z.to_nat k)) as [x|] eqn:X; [|discriminate]. injection E as <-. cbn [wrap w_vertex]. apply app_cases in X. destruct X as [[LK X]|[LK X]]; [rewrite <- LS in K; unfold zlen in K; lia|].
  destruct (top_shown w); [|destruct (Z.to_nat k - _)%nat; discriminate]. rewrite TV in X. apply top_corner in X. destruct X as (_ & _ & p & P & -> & ->). apply nth_error_In in P.
  destruct (outline_bounded fuel w points M G) as [BX BY]. split; apply relative_unit; try assumption; apply in_map; exact P.
Qed.
Print Assumptions C63_top_texture.
(** For a file of the whole table the texture lies over the table: the coordinates of the top are between zero and one where the outline is on a table of some size. *)
Theorem C63_table_texture : forall fuel w points td top_vs top_fs side, moderate_wall w -> get_vertices fuel (Wall_drag_points w) f32_four true = Ok points ->
  build_wall_meshes fuel w td = Ok (Some (mkWallMeshes (Some (top_vs, top_fs)) side)) ->
  Forall moderate [td_left td; td_top td; td_right td; td_bottom td] -> exact (td_left td) + 2 ^ 49 <= exact (td_right td) -> exact (td_top td) + 2 ^ 49 <= exact (td_bottom td) ->
  Forall (fun p => exact (td_left td) <= exact (rv_x p) <= exact (td_right td) /\ exact (td_top td) <= exact (rv_y p) <= exact (td_bottom td)) points ->
  Forall (fun v => unit_interval (v_tu (w_vertex v)) /\ unit_interval (v_tv (w_vertex v))) top_vs.
Proof.
  intros fuel w points td top_vs top_fs side M G H MT WD HT ON. destruct (C63_none fuel w points G) as [_ C]. specialize (C td).
  assert (N : 3 <= zlen points) by (destruct (Z_lt_le_dec (zlen points) 3) as [L|L]; [destruct C as [_ C]; rewrite C in H by auto; discriminate|exact L]). clear C.
  destruct (meshes_of fuel w td points G N) as (tvs & tfs & B & _ & _ & E). cbv zeta in E. rewrite E in H. clear E.
  assert (HT' : (if is_empty tfs then None else Some (map wrap tvs, tfs)) = Some (top_vs, top_fs)) by congruence. clear H. destruct (is_empty tfs); [discriminate|]. assert (HV : map wrap tvs = top_vs) by congruence. rewrite <- HV.
  pose proof (table_vertices _ _ _ _ B) as TV. cbn [fst] in TV. rewrite TV. apply Forall_map, Forall_map. cbn [wrap w_vertex top_vertex v_tu v_tv]. apply Forall_forall. intros p P.
  destruct (outline_bounded fuel w points M G) as [BX BY]. rewrite Forall_forall in BX, BY, ON. destruct (ON p P) as [OX OY].
  inversion MT as [|? ? M1 MT1]; subst. inversion MT1 as [|? ? M2 MT2]; subst. inversion MT2 as [|? ? M3 MT3]; subst. inversion MT3 as [|? ? M4 _]; subst.
  assert (W : forall x, moderate x -> within 54 x) by (intros x X; exact (within_mono 20 54 _ ltac:(lia) (moderate_within x X))).
  split; apply on_table_unit; auto; [apply BX|apply BY]; apply in_map; exact P.
Qed.
Print Assumptions C63_table_texture.

(** ** Texture coordinates of the sides *)
(** A mesh of the wall begins with the vertices of its sides, and they have a texture: in the mesh of the wall that of the sides; in the mesh for a file of
    the whole table that of the sides or of the top *)
Inductive shows_sides (fuel : nat) (w : Wall) (vs : list wrapper) (textured : bool) : Prop :=
| in_one fs : build_wall_mesh fuel w = Ok (Some (vs, fs)) -> sides_shown w = true -> textured = negb (is_empty (Wall_side_image w)) -> shows_sides fuel w vs textured
| in_table td top fs : build_wall_meshes fuel w td = Ok (Some (mkWallMeshes top (Some (vs, fs)))) -> textured = negb (is_empty (Wall_side_image w) && is_empty (Wall_image w)) -> shows_sides fuel w vs textured.
Lemma sides_of fuel w vs textured points : shows_sides fuel w vs textured -> get_vertices fuel (Wall_drag_points w) f32_four true = Ok points ->
  3 <= zlen points /\ forall k v, 0 <= k < 4 * zlen points -> nth_error vs (Z.to_nat k) = Some v <-> (exists x, v = wrap x /\
    nth_error (fst (build_side_mesh w points (if textured then Some (compute_side_texture_coords points (Wall_drag_points w)) else None))) (Z.to_nat k) = Some x).
Proof.
  intros H G. destruct (C63_none fuel w points G) as [[_ C1] C2]. destruct H as [fs H SS ->|td top fs H ->].
  - assert (N : 3 <= zlen points) by (destruct (Z_lt_le_dec (zlen points) 3) as [L|L]; [rewrite C1 in H by auto; discriminate|exact L]). split; [exact N|]. clear C1 C2.
    destruct (mesh_of fuel w points G N) as (tvs & tfs & _ & _ & _ & Q). cbv zeta in Q. rewrite Q in H. clear Q. rewrite SS in H.
    destruct (is_empty tfs); [discriminate|]. apply some_pair in H. destruct H as [<- _]. intros k v K.
    replace (if negb (is_empty (Wall_side_image w)) then Some (compute_side_texture_coords points (Wall_drag_points w)) else None) with
            (if is_empty (Wall_side_image w) then None else Some (compute_side_texture_coords points (Wall_drag_points w))) by (destruct (is_empty (Wall_side_image w)); reflexivity).
    match goal with |- context [build_side_mesh w points ?c] => set (coords := c) end. pose proof (side_count w points coords) as SC. rewrite nth_error_map. rewrite nth_error_app1 by (unfold zlen in *; lia).
    destruct (nth_error _ (Z.to_nat k)) as [x|]; cbn [option_map]; [split; [intros E; exists x; split; congruence|intros (y & -> & E); congruence]|split; [discriminate|intros (y & _ & E); discriminate]].
  - specialize (C2 td). assert (N : 3 <= zlen points) by (destruct (Z_lt_le_dec (zlen points) 3) as [L|L]; [destruct C2 as [_ C2]; rewrite C2 in H by auto; discriminate|exact L]). split; [exact N|]. clear C1 C2.
    destruct (meshes_of fuel w td points G N) as (tvs & tfs & _ & _ & _ & Q). cbv zeta in Q. rewrite Q in H. clear Q. intros k v K.
    replace (if negb (is_empty (Wall_side_image w) && is_empty (Wall_image w)) then Some (compute_side_texture_coords points (Wall_drag_points w)) else None) with
            (if is_empty (Wall_side_image w) && is_empty (Wall_image w) then None else Some (compute_side_texture_coords points (Wall_drag_points w))) by (destruct (is_empty (Wall_side_image w) && is_empty (Wall_image w)); reflexivity).
    match goal with |- context [build_side_mesh w points ?c] => set (coords := c) in * end. assert (HV : map wrap (fst (build_side_mesh w points coords)) = vs) by congruence. rewrite <- HV, nth_error_map.
    destruct (nth_error _ (Z.to_nat k)) as [x|]; cbn [option_map]; [split; [intros E; exists x; split; congruence|intros (y & -> & E); congruence]|split; [discriminate|intros (y & _ & E); discriminate]].
Qed.
Lemma coordinate_of fuel w vs points i x : shows_sides fuel w vs true -> get_vertices fuel (Wall_drag_points w) f32_four true = Ok points -> 0 <= i < zlen points ->
  (side_coordinate vs i x <-> x = nth (Z.to_nat i) (compute_side_texture_coords points (Wall_drag_points w)) f32_zero).
Proof.
  intros S G I. destruct (sides_of fuel w vs true points S G) as [N E]. cbv iota in E. set (c := compute_side_texture_coords points (Wall_drag_points w)) in *.
  assert (X : exists y, nth_error (fst (build_side_mesh w points (Some c))) (Z.to_nat (4 * i)) = Some y).
  { destruct (nth_error (fst (build_side_mesh w points (Some c))) (Z.to_nat (4 * i))) as [y|] eqn:Y; [eauto|]. apply nth_error_None in Y. pose proof (side_count w points (Some c)) as SC. unfold zlen in *. lia. }
  destruct X as (y & Y). pose proof (proj2 (E (4 * i) (wrap y) ltac:(lia)) (ex_intro _ y (conj eq_refl Y))) as V. apply side_vertex in Y. destruct Y as (_ & _ & Y). rewrite Z2Nat.id in Y by lia. unfold side_place in Y.
  replace ((4 * i) mod 4) with 0 in Y by (rewrite Z.mul_comm, Z.mod_mul; lia). cbv zeta in Y. change (0 =? 0) with true in Y. cbv iota in Y. replace (4 * i / 4) with i in Y by (rewrite Z.mul_comm, Z.div_mul; lia). destruct Y as [Y _].
  unfold side_coordinate. split.
  - intros (v & V' & <-). rewrite V in V'. injection V' as <-. exact Y.
  - intros ->. exists (wrap y). split; [exact V|exact Y].
Qed.
(** A texture goes from the top of the sides to their foot, and vertices at the same point of the outline have the same coordinate along it; without a
    texture there are no coordinates. *)
Theorem C63_side_texture : forall fuel w vs textured points, shows_sides fuel w vs textured -> get_vertices fuel (Wall_drag_points w) f32_four true = Ok points ->
  forall k v, 0 <= k < 4 * zlen points -> nth_error vs (Z.to_nat k) = Some v ->
  if textured
  then match side_place (zlen points) k with
       | Top i => side_coordinate vs i (v_tu (w_vertex v)) /\ v_tv (w_vertex v) = f32_zero
       | Bottom i => side_coordinate vs i (v_tu (w_vertex v)) /\ v_tv (w_vertex v) = f32_one
       | _ => False
       end
  else v_tu (w_vertex v) = f32_zero /\ v_tv (w_vertex v) = f32_zero.
Proof.
  intros fuel w vs textured points S G k v K V. destruct (sides_of fuel w vs textured points S G) as [N E]. apply E in V; [|exact K]. destruct V as (x & -> & X). apply side_vertex in X. rewrite Z2Nat.id in X by lia. destruct X as (_ & _ & X).
  cbn [wrap w_vertex]. assert (P : forall i, (side_place (zlen points) k = Top i \/ side_place (zlen points) k = Bottom i) -> 0 <= i < zlen points).
  { intros i. assert (0 <= k / 4 < zlen points) by (Z.div_mod_to_equations; lia). unfold side_place. cbv zeta. destruct (k / 4 =? zlen points - 1) eqn:Q; destruct (k mod 4 =? 0), (k mod 4 =? 1), (k mod 4 =? 2); intros [D|D]; try discriminate; injection D as <-; lia. }
  destruct textured; [|destruct (side_place (zlen points) k); try contradiction; exact X].
  destruct (side_place (zlen points) k) as [| |i|i]; try contradiction; destruct X as [X1 X2]; (split; [|exact X2]); rewrite X1; apply (coordinate_of fuel w vs points i _ S G); auto.
Qed.
Print Assumptions C63_side_texture.

Lemma nth_filter {A} (f : A -> bool) : forall l j x, nth_error (filter f l) j = Some x -> exists i, nth_error l i = Some x /\ f x = true /\ List.length (filter f (firstn i l)) = j.
Proof.
  induction l as [|a l IH]; intros j x H; [destruct j; discriminate|]. cbn [filter] in H. destruct (f a) eqn:F.
  - destruct j as [|j]; [cbn in H; injection H as <-; exists 0%nat; auto|]. cbn [nth_error] in H. destruct (IH j x H) as (i & N & Fx & L). exists (S i). cbn [nth_error firstn filter]. rewrite F. cbn [List.length]. auto.
  - destruct (IH j x H) as (i & N & Fx & L). exists (S i). cbn [nth_error firstn filter]. rewrite F. auto.
Qed.
Lemma skipn_tail {A} : forall m (l r : list A) x, x :: r = skipn m l -> r = skipn (S m) l.
Proof. induction m as [|m IH]; intros [|a l] r x H; try discriminate; [injection H as -> ->; reflexivity|]. exact (IH l r x H). Qed.
Lemma kept_all dps : 2 <= zlen dps -> apart_points dps -> kept coincide true dps = dps.
Proof.
  intros N A. unfold kept. change (segment_count true dps) with (zlen dps).
  assert (L : forall l m, (m + List.length l)%nat = List.length dps -> l = skipn m dps -> flat_map (fun i => match neighbour true dps i, neighbour true dps (i + 1) with Some p, Some q => if coincide p q then [] else [p] | _, _ => [] end) (map Z.of_nat (seq m (List.length l))) = l).
  { induction l as [|x l IH]; intros m ML E; [reflexivity|]. cbn [List.length seq map flat_map]. cbn [List.length] in ML. rewrite IH.
    - assert (X : nth_error dps m = Some x) by (rewrite <- (firstn_skipn m dps), <- E, nth_error_app2; rewrite firstn_length, Nat.min_l by lia; [rewrite Nat.sub_diag; reflexivity|lia]).
      assert (P : neighbour true dps (Z.of_nat m) = Some x) by (unfold neighbour; cbv zeta; rewrite Z.mod_small by (unfold zlen; lia); rewrite Nat2Z.id; exact X).
      assert (Q : exists q, neighbour true dps (Z.of_nat m + 1) = Some q).
      { unfold neighbour. cbv zeta. destruct (nth_error dps (Z.to_nat ((Z.of_nat m + 1) mod zlen dps))) as [q|] eqn:Q; [eauto|]. apply nth_error_None in Q. pose proof (Z.mod_pos_bound (Z.of_nat m + 1) (zlen dps) ltac:(lia)). unfold zlen in *. lia. }
      destruct Q as (q & Q). rewrite P, Q, (A _ _ _ P Q). reflexivity.
    - lia.
    - exact (skipn_tail _ _ _ _ E). }
  specialize (L dps 0%nat eq_refl eq_refl). unfold steps. unfold zlen. rewrite Nat2Z.id. exact L.
Qed.
(** A drag point that has a coordinate of its own gives it to the sides, if no drag point coincides with the next one. *)
Theorem C63_manual : forall fuel w vs points, shows_sides fuel w vs true -> get_vertices fuel (Wall_drag_points w) f32_four true = Ok points -> apart_points (Wall_drag_points w) ->
  (forall p, In p (Wall_drag_points w) -> dp_has_auto_texture p = false -> moderate (dp_tex_coord p)) ->
  forall j p, 0 <= j -> nth_error (Wall_drag_points w) (Z.to_nat j) = Some p -> dp_has_auto_texture p = false ->
  exists i x, nth_error points (Z.to_nat i) = Some (corner_of p) /\ is_drag_point points i j /\ side_coordinate vs i x /\ exact x = exact (dp_tex_coord p).
Proof.
  intros fuel w vs points S G A M j p J P AT. destruct (sides_of fuel w vs true points S G) as [N _].
  assert (N2 : 2 <= zlen (Wall_drag_points w)).
  { destruct (Z.lt_ge_cases (zlen (Wall_drag_points w)) 2) as [L|L]; [|lia]. unfold get_vertices in G. cbv zeta in G. unfold zlen in L. replace (List.length (Wall_drag_points w) <? 2)%nat with true in G by lia. injection G as <-. unfold zlen in N. cbn in N. lia. }
  pose proof (C60_corners _ _ _ _ _ G N2) as C. rewrite (kept_all _ N2 A) in C. assert (D : nth_error (filter rv_control_point points) (Z.to_nat j) = Some (corner_of p)) by (rewrite C, nth_error_map, P; reflexivity).
  apply nth_filter in D. destruct D as (i & X & CP & L).
  assert (I : In (Z.to_nat j, i) (manual_points (Wall_drag_points w) points 0 0)) by (apply manual_in; exists i, (corner_of p), p; rewrite L; auto 6).
  destruct (manual_value (Wall_drag_points w) points i (Z.to_nat j) M I) as (p' & P' & E). rewrite P in P'. injection P' as <-.
  exists (Z.of_nat i), (nth i (compute_side_texture_coords points (Wall_drag_points w)) f32_zero). rewrite Nat2Z.id. split; [exact X|]. split; [|split; [|exact E]].
  - exists (corner_of p). rewrite Nat2Z.id. unfold zlen. rewrite L. split; [exact X|]. split; [exact CP|lia].
  - apply (coordinate_of fuel w vs points _ _ S G); [|rewrite Nat2Z.id; reflexivity]. assert (i < List.length points)%nat by (apply nth_error_Some; congruence). unfold zlen. lia.
Qed.
Print Assumptions C63_manual.
(** When no drag point has a coordinate of its own, the texture goes once round the wall: it starts at zero, never goes back and stays within one. *)
Theorem C63_automatic : forall fuel w vs points, shows_sides fuel w vs true -> get_vertices fuel (Wall_drag_points w) f32_four true = Ok points -> moderate_wall w ->
  Forall (fun p => dp_has_auto_texture p = true) (Wall_drag_points w) ->
  (exists x, side_coordinate vs 0 x /\ exact x = 0) /\
  (forall i j x y, 0 <= i <= j -> j < zlen points -> side_coordinate vs i x -> side_coordinate vs j y -> unit_interval x /\ le32 x y).
Proof.
  intros fuel w vs points S G M AU. destruct (sides_of fuel w vs true points S G) as [N _]. pose proof (vertices_bounded _ _ _ _ _ M G) as B.
  assert (E : manual_points (Wall_drag_points w) points 0 0 = []).
  { destruct (manual_points (Wall_drag_points w) points 0 0) as [|[j i] r] eqn:Q; [reflexivity|exfalso]. assert (I : In (j, i) (manual_points (Wall_drag_points w) points 0 0)) by (rewrite Q; left; reflexivity).
    apply manual_in in I. destruct I as (_ & _ & p & _ & _ & _ & _ & P & F). rewrite Forall_forall in AU. rewrite (AU p (nth_error_In _ _ P)) in F. discriminate. }
  pose proof (automatic_value _ _ B E) as V. cbv zeta in V. split.
  - exists (nth 0 (compute_side_texture_coords points (Wall_drag_points w)) f32_zero). split; [apply (coordinate_of fuel w vs points 0 _ S G); [lia|reflexivity]|].
    destruct (V 0%nat) as (F & X & _); [unfold zlen in N; lia|]. change 0 with (exact f32_zero). apply same_exact; [exact F|apply zero_val|]. rewrite X, (proj2 zero_val). apply fraction_zero.
  - intros i j x y I J CX CY. apply (coordinate_of fuel w vs points i _ S G) in CX; [|lia]. apply (coordinate_of fuel w vs points j _ S G) in CY; [|lia]. subst x y.
    destruct (V (Z.to_nat i)) as (FX & EX & BX); [unfold zlen in J; lia|]. destruct (V (Z.to_nat j)) as (FY & EY & BY); [unfold zlen in J; lia|].
    split; [apply unit_of; [exact FX|rewrite EX; exact BX]|]. apply le_val; [exact FX|exact FY|]. rewrite EX, EY. apply run_mono; [exact B|]. unfold zlen in J. lia.
Qed.
Print Assumptions C63_automatic.

(** ** Cases *)
Definition textured_wall (dps : list DragPoint) : Wall := set_Wall_drag_points dps (set_Wall_side_image (lit "bricks") (set_Wall_is_side_visible true (set_Wall_is_top_bottom_visible true Wall_default))).
Definition auto_point (x y : Z) (smooth : bool) : DragPoint := mkDragPoint (int32 x) (int32 y) f32_zero smooth None true f32_zero false None None None.
Definition own_point (x y : Z) (t : f32) : DragPoint := mkDragPoint (int32 x) (int32 y) f32_zero false None false t false None None None.
Definition square : list DragPoint := [auto_point 0 0 false; auto_point 0 20 true; auto_point 20 20 false; auto_point 20 0 false].
Definition owned : list DragPoint := [auto_point 0 0 false; own_point 0 100 f32_half; auto_point 100 100 false; own_point 100 0 f32_two].
Definition whole_table : TableDimensions := mkTableDimensions (int32 (-100)) (int32 (-100)) (int32 1000) (int32 2000).
(** What can be computed of a wall *)
Definition outline_of (w : Wall) : list RenderVertex := match get_vertices 151 (Wall_drag_points w) f32_four true with Ok l => l | _ => [] end.
Definition mesh_in (w : Wall) : list wrapper * list face := match build_wall_mesh 151 w with Ok (Some m) => m | _ => ([], []) end.
Lemma moderate_cases dps : forallb (fun p => forallb (fun v => (Z.abs (exact v) <=? 2 ^ 20 * 2 ^ 149) && match f32_value v with S754_finite _ _ _ | S754_zero _ => true | _ => false end) (flat_coordinates p)) dps = true ->
  Forall (fun p => Forall moderate (flat_coordinates p)) dps.
Proof.
  intros H. apply Forall_forall. intros p P. apply Forall_forall. intros v V. rewrite forallb_forall in H. specialize (H p P). rewrite forallb_forall in H. specialize (H v V). apply andb_true_iff in H. destruct H as [H1 H2].
  split; [|apply Z.leb_le, H1]. unfold finite32. destruct (f32_value v); try discriminate; exact I.
Qed.
Example C63_total_case : moderate_wall (textured_wall square).
Proof. apply moderate_cases. vm_compute. reflexivity. Qed.
Example C63_none_case : get_vertices 151 (Wall_drag_points (textured_wall [auto_point 0 0 false; auto_point 9 0 false])) f32_four true = Ok (outline_of (textured_wall [auto_point 0 0 false; auto_point 9 0 false])) /\
  zlen (outline_of (textured_wall [auto_point 0 0 false; auto_point 9 0 false])) = 2.
Proof. split; vm_compute; reflexivity. Qed.
(** The square with a rounded corner, shown as a whole, with all the triangles of its top *)
Example C63_mesh_case : let w := textured_wall square in get_vertices 151 (Wall_drag_points w) f32_four true = Ok (outline_of w) /\ build_wall_mesh 151 w = Ok (Some (mesh_in w)) /\
  sides_shown w = true /\ top_shown w = true /\ 4 < zlen (outline_of w) /\ zlen (snd (mesh_in w)) = 2 * zlen (outline_of w) + (zlen (outline_of w) - 2) /\ lt32 f32_zero (signed_area (map flat_point (outline_of w))) = false.
Proof. vm_compute. repeat split; reflexivity. Qed.
Example C63_meshes_case : exists top side, build_wall_meshes 151 (textured_wall square) whole_table = Ok (Some (mkWallMeshes (Some top) side)).
Proof. eexists _, _. vm_compute. reflexivity. Qed.
Example C63_top_texture_case : spread (map rv_x (outline_of (textured_wall square))) /\ spread (map rv_y (outline_of (textured_wall square))).
Proof. split; right; exists (int32 0), (int32 20); (split; [vm_compute; auto 20|]); (split; [vm_compute; auto 60|]); vm_compute; discriminate. Qed.
Example C63_table_texture_case : let td := whole_table in exact (td_left td) + 2 ^ 49 <= exact (td_right td) /\ exact (td_top td) + 2 ^ 49 <= exact (td_bottom td) /\
  forallb (fun p => (exact (td_left td) <=? exact (rv_x p)) && (exact (rv_x p) <=? exact (td_right td)) && (exact (td_top td) <=? exact (rv_y p)) && (exact (rv_y p) <=? exact (td_bottom td))) (outline_of (textured_wall square)) = true.
Proof. split; [vm_compute; discriminate|]. split; [vm_compute; discriminate|]. vm_compute. reflexivity. Qed.
Lemma in_square dps : build_wall_mesh 151 (textured_wall dps) = Ok (Some (mesh_in (textured_wall dps))) -> shows_sides 151 (textured_wall dps) (fst (mesh_in (textured_wall dps))) true.
Proof. intros H. apply (in_one _ _ _ _ (snd (mesh_in (textured_wall dps)))); [rewrite <- surjective_pairing; exact H|reflexivity|reflexivity]. Qed.
Example C63_automatic_case : shows_sides 151 (textured_wall square) (fst (mesh_in (textured_wall square))) true /\ Forall (fun p => dp_has_auto_texture p = true) square.
Proof. split; [apply in_square; vm_compute; reflexivity|repeat constructor]. Qed.
Lemma apart_cases dps : forallb (fun i => match neighbour true dps i, neighbour true dps (i + 1) with Some p, Some q => negb (coincide p q) | _, _ => true end) (steps (zlen dps)) = true -> 0 < zlen dps -> apart_points dps.
Proof.
  intros H N i p q P Q. assert (E : neighbour true dps i = neighbour true dps (i mod zlen dps)) by (unfold neighbour; cbv zeta; rewrite Zmod_mod; reflexivity).
  assert (E' : neighbour true dps (i + 1) = neighbour true dps (i mod zlen dps + 1)) by (unfold neighbour; cbv zeta; rewrite Zplus_mod_idemp_l; reflexivity).
  rewrite forallb_forall in H. specialize (H (i mod zlen dps) (proj2 (steps_in _ _) (Z.mod_pos_bound _ _ N))). rewrite <- E, <- E', P, Q in H. destruct (coincide p q); [discriminate|reflexivity].
Qed.
Example C63_manual_case : shows_sides 151 (textured_wall owned) (fst (mesh_in (textured_wall owned))) true /\ apart_points owned /\
  nth_error owned (Z.to_nat 3) = Some (own_point 100 0 f32_two) /\ moderate f32_half /\ moderate f32_two.
Proof.
  split; [apply in_square; vm_compute; reflexivity|]. split; [apply apart_cases; vm_compute; reflexivity|]. split; [reflexivity|]. split; (split; [exact I|vm_compute; discriminate]).
Qed.

(** ** What does not hold *)
(** An outline in the other direction: the sides face the other way, the top does not. *)
Theorem C63_inside_out_refuted : ~ (forall fuel w points vs fs, moderate_wall w -> get_vertices fuel (Wall_drag_points w) f32_four true = Ok points -> build_wall_mesh fuel w = Ok (Some (vs, fs)) ->
  sides_shown w = true -> top_shown w = true -> zlen fs = 2 * zlen points + (zlen points - 2) -> NoDup (map (between (wall_place (zlen points) (4 * zlen points))) (edges fs))).
Proof.
  intros H. set (w := textured_wall [auto_point 20 0 false; auto_point 20 20 false; auto_point 0 20 false; auto_point 0 0 false]).
  assert (M : moderate_wall w) by (apply moderate_cases; vm_compute; reflexivity).
  assert (G : get_vertices 151 (Wall_drag_points w) f32_four true = Ok (outline_of w)) by (vm_compute; reflexivity). assert (B : build_wall_mesh 151 w = Ok (Some (fst (mesh_in w), snd (mesh_in w)))) by (vm_compute; reflexivity).
  assert (C : zlen (snd (mesh_in w)) = 2 * zlen (outline_of w) + (zlen (outline_of w) - 2)) by (vm_compute; reflexivity).
  pose proof (C63_surface 151 w _ _ _ G B eq_refl eq_refl C) as S. cbv zeta in S.
  assert (A : lt32 f32_zero (signed_area (map flat_point (outline_of w))) = true) by (vm_compute; reflexivity). rewrite A in S. apply S. exact (H 151%nat w _ _ _ M G B eq_refl eq_refl C).
Qed.
Print Assumptions C63_inside_out_refuted.
(** A wall of which only the sides are visible can have no mesh at all, because no triangle was found for its top; for a file of the whole table its sides are there. *)
Definition jagged_wall : Wall := set_Wall_is_top_bottom_visible false (textured_wall (map (fun p => mkDragPoint (fst p) (snd p) f32_zero false None true f32_zero false None None None) jagged)).
Theorem C63_hidden_refuted : ~ (forall fuel w td top side, moderate_wall w -> Wall_is_side_visible w = true -> Wall_is_top_bottom_visible w = false ->
  build_wall_meshes fuel w td = Ok (Some (mkWallMeshes top (Some side))) -> exists m, build_wall_mesh fuel w = Ok (Some m)).
Proof.
  intros H. assert (M : moderate_wall jagged_wall) by (apply moderate_cases; vm_compute; reflexivity).
  assert (E : exists top side, build_wall_meshes 151 jagged_wall whole_table = Ok (Some (mkWallMeshes top (Some side)))) by (eexists _, _; vm_compute; reflexivity). destruct E as (top & side & E).
  assert (N : build_wall_mesh 151 jagged_wall = Ok None) by (vm_compute; reflexivity). destruct (H 151%nat jagged_wall whole_table top side M eq_refl eq_refl E) as (m & C). congruence.
Qed.
Print Assumptions C63_hidden_refuted.
(** The texture of an outline that is narrower than 2^-128: the inverse of the width is infinite, and the coordinate at the left is not a number. *)
Definition narrow_wall : Wall := textured_wall [auto_point 0 0 false; mkDragPoint (Z_to_w32 512) (int32 100) f32_zero false None true f32_zero false None None None; auto_point 0 200 false].
Theorem C63_top_texture_refuted : ~ (forall fuel w points vs fs, moderate_wall w -> get_vertices fuel (Wall_drag_points w) f32_four true = Ok points -> build_wall_mesh fuel w = Ok (Some (vs, fs)) ->
  forall k v, side_vertex_count w (zlen points) <= k -> nth_error vs (Z.to_nat k) = Some v -> unit_interval (v_tu (w_vertex v)) /\ unit_interval (v_tv (w_vertex v))).
Proof.
  intros H. set (w := narrow_wall).
  assert (M : moderate_wall w) by (apply moderate_cases; vm_compute; reflexivity).
  assert (G : get_vertices 151 (Wall_drag_points w) f32_four true = Ok (outline_of w)) by (vm_compute; reflexivity). assert (B : build_wall_mesh 151 w = Ok (Some (fst (mesh_in w), snd (mesh_in w)))) by (vm_compute; reflexivity).
  destruct (nth_error (fst (mesh_in w)) (Z.to_nat 12)) as [v|] eqn:V; [|vm_compute in V; discriminate].
  destruct (H 151%nat w _ _ _ M G B 12 v ltac:(vm_compute; discriminate) V) as [[U _] _]. vm_compute in V. apply (f_equal (fun o => match o with Some x => v_tu (w_vertex x) | None => f32_zero end)) in V. cbn in V. rewrite <- V in U. vm_compute in U. discriminate.
Qed.
Print Assumptions C63_top_texture_refuted.
(** When a drag point coincides with the next one, the coordinates go to other points of the outline. *)
Definition doubled : list DragPoint := [own_point 0 0 f32_zero; own_point 0 0 f32_half; own_point 0 100 f32_one; own_point 100 100 f32_two; own_point 100 0 f32_zero].
Theorem C63_manual_refuted : ~ (forall fuel w vs points, shows_sides fuel w vs true -> get_vertices fuel (Wall_drag_points w) f32_four true = Ok points ->
  (forall p, In p (Wall_drag_points w) -> dp_has_auto_texture p = false -> moderate (dp_tex_coord p)) ->
  forall i p x, nth_error points (Z.to_nat i) = Some (corner_of p) -> In p (kept coincide true (Wall_drag_points w)) -> dp_has_auto_texture p = false -> side_coordinate vs i x -> exact x = exact (dp_tex_coord p)).
Proof.
  intros H. set (w := textured_wall doubled).
  assert (S : shows_sides 151 w (fst (mesh_in w)) true) by (apply in_square; vm_compute; reflexivity). assert (G : get_vertices 151 (Wall_drag_points w) f32_four true = Ok (outline_of w)) by (vm_compute; reflexivity).
  assert (M : forall p, In p (Wall_drag_points w) -> dp_has_auto_texture p = false -> moderate (dp_tex_coord p)).
  { intros p P _. cbn in P. destruct P as [<-|[<-|[<-|[<-|[<-|[]]]]]]; (split; [exact I|vm_compute; discriminate]). }
  assert (X : exact f32_half = exact f32_one); [|vm_compute in X; discriminate].
  apply (H 151%nat w _ _ S G M 1 (own_point 0 100 f32_one) f32_half); [vm_compute; reflexivity|vm_compute; auto|reflexivity|].
  apply (coordinate_of 151 w _ _ 1 _ S G); [vm_compute; split; [discriminate|reflexivity]|vm_compute; reflexivity].
Qed.
Print Assumptions C63_manual_refuted.
(** The last side goes back to the start of the texture instead of on to its end. *)
Theorem C63_round_refuted : ~ (forall fuel w vs points, shows_sides fuel w vs true -> get_vertices fuel (Wall_drag_points w) f32_four true = Ok points -> moderate_wall w ->
  Forall (fun p => dp_has_auto_texture p = true) (Wall_drag_points w) ->
  forall i v v', 0 <= i < zlen points -> nth_error vs (Z.to_nat (4 * i + 1)) = Some v -> nth_error vs (Z.to_nat (4 * i + 2)) = Some v' -> le32 (v_tu (w_vertex v)) (v_tu (w_vertex v'))).
Proof.
  intros H. set (w := textured_wall [auto_point 0 0 false; auto_point 0 100 false; auto_point 100 100 false; auto_point 100 0 false]).
  assert (M : moderate_wall w) by (apply moderate_cases; vm_compute; reflexivity).
  assert (S : shows_sides 151 w (fst (mesh_in w)) true) by (apply in_square; vm_compute; reflexivity). assert (G : get_vertices 151 (Wall_drag_points w) f32_four true = Ok (outline_of w)) by (vm_compute; reflexivity).
  destruct (nth_error (fst (mesh_in w)) (Z.to_nat (4 * 3 + 1))) as [v|] eqn:V; [|vm_compute in V; discriminate]. destruct (nth_error (fst (mesh_in w)) (Z.to_nat (4 * 3 + 2))) as [v'|] eqn:V'; [|vm_compute in V'; discriminate].
  pose proof (H 151%nat w _ _ S G M ltac:(repeat constructor) 3 v v' ltac:(vm_compute; split; [discriminate|reflexivity]) V V') as L.
  vm_compute in V, V'. apply (f_equal (fun o => match o with Some x => v_tu (w_vertex x) | None => f32_zero end)) in V, V'. cbn in V, V'. rewrite <- V, <- V' in L. vm_compute in L. discriminate.
Qed.
Print Assumptions C63_round_refuted.

(** Meshes of ramps and their height at a place: src/vpx/mesh/ramps.rs, with the helpers of src/vpx/math/vec.rs and src/vpx/mesh/mod.rs they use.

    The casts of indices to [u32] and [i64] lose nothing below 2^30 vertices and are left out.  Sine and cosine are arguments. *)
From Coq Require Import Floats.SpecFloat.
From Verif Require Import Base Text Json Image Sound Quantize ColorText Cfb JsonFloat Mesh Browser Common Enums ItemRamp Builtin Polygon Smooth FileSystem Walls RubberMesh.

(** [0.0001_f32], [20.0], [3.0], [1e-12], [0.1] *)
Definition f32_parallel : f32 := Z_to_w32 0x38d1b717.
Definition f32_20 : f32 := Z_to_w32 0x41a00000.
Definition f32_3 : f32 := Z_to_w32 0x40400000.
Definition f32_1e_12 : f32 := Z_to_w32 0x2b8cbccc.
Definition f32_tenth : f32 := Z_to_w32 0x3dcccccd.

(** ** math/vec.rs *)
(** vec.rs:9-14 [Vec2], 22-30 [Add], 32-40 [Sub], 42-50 [Mul<f32>] *)
Definition Vec2 : Set := (f32 * f32)%type.
Definition add2 (a b : Vec2) : Vec2 := (add32 (fst a) (fst b), add32 (snd a) (snd b)).
Definition sub2 (a b : Vec2) : Vec2 := (sub32 (fst a) (fst b), sub32 (snd a) (snd b)).
Definition scale2 (a : Vec2) (s : f32) : Vec2 := (mul32 (fst a) s, mul32 (snd a) s).
(** vec.rs:53-55 [length], 57-67 [normalize] *)
Definition length2 (a : Vec2) : f32 := sqrt32 (add32 (mul32 (fst a) (fst a)) (mul32 (snd a) (snd a))).
Definition normalize2 (a : Vec2) : Vec2 := let len := length2 a in if eq32b len f32_zero then (f32_zero, f32_zero) else (div32 (fst a) len, div32 (snd a) len).

(** ** The sides of a ramp *)
(** ramps.rs:137-146 [is_habitrail] *)
Definition is_habitrail (r : Ramp) : bool := match Ramp_ramp_type r with RampType_Flat => false | _ => true end.
Definition one_wire (r : Ramp) : bool := match Ramp_ramp_type r with RampType_OneWire => true | _ => false end.
Definition vertex_at (curve : list RenderVertex3) (i : nat) : RenderVertex3 := nth i curve (mkRV3 f32_zero f32_zero f32_zero false false).
Definition flat_at (curve : list RenderVertex3) (i : nat) : Vec2 := (r3_x (vertex_at curve i), r3_y (vertex_at curve i)).
(** ramps.rs:32-41: the length of the curve *)
Definition step_length (a b : Vec2) : f32 := length2 (sub2 a b).
Definition total_length (curve : list RenderVertex3) : f32 :=
  fold_left add32 (map (fun i => step_length (flat_at curve i) (flat_at curve (S i))) (seq 0 (List.length curve - 1))) f32_zero.
(** ramps.rs:48-51: the vertices before and after *)
Definition previous (i : nat) : nat := if (0 <? i)%nat then (i - 1)%nat else i.
Definition following (curve : list RenderVertex3) (i : nat) : nat := if (i <? List.length curve - 1)%nat then (i + 1)%nat else i.
(** ramps.rs:99-104: the length so far, summed up again at each vertex here *)
Definition current_length (curve : list RenderVertex3) (i : nat) : f32 :=
  fold_left add32 (map (fun k => step_length (flat_at curve (previous k)) (flat_at curve k)) (seq 0 (S i))) f32_zero.
(** ramps.rs:106-110 *)
Definition percentage (curve : list RenderVertex3) (i : nat) : f32 := if lt32 f32_zero (total_length curve) then div32 (current_length curve i) (total_length curve) else f32_zero.
(** ramps.rs:53-97: the direction across the ramp *)
Definition across (curve : list RenderVertex3) (i : nat) : Vec2 :=
  let '(px, py) := flat_at curve (previous i) in let '(nx, ny) := flat_at curve (following curve i) in let '(mx, my) := flat_at curve i in
  let v1normal := (sub32 py my, sub32 mx px) in let v2normal := (sub32 my ny, sub32 nx mx) in
  if (i =? List.length curve - 1)%nat then normalize2 v1normal
  else if (i =? 0)%nat then normalize2 v2normal
  else
    let v1n := normalize2 v1normal in let v2n := normalize2 v2normal in
    if lt32 (abs32 (sub32 (fst v1n) (fst v2n))) f32_parallel && lt32 (abs32 (sub32 (snd v1n) (snd v2n))) f32_parallel then v1n
    else
      let a := sub32 py my in let b := sub32 mx px in let c := add32 (mul32 a (sub32 (fst v1n) px)) (mul32 b (sub32 (snd v1n) py)) in
      let d := sub32 ny my in let e := sub32 mx nx in let f := add32 (mul32 d (sub32 (fst v2n) nx)) (mul32 e (sub32 (snd v2n) ny)) in
      let det := sub32 (mul32 a e) (mul32 b d) in
      let inv_det := if eq32b det f32_zero then f32_zero else div32 f32_one det in
      let ix := mul32 (sub32 (mul32 b f) (mul32 e c)) inv_det in let iy := mul32 (sub32 (mul32 c d) (mul32 a f)) inv_det in
      (sub32 mx ix, sub32 my iy).
(** ramps.rs:111, 116-124: the width at a vertex *)
Definition width_at (r : Ramp) (inc_width : bool) (curve : list RenderVertex3) (i : nat) : f32 :=
  if is_habitrail r && negb (one_wire r) then (if inc_width then add32 (Ramp_wire_distance_x r) f32_20 else Ramp_wire_distance_x r)
  else if one_wire r then Ramp_wire_diameter r
  else add32 (mul32 (percentage curve i) (sub32 (Ramp_width_top r) (Ramp_width_bottom r))) (Ramp_width_bottom r).
(** ramps.rs:18-134 [get_ramp_vertex]: [rgv_local[i]], [rgv_local[cvertex * 2 - i - 1]], [rgheight[i]], [rgratio[i]] *)
Definition right_side (r : Ramp) (inc_width : bool) (curve : list RenderVertex3) (i : nat) : Vec2 :=
  add2 (flat_at curve i) (scale2 (across curve i) (mul32 (width_at r inc_width curve i) f32_half)).
Definition left_side (r : Ramp) (inc_width : bool) (curve : list RenderVertex3) (i : nat) : Vec2 :=
  sub2 (flat_at curve i) (scale2 (across curve i) (mul32 (width_at r inc_width curve i) f32_half)).
Definition height_at (r : Ramp) (curve : list RenderVertex3) (i : nat) : f32 :=
  add32 (add32 (r3_z (vertex_at curve i)) (mul32 (percentage curve i) (sub32 (Ramp_height_top r) (Ramp_height_bottom r)))) (Ramp_height_bottom r).
Definition ratio_at (curve : list RenderVertex3) (i : nat) : f32 := sub32 f32_one (percentage curve i).

(** ** Flat ramps *)
(** ramps.rs:215-243: the indices of a strip of n pairs of vertices *)
Definition strip_faces (n : Z) : list face := flat_map (fun i => [mkFace (2 * i) (2 * i + 1) (2 * i + 3); mkFace (2 * i) (2 * i + 3) (2 * i + 2)]) (steps (n - 1)).
Definition strip_vertex (p : Vec2) (z : f32) (t : Vec2) : Vtx := mkVtx (fst p) (snd p) z f32_zero f32_zero f32_zero (fst t) (snd t).
(** ramps.rs:178-185, 188-213 *)
Definition floor_texture (r : Ramp) (td : TableDimensions) (side : f32) (p : Vec2) (ratio : f32) : Vec2 :=
  match Ramp_image r with
  | [] => (f32_zero, f32_zero)
  | _ => match Ramp_image_alignment r with
         | RampImageAlignment_World => (mul32 (fst p) (div32 f32_one (sub32 (td_right td) (td_left td))), mul32 (snd p) (div32 f32_one (sub32 (td_bottom td) (td_top td))))
         | _ => (side, ratio)
         end
  end.
Definition floor_vertices (r : Ramp) (td : TableDimensions) (curve : list RenderVertex3) : list Vtx :=
  flat_map (fun i => let z := height_at r curve i in let t := ratio_at curve i in let p := right_side r true curve i in let q := left_side r true curve i in
                     [strip_vertex p z (floor_texture r td f32_one p t); strip_vertex q z (floor_texture r td f32_zero q t)]) (seq 0 (List.length curve)).
(** ramps.rs:254-302: one wall *)
Definition wall_vertices (r : Ramp) (side : nat -> Vec2) (height : f32) (curve : list RenderVertex3) : list Vtx :=
  flat_map (fun i => let z := height_at r curve i in
                     let t := match Ramp_image r with [] => (f32_zero, f32_zero) | _ => if Ramp_image_walls r then (f32_zero, ratio_at curve i) else (f32_zero, f32_zero) end in
                     [strip_vertex (side i) z t; strip_vertex (side i) (add32 z height) t]) (seq 0 (List.length curve)).
(** ramps.rs:309-353: a part appended to what there is, its indices moved *)
Definition append_part (m part : list Vtx * list face) : list Vtx * list face := (fst m ++ fst part, snd m ++ map (shifted (zlen (fst m))) (snd part)).
(** ramps.rs:149-369 [build_flat_ramp_mesh] *)
Definition build_flat_ramp_mesh (r : Ramp) (curve : list RenderVertex3) (td : TableDimensions) : option (list wrapper * list face) :=
  if (List.length curve <? 2)%nat then None else
  let strip := strip_faces (zlen curve) in
  let part (vs : list Vtx) := (compute_normals vs strip, strip) in
  let right := part (wall_vertices r (right_side r true curve) (Ramp_right_wall_height_visible r) curve) in
  let left := part (wall_vertices r (left_side r true curve) (Ramp_left_wall_height_visible r) curve) in
  let include_right := lt32 f32_zero (Ramp_right_wall_height_visible r) in let include_left := lt32 f32_zero (Ramp_left_wall_height_visible r) in
  let m0 := append_part ([], []) (part (floor_vertices r td curve)) in
  let m := if include_right && include_left then append_part (append_part m0 right) left
           else if include_right then append_part m0 right else if include_left then append_part m0 left else m0 in
  match m with ([], _) | (_, []) => None | (vs, fs) => Some (map wrap vs, fs) end.

(** ** Wire ramps *)
Section Mesh.
(** [f32::sin] and [f32::cos] *)
Variable sin cos : f32 -> f32.

(** ramps.rs:400-444: the direction of the wire at a ring, and two directions across it *)
Definition point_at (points : list Vec2) (i : nat) : Vec2 := nth i points (f32_zero, f32_zero).
Definition height_of (heights : list f32) (i : nat) : f32 := nth i heights f32_zero.
Definition wire_tangent (points : list Vec2) (heights : list f32) (rings i : nat) : Vec3 :=
  let i2 := if (i =? rings - 1)%nat then i else (i + 1)%nat in
  let '(x, y) := if (i =? rings - 1)%nat && (0 <? i)%nat then sub2 (point_at points i) (point_at points (i - 1)) else sub2 (point_at points i2) (point_at points i) in
  mkVec3 x y (sub32 (height_of heights i2) (height_of heights i)).
Definition wire_frame (points : list Vec2) (heights : list f32) (rings i : nat) (prev_binorm : Vec3) : Vec3 * Vec3 :=
  let t := wire_tangent points heights rings i in
  let i2 := if (i =? rings - 1)%nat then i else (i + 1)%nat in
  let normal :=
    if (i =? 0)%nat
    then let '(x, y) := add2 (point_at points i2) (point_at points i) in cross t (mkVec3 x y (sub32 (height_of heights i2) (height_of heights i)))
    else cross prev_binorm t in
  (normalize3 normal, normalize3 (cross t normal)).
(** ramps.rs:446-470: the vertices of a ring *)
Definition wire_vertex (points : list Vec2) (heights : list f32) (rings : nat) (segments : Z) (diameter : f32) (normal : Vec3) (i : nat) (j : Z) : Vtx :=
  let inv_rings := div32 f32_one (int32 (Z.of_nat rings)) in let inv_segments := div32 f32_one (int32 segments) in
  let u := mul32 (int32 (Z.of_nat i)) inv_rings in let v := mul32 (add32 (int32 j) u) inv_segments in
  let angle := mul32 (mul32 (int32 j) f32_360) inv_segments in
  let tmp := scale3 (get_rotated_axis sin cos angle (wire_tangent points heights rings i) normal) (mul32 diameter f32_half) in
  let '(mx, my) := point_at points i in let h := height_of heights i in
  let x := add32 mx (vec_x tmp) in let y := add32 my (vec_y tmp) in let z := add32 h (vec_z tmp) in
  let n := mkVec3 (sub32 x mx) (sub32 y my) (sub32 z h) in let len := length3 n in
  let n := if lt32 f32_zero len then mkVec3 (div32 (vec_x n) len) (div32 (vec_y n) len) (div32 (vec_z n) len) else vec_zero in
  mkVtx x y z (vec_x n) (vec_y n) (vec_z n) u v.
Fixpoint wire_rings (points : list Vec2) (heights : list f32) (rings : nat) (segments : Z) (diameter : f32) (is : list nat) (prev_binorm : Vec3) : list Vtx :=
  match is with
  | [] => []
  | i :: rest =>
      let '(normal, binorm) := wire_frame points heights rings i prev_binorm in
      map (wire_vertex points heights rings segments diameter normal i) (steps segments) ++ wire_rings points heights rings segments diameter rest binorm
  end.
(** ramps.rs:372-474 [create_wire] *)
Definition create_wire (r : Ramp) (rings : nat) (segments : Z) (points : list Vec2) (heights : list f32) : list Vtx :=
  wire_rings points heights rings segments (Ramp_wire_diameter r) (seq 0 rings) vec_zero.
(** [v.z += ...] *)
Definition raised (d : f32) (v : Vtx) : Vtx := mkVtx (v_x v) (v_y v) (add32 (v_z v) d) (v_nx v) (v_ny v) (v_nz v) (v_tu v) (v_tv v).
(** ramps.rs:511-532: the line of a single wire *)
Definition wire_middle (r : Ramp) (curve : list RenderVertex3) (i : nat) : Vec2 :=
  let inv := if eq32b (Ramp_wire_diameter r) f32_zero then f32_zero else div32 f32_one (Ramp_wire_diameter r) in
  let p := right_side r false curve i in let q := left_side r false curve i in
  add2 (scale2 (add2 p q) f32_half) (scale2 (sub2 p q) inv).
(** ramps.rs:580-746: the vertices of each wire *)
Definition wires (r : Ramp) (curve : list RenderVertex3) (segments : Z) : option (list (list Vtx)) :=
  let rings := List.length curve in
  let heights := map (height_at r curve) (seq 0 rings) in
  let right_points := map (right_side r false curve) (seq 0 rings) in let left_points := map (left_side r false curve) (seq 0 rings) in
  let wire (points : list Vec2) := create_wire r rings segments points heights in
  let lower (points : list Vec2) := map (raised f32_3) (wire points) in
  let upper (points : list Vec2) := map (raised (mul32 (Ramp_wire_distance_y r) f32_half)) (wire points) in
  match Ramp_ramp_type r with
  | RampType_OneWire => Some [wire (map (wire_middle r curve) (seq 0 rings))]
  | RampType_TwoWire => Some [lower right_points; lower left_points]
  | RampType_ThreeWireLeft => Some [lower right_points; lower left_points; upper left_points]
  | RampType_ThreeWireRight => Some [lower right_points; lower left_points; upper right_points]
  | RampType_FourWire => Some [lower right_points; lower left_points; upper right_points; upper left_points]
  | RampType_Flat => None
  end.
(** ramps.rs:476-763 [build_wire_ramp_mesh]: the quads are those of rubbers ([ring_faces]) without the ones from the last ring to the first *)
Definition build_wire_ramp_mesh (r : Ramp) (curve : list RenderVertex3) (detail_level : Z) (material_opacity_active : bool) : option (list wrapper * list face) :=
  let rings := List.length curve in
  if (rings <? 2)%nat then None else
  let segments := ring_segments detail_level (negb material_opacity_active) in
  let faces := flat_map (fun i => flat_map (ring_faces (Z.of_nat rings) segments i) (steps segments)) (steps (Z.of_nat rings - 1)) in
  match wires r curve segments with
  | None => None
  | Some ws =>
      let vs := List.concat ws in
      let fs := flat_map (fun k => map (shifted (k * (Z.of_nat rings * segments))) faces) (steps (zlen ws)) in
      match vs, fs with [], _ | _, [] => None | _, _ => Some (map wrap vs, fs) end
  end.
(** ramps.rs:825-853 [build_ramp_mesh]; [detail_level_to_accuracy(10.0)] is 4 *)
Definition build_ramp_mesh (fuel : nat) (r : Ramp) (td : TableDimensions) (detail_level : Z) (material_opacity_active : bool) : res (option (list wrapper * list face)) :=
  if eq32b (Ramp_width_bottom r) f32_zero && eq32b (Ramp_width_top r) f32_zero then Ok None else
  curve <~ get_vertices3 fuel (Ramp_drag_points r) f32_four ;;
  if (List.length curve <? 2)%nat then Ok None else
  Ok (if is_habitrail r then build_wire_ramp_mesh r curve detail_level material_opacity_active else build_flat_ramp_mesh r curve td).
End Mesh.

(** ** The height of a ramp at a place *)
(** mod.rs:925-969: one round of the loop; the state is the smallest distance and the best point with its segment *)
Definition closest_step (vertices : list RenderVertex3) (px py : f32) (best : f32 * option (Vec2 * nat)) (i : nat) : f32 * option (Vec2 * nat) :=
  let '(v1x, v1y) := flat_at vertices i in let '(v2x, v2y) := flat_at vertices (i + 1) in
  let a := sub32 v1y v2y in let b := sub32 v2x v1x in let c := neg_f32 (add32 (mul32 a v1x) (mul32 b v1y)) in
  let denom := sqrt32 (add32 (mul32 a a) (mul32 b b)) in
  if lt32 denom f32_1e_12 then best else
  let dist := div32 (abs32 (add32 (add32 (mul32 a px) (mul32 b py)) c)) denom in
  if lt32 dist (fst best) then
    let d := neg_f32 b in let f := neg_f32 (add32 (mul32 d px) (mul32 a py)) in
    let det := sub32 (mul32 a a) (mul32 b d) in let inv_det := if eq32b det f32_zero then f32_zero else div32 f32_one det in
    let ix := mul32 (sub32 (mul32 b f) (mul32 a c)) inv_det in let iy := mul32 (sub32 (mul32 c d) (mul32 a f)) inv_det in
    if le32b (sub32 (min32 v1x v2x) f32_tenth) ix && le32b ix (add32 (max32 v1x v2x) f32_tenth) && le32b (sub32 (min32 v1y v2y) f32_tenth) iy && le32b iy (add32 (max32 v1y v2y) f32_tenth)
    then (dist, Some ((ix, iy), i)) else best
  else best.
(** mod.rs:908-972 [closest_point_on_polyline] *)
Definition closest_point (vertices : list RenderVertex3) (px py : f32) : option (Vec2 * nat) :=
  if (List.length vertices <? 2)%nat then None else snd (fold_left (closest_step vertices px py) (seq 0 (List.length vertices - 1)) (f32_largest, None)).
(** ramps.rs:771-816 [get_ramp_surface_height] *)
Definition ramp_surface_height (fuel : nat) (r : Ramp) (x y : f32) : res f32 :=
  curve <~ get_vertices3 fuel (Ramp_drag_points r) f32_four ;;
  if (List.length curve <? 2)%nat then Ok f32_zero else
  match closest_point curve x y with
  | None => Ok f32_zero
  | Some (p, i_seg) =>
      let len (i : nat) := step_length (flat_at curve i) (flat_at curve (i - 1)) in
      let total := fold_left add32 (map len (seq 1 (List.length curve - 1))) f32_zero in
      let start := add32 (fold_left add32 (map len (seq 1 i_seg)) f32_zero) (step_length p (flat_at curve i_seg)) in
      Ok (if lt32 f32_zero total
          then add32 (add32 (r3_z (vertex_at curve i_seg)) (mul32 (div32 start total) (sub32 (Ramp_height_top r) (Ramp_height_bottom r)))) (Ramp_height_bottom r)
          else Ramp_height_bottom r)
  end.

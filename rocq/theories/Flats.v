(** Flat meshes: flashers (src/vpx/mesh/flashers.rs), the inserts of lights (src/vpx/mesh/lights/mod.rs) and decals (src/vpx/mesh/decals/mod.rs).

    [detail_level_to_accuracy(10.0)] is 4. The casts of indices to [i64] lose nothing and are left out. *)
From Coq Require Import Floats.SpecFloat.
From Verif Require Import Base Text Image Sound Quantize ColorText Cfb JsonFloat Mesh Browser Common Enums ItemFlasher ItemLight ItemDecal Builtin Polygon Smooth FileSystem Walls RubberMesh.

Section Flat.
(** [f32::sin], [f32::cos] *)
Variable sin cos : f32 -> f32.

(** ** Flashers *)
(** flashers.rs:113-132: the smallest and the largest coordinate on one axis *)
Definition smallest (l : list f32) : f32 := fold_left (fun a x => if lt32 x a then x else a) l f32_largest.
Definition largest (l : list f32) : f32 := fold_left (fun a x => if lt32 a x then x else a) l f32_lowest.
(** flashers.rs:151-160 *)
Definition inverse_size (low high : f32) : f32 := if lt32 f32_1e6 (abs32 (sub32 high low)) then div32 f32_one (sub32 high low) else f32_one.
(** flashers.rs:162-178: one vertex, given what the image lies over *)
Definition flasher_vertex (x_low x_high y_low y_high : f32) (p : RenderVertex) : Vtx :=
  mkVtx (rv_x p) (rv_y p) f32_zero f32_zero f32_zero f32_one (mul32 (sub32 (rv_x p) x_low) (inverse_size x_low x_high)) (mul32 (sub32 (rv_y p) y_low) (inverse_size y_low y_high)).
(** flashers.rs:59-61, 64-66: one row of the matrix *)
Definition turned_row (a b c x y z : f32) : f32 := add32 (add32 (mul32 a x) (mul32 b y)) (mul32 c z).
(** flashers.rs:20-85 [apply_rotation] *)
Definition turn_flat (vs : list Vtx) (rot_x rot_y rot_z center_x center_y : f32) : list Vtx :=
  if eq32b rot_x f32_zero && eq32b rot_y f32_zero && eq32b rot_z f32_zero
  then map (fun v => mkVtx (sub32 (v_x v) center_x) (sub32 (v_y v) center_y) f32_zero (v_nx v) (v_ny v) (v_nz v) (v_tu v) (v_tv v)) vs
  else
    let rad (a : f32) := div32 (mul32 a f32_pi) f32_180 in
    let cos_x := cos (rad rot_x) in let sin_x := sin (rad rot_x) in let cos_y := cos (rad rot_y) in let sin_y := sin (rad rot_y) in let cos_z := cos (rad rot_z) in let sin_z := sin (rad rot_z) in
    let m00 := mul32 cos_z cos_y in
    let m01 := sub32 (mul32 (mul32 cos_z sin_y) sin_x) (mul32 sin_z cos_x) in
    let m02 := add32 (mul32 (mul32 cos_z sin_y) cos_x) (mul32 sin_z sin_x) in
    let m10 := mul32 sin_z cos_y in
    let m11 := add32 (mul32 (mul32 sin_z sin_y) sin_x) (mul32 cos_z cos_x) in
    let m12 := sub32 (mul32 (mul32 sin_z sin_y) cos_x) (mul32 cos_z sin_x) in
    let m20 := neg_f32 sin_y in let m21 := mul32 cos_y sin_x in let m22 := mul32 cos_y cos_x in
    map (fun v =>
      let x := sub32 (v_x v) center_x in let y := sub32 (v_y v) center_y in let z := f32_zero in
      let nx := v_nx v in let ny := v_ny v in let nz := v_nz v in
      mkVtx (turned_row m00 m01 m02 x y z) (turned_row m10 m11 m12 x y z) (turned_row m20 m21 m22 x y z)
            (turned_row m00 m01 m02 nx ny nz) (turned_row m10 m11 m12 nx ny nz) (turned_row m20 m21 m22 nx ny nz) (v_tu v) (v_tv v)) vs.
(** flashers.rs:96-219 [build_flasher_mesh] *)
Definition build_flasher_mesh (fuel : nat) (f : Flasher) (td : TableDimensions) : res (option (list wrapper * list face * Vec3)) :=
  if (List.length (Flasher_drag_points f) <? 3)%nat then Ok None else
  points <~ get_vertices fuel (Flasher_drag_points f) f32_four true ;;
  if (List.length points <? 3)%nat then Ok None else
  let minx := smallest (map rv_x points) in let maxx := largest (map rv_x points) in
  let miny := smallest (map rv_y points) in let maxy := largest (map rv_y points) in
  let vertices := match Flasher_image_alignment f with
                  | RampImageAlignment_World => map (flasher_vertex (td_left td) (td_right td) (td_top td) (td_bottom td)) points
                  | _ => map (flasher_vertex minx maxx miny maxy) points
                  end in
  triangles <~ triangulate_flasher (map flat_point points) ;;
  if is_empty triangles then Ok None else
  let center_x := mul32 (add32 minx maxx) f32_half in let center_y := mul32 (add32 miny maxy) f32_half in
  Ok (Some (map wrap (turn_flat vertices (Flasher_rot_x f) (Flasher_rot_y f) (Flasher_rot_z f) center_x center_y), triangles, mkVec3 center_x center_y (Flasher_height f))).

(** ** Inserts of lights *)
(** lights/mod.rs:134-141 *)
Definition inverse_table (low high : f32) : f32 := let w := sub32 high low in if lt32 f32_1e6 (abs32 w) then div32 f32_one w else f32_zero.
(** lights/mod.rs:143-148: the square of the largest distance from the centre of the light *)
Definition squared_distance (c : Vertex2D) (p : RenderVertex) : f32 :=
  let dx := sub32 (rv_x p) (v2_x c) in let dy := sub32 (rv_y p) (v2_y c) in add32 (mul32 dx dx) (mul32 dy dy).
Definition max_distance (c : Vertex2D) (points : list RenderVertex) : f32 := fold_left (fun acc p => max32 acc (squared_distance c p)) points f32_zero.
(** lights/mod.rs:149-153 *)
Definition inverse_distance (m : f32) : f32 := if lt32 f32_zero m then div32 f32_half (sqrt32 m) else f32_zero.
(** lights/mod.rs:92-192 [build_light_insert_mesh] *)
Definition build_light_insert_mesh (fuel : nat) (l : Light) (td : TableDimensions) : res (option (list wrapper * list face * Vec3)) :=
  if Light_is_backglass l || (List.length (Light_drag_points l) <? 3)%nat then Ok None else
  points <~ get_vertices fuel (Light_drag_points l) f32_four true ;;
  if (List.length points <? 3)%nat then Ok None else
  let minx := fold_left min32 (map rv_x points) f32_largest in let maxx := fold_left max32 (map rv_x points) f32_lowest in
  let miny := fold_left min32 (map rv_y points) f32_largest in let maxy := fold_left max32 (map rv_y points) f32_lowest in
  let center_x := mul32 (add32 minx maxx) f32_half in let center_y := mul32 (add32 miny maxy) f32_half in
  let inv := inverse_distance (max_distance (Light_center l) points) in
  let vertex (p : RenderVertex) :=
    let '(tu, tv) := if negb (is_empty (Light_image l))
                     then (mul32 (rv_x p) (inverse_table (td_left td) (td_right td)), mul32 (rv_y p) (inverse_table (td_top td) (td_bottom td)))
                     else (add32 f32_half (mul32 (sub32 (rv_x p) (v2_x (Light_center l))) inv), add32 f32_half (mul32 (sub32 (rv_y p) (v2_y (Light_center l))) inv)) in
    mkVtx (sub32 (rv_x p) center_x) (sub32 (rv_y p) center_y) f32_zero f32_zero f32_zero f32_one tu tv in
  triangles <~ triangulate_flasher (map flat_point points) ;;
  if is_empty triangles then Ok None else
  Ok (Some (map (fun p => wrap (vertex p)) points, triangles, mkVec3 center_x center_y f32_zero)).

(** ** Decals *)
(** [f32::to_radians] *)
Definition radians (x : f32) : f32 := mul32 x (div32 f32_pi f32_180).
(** decals/mod.rs:32-155 [build_decal_mesh]; the vertices carry zeros instead of their bytes *)
Definition build_decal_mesh (d : Decal) : option (list wrapper * list face) :=
  if match Decal_decal_type d with DecalType_Text => true | _ => false end then None
  else if Decal_backglass d then None
  else if is_empty (Decal_image d) then None
  else
    let halfwidth := mul32 (Decal_width d) f32_half in let halfheight := mul32 (Decal_height d) f32_half in
    let sn := sin (radians (Decal_rotation d)) in let cs := cos (radians (Decal_rotation d)) in
    let up := add32 halfheight f32_zero in
    let corner (x y tu tv : f32) := mkWrapper (repeat x00 32) (mkVtx x y f32_zero f32_zero f32_zero f32_one tu tv) in
    Some ([corner (sub32 (mul32 sn up) (mul32 cs halfwidth)) (sub32 (mul32 (neg_f32 cs) up) (mul32 sn halfwidth)) f32_zero f32_zero;
           corner (add32 (mul32 sn up) (mul32 cs halfwidth)) (add32 (mul32 (neg_f32 cs) up) (mul32 sn halfwidth)) f32_one f32_zero;
           corner (sub32 (mul32 (neg_f32 sn) up) (mul32 cs halfwidth)) (sub32 (mul32 cs up) (mul32 sn halfwidth)) f32_zero f32_one;
           corner (add32 (mul32 (neg_f32 sn) up) (mul32 cs halfwidth)) (add32 (mul32 cs up) (mul32 sn halfwidth)) f32_one f32_one],
          [mkFace 0 1 2; mkFace 2 1 3]).
End Flat.

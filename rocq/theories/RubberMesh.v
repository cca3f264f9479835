(** Meshes of rubbers: src/vpx/mesh/rubbers.rs, with the helpers of src/vpx/math/vec.rs and src/vpx/mesh/mod.rs they use.

    The casts of indices to [u32] and [i64] lose nothing below 2^30 vertices and are left out.  Sine and cosine are arguments. *)
From Coq Require Import Floats.SpecFloat.
From Verif Require Import Base Text Json Image Sound Quantize ColorText Cfb JsonFloat Mesh Browser Common ItemRubber Builtin Polygon Smooth FileSystem Walls.

Definition f32_180 : f32 := Z_to_w32 0x43340000.
Definition f32_360 : f32 := Z_to_w32 0x43b40000.
(** [1.3_f32] *)
Definition f32_1_3 : f32 := Z_to_w32 0x3fa66666.
(** [f32::MIN] *)
Definition f32_lowest : f32 := Z_to_w32 0xff7fffff.

(** ** math/vec.rs *)
(** vec.rs:73-78 [Vec3] *)
Record Vec3 : Set := mkVec3 { vec_x : f32; vec_y : f32; vec_z : f32 }.
Definition vec_zero : Vec3 := mkVec3 f32_zero f32_zero f32_zero.
(** vec.rs:108-117 [Mul<f32>] *)
Definition scale3 (v : Vec3) (s : f32) : Vec3 := mkVec3 (mul32 (vec_x v) s) (mul32 (vec_y v) s) (mul32 (vec_z v) s).
(** vec.rs:119-122 [length] *)
Definition length3 (v : Vec3) : f32 := sqrt32 (add32 (add32 (mul32 (vec_x v) (vec_x v)) (mul32 (vec_y v) (vec_y v))) (mul32 (vec_z v) (vec_z v))).
(** vec.rs:124-139 [normalize] *)
Definition normalize3 (v : Vec3) : Vec3 :=
  let len := length3 v in
  if eq32b len f32_zero then vec_zero else mkVec3 (div32 (vec_x v) len) (div32 (vec_y v) len) (div32 (vec_z v) len).
(** vec.rs:141-147 [cross] *)
Definition cross (a b : Vec3) : Vec3 :=
  mkVec3 (sub32 (mul32 (vec_y a) (vec_z b)) (mul32 (vec_z a) (vec_y b)))
         (sub32 (mul32 (vec_z a) (vec_x b)) (mul32 (vec_x a) (vec_z b)))
         (sub32 (mul32 (vec_x a) (vec_y b)) (mul32 (vec_y a) (vec_x b))).
(** a row of a matrix times a vector, as in vec.rs:204-208: [a * x + b * y + c * z] *)
Definition row (a b c : f32) (v : Vec3) : f32 := add32 (add32 (mul32 a (vec_x v)) (mul32 b (vec_y v))) (mul32 c (vec_z v)).

(** ** mesh/mod.rs *)
(** mod.rs:33-48 [vpinball_ring_segments] *)
Definition ring_segments (detail_level : Z) (static_rendering : bool) : Z :=
  if static_rendering then 12
  else if detail_level <? 5 then 6 else if detail_level <? 8 then 8
  else float_to_uint 4294967295 (f32_value (mul32 (int32 detail_level) f32_1_3)).
(** mod.rs:99-156 [compute_normals] *)
Definition set_normal (n : Vec3) (v : Vtx) : Vtx := mkVtx (v_x v) (v_y v) (v_z v) (vec_x n) (vec_y n) (vec_z n) (v_tu v) (v_tv v).
Definition normal_of (v : Vtx) : Vec3 := mkVec3 (v_nx v) (v_ny v) (v_nz v).
Definition add_normal (n : Vec3) (v : Vtx) : Vtx := set_normal (mkVec3 (add32 (v_nx v) (vec_x n)) (add32 (v_ny v) (vec_y n)) (add32 (v_nz v) (vec_z n))) v.
Definition update_nth {A} (i : nat) (f : A -> A) (l : list A) : list A := match nth_error l i with Some x => set_nth i (f x) l | None => l end.
Definition difference (a b : Vtx) : Vec3 := mkVec3 (sub32 (v_x b) (v_x a)) (sub32 (v_y b) (v_y a)) (sub32 (v_z b) (v_z a)).
Definition add_face (vs : list Vtx) (f : face) : list Vtx :=
  let i0 := Z.to_nat (f_0 f) in let i1 := Z.to_nat (f_1 f) in let i2 := Z.to_nat (f_2 f) in
  match nth_error vs i0, nth_error vs i1, nth_error vs i2 with
  | Some v0, Some v1, Some v2 =>
      let n := normalize3 (cross (difference v0 v1) (difference v0 v2)) in
      update_nth i2 (add_normal n) (update_nth i1 (add_normal n) (update_nth i0 (add_normal n) vs))
  | _, _, _ => vs
  end.
Definition final_normal (v : Vtx) : Vtx :=
  let len := length3 (normal_of v) in
  if lt32 f32_zero len then set_normal (mkVec3 (div32 (v_nx v) len) (div32 (v_ny v) len) (div32 (v_nz v) len)) v else v.
Definition compute_normals (vs : list Vtx) (fs : list face) : list Vtx := map final_normal (fold_left add_face fs (map (set_normal vec_zero) vs)).

Section Mesh.
(** [f32::sin] and [f32::cos] *)
Variable sin cos : f32 -> f32.

(** vec.rs:181-209 [get_rotated_axis] *)
Definition get_rotated_axis (angle_degrees : f32) (axis temp : Vec3) : Vec3 :=
  let u := normalize3 axis in let ux := vec_x u in let uy := vec_y u in let uz := vec_z u in
  let angle_rad := div32 (mul32 angle_degrees f32_pi) f32_180 in
  let s := sin angle_rad in let c := cos angle_rad in let k := sub32 f32_one c in
  let diagonal (a : f32) := add32 (mul32 a a) (mul32 c (sub32 f32_one (mul32 a a))) in
  let minus (a b d : f32) := sub32 (mul32 (mul32 a b) k) (mul32 s d) in let plus (a b d : f32) := add32 (mul32 (mul32 a b) k) (mul32 s d) in
  let times (x y z : f32) := add32 (add32 (mul32 (vec_x temp) x) (mul32 (vec_y temp) y)) (mul32 (vec_z temp) z) in
  mkVec3 (times (diagonal ux) (minus ux uy uz) (plus ux uz uy))
         (times (plus ux uy uz) (diagonal uy) (minus uy uz ux))
         (times (minus ux uz uy) (plus uy uz ux) (diagonal uz)).

(** rubbers.rs:20-108 [get_spline_vertex]: the middle points; the outline, which is not used, is left out *)
Definition middle_points (curve : list RenderVertex) : list (f32 * f32) :=
  match curve with [] => [] | v :: _ => map (fun v => (rv_x v, rv_y v)) curve ++ [(rv_x v, rv_y v)] end.
Definition middle (ms : list (f32 * f32)) (i : Z) : f32 * f32 := nth (Z.to_nat i) ms (f32_zero, f32_zero).
(** rubbers.rs:158-197: the direction of the curve at a ring, and two directions across it *)
Definition tangent_of (ms : list (f32 * f32)) (rings i : Z) : Vec3 :=
  let i2 := if i =? rings - 1 then 0 else i + 1 in
  mkVec3 (sub32 (fst (middle ms i2)) (fst (middle ms i))) (sub32 (snd (middle ms i2)) (snd (middle ms i))) f32_zero.
Definition frame (ms : list (f32 * f32)) (rings i : Z) (height : f32) (prev_binorm : Vec3) : Vec3 * Vec3 :=
  let i2 := if i =? rings - 1 then 0 else i + 1 in
  let t := tangent_of ms rings i in
  let '(normal, binorm) :=
    if i =? 0 then
      let ux := add32 (fst (middle ms i2)) (fst (middle ms i)) in let uy := add32 (snd (middle ms i2)) (snd (middle ms i)) in let uz := mul32 height f32_two in
      let normal := mkVec3 (mul32 (vec_y t) uz) (mul32 (neg_f32 (vec_x t)) uz) (sub32 (mul32 (vec_x t) uy) (mul32 (vec_y t) ux)) in
      (normal, mkVec3 (mul32 (vec_y t) (vec_z normal)) (mul32 (neg_f32 (vec_x t)) (vec_z normal)) (sub32 (mul32 (vec_x t) (vec_y normal)) (mul32 (vec_y t) (vec_x normal))))
    else let normal := cross prev_binorm t in (normal, cross t normal) in
  (normalize3 normal, normalize3 binorm).
(** rubbers.rs:199-216: the vertices of a ring *)
Definition ring_vertex (ms : list (f32 * f32)) (rings segments : Z) (height thickness : f32) (normal : Vec3) (i j : Z) : Vtx :=
  let inv_nr := div32 f32_one (int32 rings) in let inv_ns := div32 f32_one (int32 segments) in
  let u := mul32 (int32 i) inv_nr in let v := mul32 (add32 (int32 j) u) inv_ns in
  let angle := mul32 (mul32 (int32 j) f32_360) inv_ns in
  let tmp := scale3 (get_rotated_axis angle (tangent_of ms rings i) normal) (mul32 thickness f32_half) in
  mkVtx (add32 (fst (middle ms i)) (vec_x tmp)) (add32 (snd (middle ms i)) (vec_y tmp)) (add32 height (vec_z tmp)) f32_zero f32_zero f32_zero u v.
Fixpoint ring_vertices (ms : list (f32 * f32)) (rings segments : Z) (height thickness : f32) (is : list Z) (prev_binorm : Vec3) : list Vtx :=
  match is with
  | [] => []
  | i :: r =>
      let '(normal, binorm) := frame ms rings i height prev_binorm in
      map (ring_vertex ms rings segments height thickness normal i) (steps segments) ++ ring_vertices ms rings segments height thickness r binorm
  end.
(** rubbers.rs:220-257: the two triangles between two rings *)
Definition ring_faces (rings segments i j : Z) : list face :=
  let next_j := if negb (j =? segments - 1) then j + 1 else 0 in
  let q0 := i * segments + j in let q1 := i * segments + next_j in
  let q2 := if negb (i =? rings - 1) then (i + 1) * segments + j else j in
  let q3 := if negb (i =? rings - 1) then (i + 1) * segments + next_j else next_j in
  [mkFace q0 q1 q2; mkFace q3 q2 q1].
(** rubbers.rs:112-263 [generate_mesh]; [detail_level_to_accuracy(10.0)] is 4.  Without a curve [middle_points.len() - 1] is below zero: that is a panic in
    a debug build, and so is the length of the vertices in a release build. *)
Definition generate_mesh (fuel : nat) (r : Rubber) (detail_level : Z) : res (option (list Vtx * list face)) :=
  curve <~ get_vertices fuel (Rubber_drag_points r) f32_four true ;;
  let ms := middle_points curve in
  match ms with
  | [] => Panic
  | _ =>
      let rings := zlen ms - 1 in
      if rings <? 1 then Ok None else
      let segments := ring_segments detail_level (Rubber_static_rendering r) in
      let height := match Rubber_hit_height r with Some h => h | None => Rubber_height r end in
      let vs := ring_vertices ms rings segments height (int32 (w32_signed (Rubber_thickness r))) (steps rings) vec_zero in
      let fs := flat_map (fun i => flat_map (ring_faces rings segments i) (steps segments)) (steps rings) in
      Ok (Some (compute_normals vs fs, fs))
  end.

(** rubbers.rs:272-298: the middle of the box around the vertices, on one axis *)
Definition box_middle (l : list f32) : f32 := mul32 (add32 (fold_left max32 l f32_lowest) (fold_left min32 l f32_largest)) f32_half.
(** rubbers.rs:264-365 [apply_rotation] *)
Definition apply_rotation (vs : list Vtx) (rot_x rot_y rot_z height : f32) : list Vtx * Vec3 :=
  let middle_x := box_middle (map v_x vs) in let middle_y := box_middle (map v_y vs) in let middle_z := box_middle (map v_z vs) in
  let centred (v : Vtx) := mkVec3 (sub32 (v_x v) middle_x) (sub32 (v_y v) middle_y) (sub32 (v_z v) middle_z) in
  let centre := mkVec3 middle_x middle_y height in
  if eq32b rot_x f32_zero && eq32b rot_y f32_zero && eq32b rot_z f32_zero
  then (map (fun v => mkVtx (vec_x (centred v)) (vec_y (centred v)) (vec_z (centred v)) (v_nx v) (v_ny v) (v_nz v) (v_tu v) (v_tv v)) vs, centre)
  else
    let rad (a : f32) := div32 (mul32 a f32_pi) f32_180 in
    let cos_x := cos (rad rot_x) in let sin_x := sin (rad rot_x) in let cos_y := cos (rad rot_y) in let sin_y := sin (rad rot_y) in let cos_z := cos (rad rot_z) in let sin_z := sin (rad rot_z) in
    let m00 := mul32 cos_z cos_y in
    let m01 := sub32 (mul32 (mul32 cos_z sin_y) sin_x) (mul32 sin_z cos_x) in
    let m02 := add32 (mul32 (mul32 cos_z sin_y) cos_x) (mul32 sin_z sin_x) in
    let m10 := mul32 sin_z cos_y in
    let m11 := add32 (mul32 (mul32 sin_z sin_y) sin_x) (mul32 cos_z cos_x) in
    let m12 := sub32 (mul32 (mul32 sin_z sin_y) cos_x) (mul32 cos_z sin_x) in
    let m20 := neg_f32 sin_y in let m21 := mul32 cos_y sin_x in let m22 := mul32 cos_y cos_x in
    let turn (p : Vec3) := mkVec3 (row m00 m01 m02 p) (row m10 m11 m12 p) (row m20 m21 m22 p) in
    (map (fun v => let p := turn (centred v) in let n := turn (normal_of v) in mkVtx (vec_x p) (vec_y p) (vec_z p) (vec_x n) (vec_y n) (vec_z n) (v_tu v) (v_tv v)) vs, centre).
(** rubbers.rs:367-408 [build_rubber_mesh] *)
Definition build_rubber_mesh (fuel : nat) (r : Rubber) (detail_level : Z) : res (option (list wrapper * list face * Vec3)) :=
  if w32_signed (Rubber_thickness r) =? 0 then Ok None else
  if (List.length (Rubber_drag_points r) <? 2)%nat then Ok None else
  m <~ generate_mesh fuel r detail_level ;;
  match m with
  | None => Ok None
  | Some (vs, fs) =>
      let '(vs, centre) := apply_rotation vs (Rubber_rot_x r) (Rubber_rot_y r) (Rubber_rot_z r) (Rubber_height r) in
      Ok (Some (map wrap vs, fs, centre))
  end.
End Mesh.

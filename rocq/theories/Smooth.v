(** Smooth curves through drag points: src/vpx/mesh/mod.rs. *)
From Coq Require Import Floats.SpecFloat.
From Verif Require Import Base Text Image Sound Quantize ColorText Cfb JsonFloat Mesh Browser Common Builtin Polygon.

Definition sqrt32 (a : f32) : f32 := f32_bits (SFsqrt 24 128 (f32_value a)).
Definition abs32 (a : f32) : f32 := f32_bits (SFabs (f32_value a)).
Definition f32_three : f32 := Z_to_w32 0x40400000.
Definition f32_minus_three : f32 := Z_to_w32 0xc0400000.
(** [1e-4] and [1e-6] *)
Definition f32_1e4 : f32 := Z_to_w32 0x38d1b717.
Definition f32_1e6 : f32 := Z_to_w32 0x358637bd.

(** mod.rs:159-165 [init_cubic_spline_coeffs] *)
Record Cubic : Set := mkCubic { c_0 : f32; c_1 : f32; c_2 : f32; c_3 : f32 }.
Definition cubic_coeffs (x0 x1 t0 t1 : f32) : Cubic :=
  let c2 := sub32 (sub32 (add32 (mul32 f32_minus_three x0) (mul32 f32_three x1)) (mul32 f32_two t0)) t1 in
  let c3 := add32 (add32 (sub32 (mul32 f32_two x0) (mul32 f32_two x1)) t0) t1 in
  mkCubic x0 t0 c2 c3.
(** mod.rs:168-186 [init_nonuniform_catmull_coeffs] *)
Definition tangent (x0 x1 x2 dt0 dt1 : f32) : f32 :=
  add32 (sub32 (div32 (sub32 x1 x0) dt0) (div32 (sub32 x2 x0) (add32 dt0 dt1))) (div32 (sub32 x2 x1) dt1).
Definition catmull_coeffs (x0 x1 x2 x3 dt0 dt1 dt2 : f32) : Cubic :=
  cubic_coeffs x1 x2 (mul32 (tangent x0 x1 x2 dt0 dt1) dt1) (mul32 (tangent x1 x2 x3 dt1 dt2) dt1).
(** mod.rs:252-260, 514-523 [get_point_at], for one coordinate *)
Definition cubic (c : Cubic) (t : f32) : f32 :=
  let t2 := mul32 t t in let t3 := mul32 t2 t in add32 (add32 (add32 (mul32 (c_3 c) t3) (mul32 (c_2 c) t2)) (mul32 (c_1 c) t)) (c_0 c).
(** mod.rs:224-233, 485-494: checks for repeated points *)
Definition time_steps (d0 d1 d2 : f32) : f32 * f32 * f32 :=
  let dt1 := if lt32 d1 f32_1e4 then f32_one else d1 in
  (if lt32 d0 f32_1e4 then dt1 else d0, dt1, if lt32 d2 f32_1e4 then dt1 else d2).

(** mod.rs:280-304 [recurse_smooth_line_2d], 552-577 [recurse_smooth_line_3d]: [at_] is the point of the curve as a vertex, and [flat] the check
    of the accuracy. The fuel is the depth of the recursion: without an end there, the stack overflows. *)
Definition mid_t (t1 t2 : f32) : f32 := mul32 (add32 t1 t2) f32_half.
Section Subdivide.
Context {V : Type}.
Variable at_ : f32 -> V.
Variable flat : V -> V -> V -> bool.
Fixpoint subdivide (fuel : nat) (t1 t2 : f32) (v1 v2 : V) : res (list V) :=
  match fuel with
  | O => OutOfFuel
  | S fuel' =>
      let t := mid_t t1 t2 in
      if flat v1 v2 (at_ t) then Ok [v1]
      else a <~ subdivide fuel' t1 t v1 (at_ t) ;; b <~ subdivide fuel' t t2 (at_ t) v2 ;; Ok (a ++ b)
  end.
End Subdivide.
(** The loops over the drag points of mod.rs:337-425 and 600-674 *)
Fixpoint segments {V} (one : nat -> res (list V)) (is : list nat) : res (list V) :=
  match is with
  | [] => Ok []
  | i :: r => a <~ one i ;; b <~ segments one r ;; Ok (a ++ b)
  end.

(** ** In two dimensions: walls, rubbers, lights and flashers *)

(** mod.rs:68-77 [RenderVertex2D] without [slingshot], which is never set *)
Record RenderVertex : Set := mkRV { rv_x : f32; rv_y : f32; rv_smooth : bool; rv_control_point : bool }.
(** mod.rs:214-222: [powi(2)] is one multiplication *)
Definition distance_root (p q : DragPoint) : f32 :=
  let dx := sub32 (dp_x q) (dp_x p) in let dy := sub32 (dp_y q) (dp_y p) in sqrt32 (sqrt32 (add32 (mul32 dx dx) (mul32 dy dy))).
(** mod.rs:191-250 [CatmullCurve2D::new]; only the coordinates of the vertices are used. *)
Record Curve : Set := mkCurve { curve_x : Cubic; curve_y : Cubic }.
Definition curve_new (p0 p1 p2 p3 : DragPoint) : Curve :=
  let '(dt0, dt1, dt2) := time_steps (distance_root p0 p1) (distance_root p1 p2) (distance_root p2 p3) in
  mkCurve (catmull_coeffs (dp_x p0) (dp_x p1) (dp_x p2) (dp_x p3) dt0 dt1 dt2) (catmull_coeffs (dp_y p0) (dp_y p1) (dp_y p2) (dp_y p3) dt0 dt1 dt2).
(** mod.rs:289-296 *)
Definition curve_vertex (cc : Curve) (t : f32) : RenderVertex := mkRV (cubic (curve_x cc) t) (cubic (curve_y cc) t) true false.
(** mod.rs:265-277 [flat_with_accuracy_2d] *)
Definition flat (accuracy : f32) (v1 v2 vmid : RenderVertex) : bool :=
  let area := sub32 (mul32 (sub32 (rv_x vmid) (rv_x v1)) (sub32 (rv_y v2) (rv_y v1))) (mul32 (sub32 (rv_x v2) (rv_x v1)) (sub32 (rv_y vmid) (rv_y v1))) in
  lt32 (mul32 area area) accuracy.
(** mod.rs:341-344 *)
Definition near32 (x y : f32) : bool := lt32 (abs32 (sub32 x y)) f32_1e6.
Definition coincide (p q : DragPoint) : bool := near32 (dp_x p) (dp_x q) && near32 (dp_y p) (dp_y q).
(** mod.rs:404-418 *)
Definition drag_vertex (p : DragPoint) : RenderVertex := mkRV (dp_x p) (dp_y p) (dp_smooth p) true.
(** mod.rs:346-375: the drag points before and after a segment *)
Definition before (points : list DragPoint) (n i : nat) (p1 : DragPoint) (loop_curve : bool) : option DragPoint :=
  nth_error points (if dp_smooth p1 then if loop_curve then (i + n - 1) mod n else if (0 <? i)%nat then i - 1 else i else i)%nat.
Definition after (points : list DragPoint) (n i : nat) (p2 : DragPoint) (loop_curve : bool) : option DragPoint :=
  let inext := (if dp_smooth p2 then if loop_curve then (i + 2) mod n else if (i + 2 <? n)%nat then i + 2 else i + 1 else (i + 1) mod n)%nat in
  nth_error points (if loop_curve then inext else Nat.min inext (n - 1)).
(** mod.rs:337-425: one round of the loop *)
Definition smooth_segment (fuel : nat) (points : list DragPoint) (accuracy : f32) (loop_curve : bool) (i : nat) : res (list RenderVertex) :=
  let n := List.length points in
  match nth_error points i, nth_error points ((i + 1) mod n)%nat with
  | Some p1, Some p2 =>
      if coincide p1 p2 then Ok []
      else match before points n i p1 loop_curve, after points n i p2 loop_curve with
           | Some p0, Some p3 => subdivide (curve_vertex (curve_new p0 p1 p2 p3)) (flat accuracy) fuel f32_zero f32_one (drag_vertex p1) (drag_vertex p2)
           | _, _ => Panic
           end
  | _, _ => Panic
  end.
(** mod.rs:324-428 [get_rg_vertex_2d] *)
Definition get_vertices (fuel : nat) (points : list DragPoint) (accuracy : f32) (loop_curve : bool) : res (list RenderVertex) :=
  let n := List.length points in
  if (n <? 2)%nat then Ok [] else segments (smooth_segment fuel points accuracy loop_curve) (seq 0 (if loop_curve then n else n - 1)).
(** mod.rs:310-319 [smooth_drag_points_2d] *)
Definition smooth_drag_points (fuel : nat) (points : list DragPoint) (accuracy : f32) (loop_curve : bool) : res (list (f32 * f32)) :=
  vs <~ get_vertices fuel points accuracy loop_curve ;; Ok (map (fun v => (rv_x v, rv_y v)) vs).

(** ** In three dimensions: ramps *)

(** mod.rs:82-92 [RenderVertex3D] without [slingshot] *)
Record RenderVertex3 : Set := mkRV3 { r3_x : f32; r3_y : f32; r3_z : f32; r3_smooth : bool; r3_control_point : bool }.
(** mod.rs:481-483 with vec.rs:118-120 [length] *)
Definition distance_root3 (p q : DragPoint) : f32 :=
  let dx := sub32 (dp_x q) (dp_x p) in let dy := sub32 (dp_y q) (dp_y p) in let dz := sub32 (dp_z q) (dp_z p) in
  sqrt32 (sqrt32 (add32 (add32 (mul32 dx dx) (mul32 dy dy)) (mul32 dz dz))).
(** mod.rs:433-512 [CatmullCurve3D::new] *)
Record Curve3 : Set := mkCurve3 { curve3_x : Cubic; curve3_y : Cubic; curve3_z : Cubic }.
Definition curve3_new (p0 p1 p2 p3 : DragPoint) : Curve3 :=
  let '(dt0, dt1, dt2) := time_steps (distance_root3 p0 p1) (distance_root3 p1 p2) (distance_root3 p2 p3) in
  mkCurve3 (catmull_coeffs (dp_x p0) (dp_x p1) (dp_x p2) (dp_x p3) dt0 dt1 dt2) (catmull_coeffs (dp_y p0) (dp_y p1) (dp_y p2) (dp_y p3) dt0 dt1 dt2)
           (catmull_coeffs (dp_z p0) (dp_z p1) (dp_z p2) (dp_z p3) dt0 dt1 dt2).
(** mod.rs:561-569 *)
Definition curve3_vertex (cc : Curve3) (t : f32) : RenderVertex3 := mkRV3 (cubic (curve3_x cc) t) (cubic (curve3_y cc) t) (cubic (curve3_z cc) t) true false.
(** vec.rs:139-145 [cross] *)
Definition cross3 (a b : f32 * f32 * f32) : f32 * f32 * f32 :=
  let '(ax, ay, az) := a in let '(bx, by_, bz) := b in
  (sub32 (mul32 ay bz) (mul32 az by_), sub32 (mul32 az bx) (mul32 ax bz), sub32 (mul32 ax by_) (mul32 ay bx)).
(** mod.rs:528-549 [flat_with_accuracy_3d] *)
Definition flat3 (accuracy : f32) (v1 v2 vmid : RenderVertex3) : bool :=
  let '(x, y, z) := cross3 (sub32 (r3_x vmid) (r3_x v1), sub32 (r3_y vmid) (r3_y v1), sub32 (r3_z vmid) (r3_z v1))
                           (sub32 (r3_x v2) (r3_x v1), sub32 (r3_y v2) (r3_y v1), sub32 (r3_z v2) (r3_z v1)) in
  lt32 (add32 (add32 (mul32 x x) (mul32 y y)) (mul32 z z)) accuracy.
(** mod.rs:604-610 *)
Definition coincide3 (p q : DragPoint) : bool := near32 (dp_x p) (dp_x q) && near32 (dp_y p) (dp_y q) && near32 (dp_z p) (dp_z q).
Definition drag_vertex3 (p : DragPoint) : RenderVertex3 := mkRV3 (dp_x p) (dp_y p) (dp_z p) (dp_smooth p) true.
(** mod.rs:600-674: one round of the loop *)
Definition smooth_segment3 (fuel : nat) (points : list DragPoint) (accuracy : f32) (i : nat) : res (list RenderVertex3) :=
  let n := List.length points in
  match nth_error points i, nth_error points (i + 1) with
  | Some p1, Some p2 =>
      if coincide3 p1 p2 then Ok []
      else match nth_error points (if dp_smooth p1 && (0 <? i)%nat then i - 1 else i), nth_error points (if dp_smooth p2 && (i + 2 <? n)%nat then i + 2 else i + 1) with
           | Some p0, Some p3 => subdivide (curve3_vertex (curve3_new p0 p1 p2 p3)) (flat3 accuracy) fuel f32_zero f32_one (drag_vertex3 p1) (drag_vertex3 p2)
           | _, _ => Panic
           end
  | _, _ => Panic
  end.
(** mod.rs:583-689 [get_rg_vertex_3d] *)
Definition get_vertices3 (fuel : nat) (points : list DragPoint) (accuracy : f32) : res (list RenderVertex3) :=
  let n := List.length points in
  if (n <? 2)%nat then Ok [] else
  vs <~ segments (smooth_segment3 fuel points accuracy) (seq 0 (n - 1)) ;;
  Ok (vs ++ match nth_error points (n - 1) with Some p => [mkRV3 (dp_x p) (dp_y p) (dp_z p) true true] | None => [] end).

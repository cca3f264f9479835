(** What the properties about meshes of ramps say, apart from the code. *)
From Coq Require Import Reals Floats.SpecFloat.
From Verif Require Import Base Text Image Sound Quantize ColorText Cfb JsonFloat Mesh SpecMesh Browser Common Enums ItemRamp Builtin SpecBuiltin Polygon SpecPolygon Smooth SpecSmooth SpecWalls SpecRubber.

Local Open Scope Z_scope.

(** The widths at both ends are zero *)
Definition no_width (r : Ramp) : Prop := Forall (fun w => finite32 w /\ exact w = 0) [Ramp_width_bottom r; Ramp_width_top r].
(** All drag points are at one place, as far as the curve is concerned *)
Definition one_place3 (drag_points : list DragPoint) : Prop :=
  forall i p q, 0 <= i < zlen drag_points - 1 -> neighbour false drag_points i = Some p -> neighbour false drag_points (i + 1) = Some q -> coincide3 p q = true.
Definition moderate_ramp (r : Ramp) : Prop := Forall (fun p => Forall moderate (coordinates p)) (Ramp_drag_points r).
(** The wires of a ramp; a flat one has none *)
Definition wire_count (t : RampType) : Z := match t with RampType_Flat => 0 | RampType_OneWire => 1 | RampType_TwoWire => 2 | RampType_ThreeWireLeft | RampType_ThreeWireRight => 3 | RampType_FourWire => 4 end.
(** The pairs of a wire and the one above it; the wires are numbered from zero: right, left, and then the upper ones *)
Definition above (t : RampType) : list (Z * Z) := match t with RampType_ThreeWireLeft => [(1, 2)] | RampType_ThreeWireRight => [(0, 2)] | RampType_FourWire => [(0, 2); (1, 3)] | _ => [] end.
(** The visible walls of a flat ramp *)
Definition right_wall (r : Ramp) : bool := lt32 f32_zero (Ramp_right_wall_height_visible r).
Definition left_wall (r : Ramp) : bool := lt32 f32_zero (Ramp_left_wall_height_visible r).
Definition one_if (b : bool) : Z := if b then 1 else 0.
Definition part_count (r : Ramp) : Z := 1 + one_if (right_wall r) + one_if (left_wall r).
(** A mesh of parts with [size] vertices each: the part of a vertex, and its number there *)
Definition in_part (size k : Z) : Z * Z := (k / size, k mod size).
Definition in_parts (size : Z) (es : list (Z * Z)) : list ((Z * Z) * (Z * Z)) := map (between (in_part size)) es.
(** The same edges in each of the parts *)
Definition each_part (parts : Z) (es : list (Z * Z)) : list ((Z * Z) * (Z * Z)) := flat_map (fun k => map (between (pair k)) es) (steps parts).
(** Once round a strip of n pairs of vertices (0, 1), (2, 3) and so on, against the direction of its triangles: up the even side and down the odd one *)
Definition strip_outline (n : Z) : list (Z * Z) :=
  map (fun i => (2 * i, 2 * i + 2)) (steps (n - 1)) ++ [(2 * n - 2, 2 * n - 1)] ++ map (fun i => (2 * i + 3, 2 * i + 1)) (steps (n - 1)) ++ [(1, 0)].
(** The two ends of a tube of rings with [segments] vertices each, against the direction of its triangles *)
Definition tube_ends (rings segments : Z) : list (Z * Z) :=
  map (fun j => (if j =? segments - 1 then 0 else j + 1, j)) (steps segments) ++
  map (fun j => ((rings - 1) * segments + j, (rings - 1) * segments + if j =? segments - 1 then 0 else j + 1)) (steps segments).

Definition vertex_of (vs : list wrapper) (k : Z) (v : Vtx) : Prop := 0 <= k /\ exists w, nth_error vs (Z.to_nat k) = Some w /\ w_vertex w = v.
Definition position_of (v : Vtx) : f32 * f32 * f32 := (v_x v, v_y v, v_z v).
(** Up to 2^p *)
Definition at_most (p : Z) (x : f32) : Prop := finite32 x /\ Z.abs (exact x) <= 2 ^ p * 2 ^ 149.
(** The curve goes somewhere: two vertices in a row are at least 2^-60 apart on the table *)
Definition far_apart (x y : f32) : Prop := 2 ^ 89 <= Z.abs (exact x - exact y).
Definition moves (curve : list RenderVertex3) : Prop :=
  exists i a b, nth_error curve i = Some a /\ nth_error curve (S i) = Some b /\ (far_apart (r3_x a) (r3_x b) \/ far_apart (r3_y a) (r3_y b)).
(** The curve does not go down *)
Definition never_down (curve : list RenderVertex3) : Prop := forall i a b, nth_error curve i = Some a -> nth_error curve (S i) = Some b -> le32 (r3_z a) (r3_z b).
(** The real number that a float is *)
Definition real (x : f32) : R := (IZR (exact x) / IZR (2 ^ 149))%R.
(** (nx, ny) is the unit vector a right angle to the right (as y grows downwards) of the step from a to b, up to a millionth *)
Definition unit_across (ax ay bx by_ nx ny : f32) : Prop :=
  let sx := (real bx - real ax)%R in let sy := (real by_ - real ay)%R in let l := sqrt (sx * sx + sy * sy) in
  (Rabs (real nx * l + sy) <= l / 1000000 /\ Rabs (real ny * l - sx) <= l / 1000000)%R.

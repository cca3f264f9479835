(** What the properties about flat meshes say, apart from the code. *)
From Coq Require Import Reals Floats.SpecFloat.
From Verif Require Import Base Text Image Sound Quantize ColorText Cfb JsonFloat Mesh SpecMesh Browser Common Builtin SpecBuiltin Polygon SpecPolygon Smooth SpecSmooth Walls SpecWalls RubberMesh Ramps SpecRamps.
Local Open Scope R_scope.

(** A point turned about the x axis, then about the y axis, then about the z axis; c and s are the cosines and sines of the three angles *)
Definition about_x (c s : R) (p : R * R * R) : R * R * R := let '(x, y, z) := p in (x, y * c - z * s, y * s + z * c).
Definition about_y (c s : R) (p : R * R * R) : R * R * R := let '(x, y, z) := p in (x * c + z * s, y, z * c - x * s).
Definition about_z (c s : R) (p : R * R * R) : R * R * R := let '(x, y, z) := p in (x * c - y * s, x * s + y * c, z).
Definition close_to (error : R) (p q : R * R * R) : Prop :=
  let '(x, y, z) := p in let '(x', y', z') := q in Rabs (x - x') <= error /\ Rabs (y - y') <= error /\ Rabs (z - z') <= error.
Definition reals (p : f32 * f32 * f32) : R * R * R := let '(x, y, z) := p in (real x, real y, real z).
(** Functions like sine and cosine: of a number, a number between -1 and 1 *)
Definition bounded_function (f : f32 -> f32) : Prop := forall a, finite32 a -> finite32 (f a) /\ Rabs (real (f a)) <= 1.
(** An angle in degrees, in radians *)
Definition in_radians (a : f32) : f32 := div32 (mul32 a f32_pi) f32_180.

(** The number in the middle between the smallest and the largest of a list *)
Definition in_the_middle (c : f32) (l : list f32) : Prop := exists lo hi, In lo l /\ In hi l /\ (forall x, In x l -> real lo <= real x <= real hi) /\
  Rabs (real c - (real lo + real hi) / 2) <= (Rabs (real lo) + Rabs (real hi)) / 16000000 + / 1000000000000000000000000000000.
(** The distance of a point from a centre *)
Definition distance (cx cy : f32) (p : RenderVertex) : R := sqrt ((real (rv_x p) - real cx) * (real (rv_x p) - real cx) + (real (rv_y p) - real cy) * (real (rv_y p) - real cy)).
(** The largest distance of the points of an outline *)
Definition farthest (cx cy : f32) (points : list RenderVertex) (d : R) : Prop := (exists p, In p points /\ distance cx cy p = d) /\ forall p, In p points -> distance cx cy p <= d.

(** ** Flat meshes *)
(** The rotation of a flasher *)
Definition turned_by (sin cos : f32 -> f32) (rx ry rz : f32) (p : R * R * R) : R * R * R :=
  about_z (real (cos (in_radians rz))) (real (sin (in_radians rz))) (about_y (real (cos (in_radians ry))) (real (sin (in_radians ry))) (about_x (real (cos (in_radians rx))) (real (sin (in_radians rx))) p)).
(** Functions like sine and cosine, also in this: of zero, 0 and 1 *)
Definition sine_and_cosine (sin cos : f32 -> f32) : Prop :=
  bounded_function sin /\ bounded_function cos /\ forall a, finite32 a -> exact a = 0%Z -> real (sin a) = 0 /\ real (cos a) = 1.
Definition normal_of (v : Vtx) : f32 * f32 * f32 := (v_nx v, v_ny v, v_nz v).
(** Up to a sixteen-millionth of a distance *)
Definition rounded (x : f32) (r : R) : Prop := Rabs (real x - r) <= Rabs r / 16000000 + / 1000000000000000000000000000000.
(** x lies on the axis from low to high at the share t: up to a millionth of the share *)
Definition share (t low high x : f32) : Prop :=
  let s := (real x - real low) / (real high - real low) in finite32 t /\ Rabs (real t - s) <= Rabs s / 1000000 + / 100000000000000000000.
(** At least 2^-19 *)
Definition wide (low high : f32) : Prop := / 524288 <= Rabs (real high - real low).

(** ** Decals *)
(** An angle in degrees, in radians, as the decals have it *)
Definition times_radian (a : f32) : f32 := mul32 a (div32 f32_pi f32_180).
(** The corners of the rectangle around the origin with the coordinates of the texture *)
Definition rectangle (w h : R) : list (R * R * (R * R)) := [(- w / 2, - h / 2, (0, 0)); (w / 2, - h / 2, (1, 0)); (- w / 2, h / 2, (0, 1)); (w / 2, h / 2, (1, 1))].
Definition decal_corner (c s error : R) (v : wrapper) (k : R * R * (R * R)) : Prop :=
  let '(x, y, (tu, tv)) := k in
  close_to error (reals (position_of (w_vertex v))) (about_z c s (x, y, 0)) /\ reals (normal_of (w_vertex v)) = (0, 0, 1) /\ real (v_tu (w_vertex v)) = tu /\ real (v_tv (w_vertex v)) = tv.
Definition box_around (low high : f32) (l : list f32) : Prop := In low l /\ In high l /\ forall x, In x l -> real low <= real x <= real high.

(** What the property about the places of primitives in an export says, apart from the code. *)
From Coq Require Import Reals.
From Verif Require Import Base Common Mesh Builtin SpecBuiltin SpecRamps SpecFlats ItemPrimitive Shapes SpecShapes.

(** The three sizes, the position, and the nine numbers for turning and moving *)
Definition moved_by (x y z : f32) (p : R * R * R) : R * R * R := let '(a, b, c) := p in (a + real x, b + real y, c + real z)%R.
Definition turned_about_x (sin cos : f32 -> f32) (degrees : f32) (p : R * R * R) : R * R * R := about_x (real (cos (times_radian degrees))) (real (sin (times_radian degrees))) p.
Definition turned_about_y (sin cos : f32 -> f32) (degrees : f32) (p : R * R * R) : R * R * R := about_y (real (cos (times_radian degrees))) (real (sin (times_radian degrees))) p.
(** Where a primitive puts a point of its mesh: scaled, moved by its translation, turned by its rotation and by its object rotation, each about z, y and x, and moved to its position *)
Definition where_primitive_puts (sin cos : f32 -> f32) (p : Primitive) (q : R * R * R) : R * R * R :=
  let size := Primitive_size p in let position := Primitive_position p in
  let scaled := scaled_by (real (v3_x size)) (real (v3_y size)) (real (v3_z size)) q in
  let moved := moved_by (Primitive_rot_and_tra_3 p) (Primitive_rot_and_tra_4 p) (Primitive_rot_and_tra_5 p) scaled in
  let turned := turned_about_x sin cos (Primitive_rot_and_tra_0 p) (turned_about_y sin cos (Primitive_rot_and_tra_1 p) (turned_about_z sin cos (Primitive_rot_and_tra_2 p) moved)) in
  let again := turned_about_x sin cos (Primitive_rot_and_tra_6 p) (turned_about_y sin cos (Primitive_rot_and_tra_7 p) (turned_about_z sin cos (Primitive_rot_and_tra_8 p) turned)) in
  moved_by (v3_x position) (v3_y position) (v3_z position) again.
Definition primitive_angles (p : Primitive) : list f32 :=
  [Primitive_rot_and_tra_0 p; Primitive_rot_and_tra_1 p; Primitive_rot_and_tra_2 p; Primitive_rot_and_tra_6 p; Primitive_rot_and_tra_7 p; Primitive_rot_and_tra_8 p].
Definition primitive_moves (p : Primitive) : list f32 :=
  [Primitive_rot_and_tra_3 p; Primitive_rot_and_tra_4 p; Primitive_rot_and_tra_5 p; v3_x (Primitive_position p); v3_y (Primitive_position p); v3_z (Primitive_position p)].
Definition primitive_sizes (p : Primitive) : list f32 := [v3_x (Primitive_size p); v3_y (Primitive_size p); v3_z (Primitive_size p)].

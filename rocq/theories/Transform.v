(** Units and matrices: src/vpx/units.rs, src/vpx/math/matrix.rs, and the playfield of src/vpx/mesh/playfields.rs. *)
From Coq Require Import Floats.SpecFloat.
From Verif Require Import Base Text Json Image Sound Quantize ColorText Cfb JsonFloat Mesh Browser Common Builtin Polygon Smooth FileSystem RubberMesh.

(** ** units.rs *)
(** units.rs:31, 34, 37: 25.4, 1.0625, 50, 10 and 1000 are f32 numbers there, and so are the results *)
Definition VPU_TO_MM : f32 := div32 (mul32 (Z_to_w32 0x41cb3333) (Z_to_w32 0x3f880000)) (int32 50).
Definition VPU_TO_CM : f32 := div32 VPU_TO_MM (int32 10).
Definition VPU_TO_M : f32 := div32 VPU_TO_MM (int32 1000).
(** units.rs:82-92 [ExportUnits] *)
Inductive ExportUnits : Set := Units_Vpu | Units_Mm | Units_Cm | Units_M.
(** units.rs:98-105 [scale] *)
Definition units_scale (u : ExportUnits) : f32 :=
  match u with Units_Vpu => f32_one | Units_Mm => VPU_TO_MM | Units_Cm => VPU_TO_CM | Units_M => VPU_TO_M end.
(** units.rs:41-55 [vpu_to_mm], [vpu_to_cm], [vpu_to_m], 111-113 [vpu_to_units] *)
Definition vpu_to_units (vpu : f32) (u : ExportUnits) : f32 := mul32 vpu (units_scale u).
(** units.rs:59-73 [mm_to_vpu], [cm_to_vpu], [m_to_vpu] *)
Definition mm_to_vpu (mm : f32) : f32 := div32 mm VPU_TO_MM.
Definition cm_to_vpu (cm : f32) : f32 := div32 cm VPU_TO_CM.
Definition m_to_vpu (m : f32) : f32 := div32 m VPU_TO_M.

(** ** math/matrix.rs *)
(** matrix.rs:63-66 [Matrix3D]: four rows of four numbers *)
Definition Matrix : Set := list (list f32).
Definition cell (m : Matrix) (i l : nat) : f32 := nth l (nth i m []) f32_zero.
(** matrix.rs:108-112 [identity], 147-151 [scale], 156-160 [translate] *)
Definition scaling (sx sy sz : f32) : Matrix :=
  [[sx; f32_zero; f32_zero; f32_zero]; [f32_zero; sy; f32_zero; f32_zero]; [f32_zero; f32_zero; sz; f32_zero]; [f32_zero; f32_zero; f32_zero; f32_one]].
Definition translation (x y z : f32) : Matrix :=
  [[f32_one; f32_zero; f32_zero; f32_zero]; [f32_zero; f32_one; f32_zero; f32_zero]; [f32_zero; f32_zero; f32_one; f32_zero]; [x; y; z; f32_one]].
Section Rotation.
(** [f32::sin_cos] *)
Variable sin cos : f32 -> f32.
(** matrix.rs:114-142 [rotate_x], [rotate_y], [rotate_z] *)
Definition rotate_x (a : f32) : Matrix :=
  [[f32_one; f32_zero; f32_zero; f32_zero]; [f32_zero; cos a; sin a; f32_zero]; [f32_zero; neg_f32 (sin a); cos a; f32_zero]; [f32_zero; f32_zero; f32_zero; f32_one]].
Definition rotate_y (a : f32) : Matrix :=
  [[cos a; f32_zero; neg_f32 (sin a); f32_zero]; [f32_zero; f32_one; f32_zero; f32_zero]; [sin a; f32_zero; cos a; f32_zero]; [f32_zero; f32_zero; f32_zero; f32_one]].
Definition rotate_z (a : f32) : Matrix :=
  [[cos a; sin a; f32_zero; f32_zero]; [neg_f32 (sin a); cos a; f32_zero; f32_zero]; [f32_zero; f32_zero; f32_one; f32_zero]; [f32_zero; f32_zero; f32_zero; f32_one]].
End Rotation.
(** matrix.rs:208-223 [mul] *)
Definition times (a b : Matrix) : Matrix :=
  map (fun i => map (fun l => add32 (add32 (add32 (mul32 (cell b 0 l) (cell a i 0)) (mul32 (cell b 1 l) (cell a i 1))) (mul32 (cell b 2 l) (cell a i 2))) (mul32 (cell b 3 l) (cell a i 3)))
                    (seq 0 4)) (seq 0 4).
(** matrix.rs:165-173 [transform_vertex]; [affine] is one coordinate before the division *)
Definition affine (m : Matrix) (v : Vec3) (l : nat) : f32 :=
  add32 (add32 (add32 (mul32 (cell m 0 l) (vec_x v)) (mul32 (cell m 1 l) (vec_y v))) (mul32 (cell m 2 l) (vec_z v))) (cell m 3 l).
Definition transform_vertex (m : Matrix) (v : Vec3) : Vec3 :=
  let inv := div32 f32_one (affine m v 3) in mkVec3 (mul32 (affine m v 0) inv) (mul32 (affine m v 1) inv) (mul32 (affine m v 2) inv).
(** matrix.rs:190-195 [transform_normal] *)
Definition linear (m : Matrix) (v : Vec3) (l : nat) : f32 := add32 (add32 (mul32 (cell m 0 l) (vec_x v)) (mul32 (cell m 1 l) (vec_y v))) (mul32 (cell m 2 l) (vec_z v)).
Definition transform_normal (m : Matrix) (v : Vec3) : Vec3 := mkVec3 (linear m v 0) (linear m v 1) (linear m v 2).

(** ** mesh/playfields.rs *)
(** playfields.rs:30-117 [build_playfield_mesh] *)
Definition build_playfield_mesh (left top right bottom : f32) : list wrapper * list face :=
  let corner (x y tu tv : f32) := mkWrapper (repeat x00 32) (mkVtx x y f32_zero f32_zero f32_zero f32_one tu tv) in
  ([corner left top f32_zero f32_zero; corner right top f32_one f32_zero; corner left bottom f32_zero f32_one; corner right bottom f32_one f32_one],
   [mkFace 0 1 2; mkFace 2 1 3]).

(** What the properties about the normals of walls say, apart from the code. *)
From Coq Require Import Reals Floats.SpecFloat.
From Verif Require Import Base Text Image Sound Quantize ColorText Cfb JsonFloat Mesh SpecMesh Browser Common Builtin SpecBuiltin Polygon SpecPolygon Smooth SpecSmooth Walls SpecWalls RubberMesh Ramps SpecRamps.
Local Open Scope R_scope.

(** The unit vector at right angles to the line from p to q *)
Definition right_angle (p q : RenderVertex) : R * R :=
  let dx := real (rv_x q) - real (rv_x p) in let dy := real (rv_y q) - real (rv_y p) in let l := sqrt (dx * dx + dy * dy) in (- dy / l, dx / l).
(** The sum of two vectors *)
Definition vector_sum (u v : R * R) : R * R := (fst u + fst v, snd u + snd v).
Definition norm (u : R * R) : R := sqrt (fst u * fst u + snd u * snd u).
Definition near_pair (e : R) (x y : f32) (u : R * R) : Prop := finite32 x /\ finite32 y /\ Rabs (real x - fst u) <= e /\ Rabs (real y - snd u) <= e.
(** The normal at a corner of a side that has the right angle [u], where the side beyond the corner has the right angle [v]: at a sharp corner [u]; at a smooth one the
    unit vector in the middle between both, if they are not nearly opposite *)
Definition corner_normal_between (smooth : bool) (u v : R * R) (x y : f32) : Prop :=
  if smooth then / 10 <= norm (vector_sum u v) -> near_pair (/ 10000) x y (fst (vector_sum u v) / norm (vector_sum u v), snd (vector_sum u v) / norm (vector_sum u v))
  else near_pair (/ 100000) x y u.
(** Two vertices of the outline are at different places *)
Definition apart (p q : RenderVertex) : Prop := far_apart (rv_x p) (rv_x q) \/ far_apart (rv_y p) (rv_y q).

(** The picture of a built-in mesh of n sides shows the upper end in the left upper quarter, the lower end beside it and the sides, unrolled, in the lower half. *)
Definition picture_part (n k : Z) (tu tv : f32) : Prop :=
  finite32 tu /\ finite32 tv /\
  ((k < n + 1)%Z -> 0 <= real tu <= / 2 /\ 0 <= real tv <= / 2) /\
  ((n + 1 <= k < 2 * n + 2)%Z -> / 2 <= real tu <= 1 /\ 0 <= real tv <= / 2) /\
  ((2 * n + 2 <= k < 3 * n + 2)%Z -> 0 <= real tu <= 1 /\ real tv = / 2) /\
  ((3 * n + 2 <= k)%Z -> 0 <= real tu <= 1 /\ real tv = 1).
(** Two places of the outer ring of one end *)
Definition same_ring (n i j : Z) : Prop := (1 <= i <= n /\ 1 <= j <= n \/ n + 2 <= i <= 2 * n + 1 /\ n + 2 <= j <= 2 * n + 1)%Z.

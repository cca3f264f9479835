(** What the properties about triangles of a polygon say, apart from the code. *)
From Coq Require Import Floats.SpecFloat Permutation.
From Verif Require Import Base Text Image Sound Quantize ColorText JsonFloat Mesh SpecMesh Browser SpecBrowser Builtin SpecBuiltin Polygon.

Definition swap {A} (e : A * A) : A * A := (snd e, fst e).
(** The edges of a polygon with the vertices 0, 1, ..., n-1, in one direction or the other *)
Definition forwards (n : Z) : list (Z * Z) := map (fun i => (i, if i =? n - 1 then 0 else i + 1)) (steps n).
Definition outline (n : Z) (es : list (Z * Z)) : Prop := Permutation es (forwards n) \/ Permutation es (map swap (forwards n)).
(** Triangles that fill a polygon: together their edges are the outline, once, and diagonals, each in both directions *)
Definition fill (border : list (Z * Z)) (fs : list face) : Prop :=
  exists diagonals, Permutation (edges fs) (border ++ diagonals ++ map swap diagonals).
(** What is left of a polygon when triangles have been cut off: a polygon with some of the vertices, in order *)
Definition ring (vs : list Z) : list (Z * Z) := match vs with [] => [] | x :: r => combine vs (r ++ [x]) end.

(** The exact value of a coordinate, as a multiple of 2^-149 *)
Definition exact (x : f32) : Z :=
  match f32_value x with S754_finite s m e => (if s then -1 else 1) * Z.pos m * 2 ^ (e + 149) | _ => 0 end.
Definition finite32 (x : f32) : Prop := match f32_value x with S754_finite _ _ _ | S754_zero _ => True | _ => False end.
Definition place_at (points : list (f32 * f32)) (i : Z) : Z * Z :=
  match nth_error points (Z.to_nat i) with Some (x, y) => (exact x, exact y) | None => (0, 0) end.
Definition sum (l : list Z) : Z := fold_right Z.add 0 l.
(** Twice the area to the left of an edge, seen from the origin; twice the signed area of a polygon and of triangles *)
Definition cross (a b : Z * Z) : Z := fst a * snd b - fst b * snd a.
Definition along (points : list (f32 * f32)) (f : Z * Z -> Z * Z -> Z) (es : list (Z * Z)) : Z :=
  sum (map (fun e => f (place_at points (fst e)) (place_at points (snd e))) es).
Definition polygon_area (points : list (f32 * f32)) : Z := along points cross (forwards (zlen points)).
Definition triangles_area (points : list (f32 * f32)) (fs : list face) : Z :=
  sum (map (fun f => let a := place_at points (f_0 f) in let b := place_at points (f_1 f) in let c := place_at points (f_2 f) in
                     (fst b - fst a) * (snd c - snd a) - (fst c - fst a) * (snd b - snd a)) fs).
(** How often a closed line winds around the point [p], by counting the edges that cross the ray to the right of [p]: up is one, down is minus one *)
Definition passes (p a b : Z * Z) : Z :=
  let side := (fst b - fst a) * (snd p - snd a) - (fst p - fst a) * (snd b - snd a) in
  if (snd a <=? snd p) && (snd p <? snd b) && (0 <? side) then 1
  else if (snd b <=? snd p) && (snd p <? snd a) && (side <? 0) then -1 else 0.
Definition winding (points : list (f32 * f32)) (p : Z * Z) : Z := along points (passes p) (forwards (zlen points)).
Definition coverage (points : list (f32 * f32)) (fs : list face) (p : Z * Z) : Z :=
  sum (map (fun f => along points (passes p) (edges [f])) fs).

(** A simple polygon without straight angles, decided by looking at all pairs of edges *)
Definition turn (a b c : Z * Z) : Z := (fst b - fst a) * (snd c - snd a) - (snd b - snd a) * (fst c - fst a).
Definition apart (a b c d : Z * Z) : bool :=
  (0 <? turn a b c * turn a b d) || (0 <? turn c d a * turn c d b).
Definition shares (e e' : Z * Z) : bool := (fst e =? fst e') || (fst e =? snd e') || (snd e =? fst e') || (snd e =? snd e').
Definition simple (points : list (f32 * f32)) : bool :=
  let es := forwards (zlen points) in let at_ := place_at points in
  forallb (fun e => forallb (fun e' => shares e e' || apart (at_ (fst e)) (at_ (snd e)) (at_ (fst e')) (at_ (snd e'))) es &&
                    negb (turn (at_ (fst e)) (at_ (snd e)) (at_ (if snd e =? zlen points - 1 then 0 else snd e + 1)) =? 0)) es.

(** What the properties about meshes of plungers say, apart from the code. *)
From Coq Require Import Reals Floats.SpecFloat Permutation Sorted.
From Verif Require Import Base Text Image Sound Quantize ColorText Cfb JsonFloat Mesh SpecMesh Browser Common Enums ItemPlunger Builtin SpecBuiltin Polygon SpecPolygon Smooth SpecSmooth SpecWalls SpecRubber SpecRamps SpecFlats Plungers.
Local Open Scope Z_scope.

(** The shape of the tip as text: parts with a semicolon between them *)
Fixpoint with_semicolons (parts : list rstring) : rstring :=
  match parts with [] => [] | [p] => p | p :: r => p ++ [59%N] ++ with_semicolons r end.
(** A part that begins with two numbers is a point: a place along the rod and a diameter; any other part is none *)
Inductive tells (parse : rstring -> option f32) (part : rstring) : list TipPoint -> Prop :=
| a_point a b rest y d : split_whitespace [] part = a :: b :: rest -> parse a = Some y -> parse b = Some d -> tells parse part [mkTip y (mul32 d f32_half)]
| no_point : (forall a b rest y d, split_whitespace [] part = a :: b :: rest -> parse a = Some y -> parse b = Some d -> False) -> tells parse part [].
(** The points of a tip: those of all the parts, from the front to the back *)
Definition tip_points (parse : rstring -> option f32) (s : rstring) (points : list TipPoint) : Prop :=
  exists parts found, s = with_semicolons parts /\ parts <> [] /\ Forall (fun p => ~ In 59%N p) parts /\ Forall2 (tells parse) parts found /\ Permutation points (List.concat found) /\
    ((forall t, In t points -> f32_is_nan (tip_y t) = false) -> StronglySorted (fun a b => le32 (tip_y a) (tip_y b)) points).

(** The turns of the spring, the end of the tip and the two ends of the ring along the rod *)
Definition turns (p : Plunger) : f32 := add32 (Plunger_spring_loops p) (mul32 (Plunger_spring_end_loops p) f32_two).
Definition tip_end (points : list TipPoint) : f32 := last (map tip_y points) f32_zero.
Definition ring_begins (p : Plunger) (points : list TipPoint) : f32 := add32 (add32 (neg_f32 (Plunger_stroke p)) (tip_end points)) (Plunger_ring_gap p).
Definition ring_ends (p : Plunger) (points : list TipPoint) : f32 := add32 (ring_begins p points) (Plunger_ring_width p).

(** A mesh: three different vertices for each triangle, and every vertex is used *)
Definition proper (m : mesh) : Prop :=
  Forall (fun f => face_within 0 (zlen (fst m) - 1) f /\ distinct_corners f) (snd m) /\ (forall k, 0 <= k < zlen (fst m) -> Exists (fun f => uses f k) (snd m)).
Definition sized (m : mesh) (vertices triangles : Z) : Prop := zlen (fst m) = vertices /\ zlen (snd m) = triangles.

(** Where a vertex is in a mesh of strips of two rings of 16 vertices, each strip with rings of its own: the number of the ring, and the number on the ring *)
Definition on_strips (k : Z) : Z * Z := (k / 32 + (k mod 32) / 16, k mod 16).
(** The same with a disc on one ring, or on the first and the second: its centre has the number -1 or -2 *)
Definition on_rod (k : Z) : Z * Z := if k <? 128 then on_strips k else if k =? 128 then (-1, 0) else (0, k - 129).
Definition on_flat_rod (k : Z) : Z * Z := if k <? 32 then on_strips k else if k =? 32 then (-1, 0) else if k <? 49 then (0, k - 33) else if k =? 49 then (-2, 0) else (1, k - 50).
Definition on_places (place : Z -> Z * Z) (m : mesh) : list ((Z * Z) * (Z * Z)) := map (between place) (edges (snd m)).
(** Round a ring the other way *)
Definition back (e : (Z * Z) * (Z * Z)) : (Z * Z) * (Z * Z) := (snd e, fst e).
Definition round_back (segments i : Z) : list ((Z * Z) * (Z * Z)) := map back (round segments i).

(** A place on a circle about an axis in the direction of y *)
Definition on_circle (sin cos : f32 -> f32) (height radius y : f32) (j : Z) (v : Vtx) : Prop :=
  let angle := neg_f32 (mul32 (mul32 (div32 (int32 j) (int32 16)) f32_two) f32_pi) in
  v_x v = mul32 radius (sin angle) /\ v_y v = y /\ v_z v = add32 height (mul32 radius (cos angle)).
(** Texture coordinates in a band of the picture *)
Definition in_band (low high : R) (m : mesh) : Prop :=
  Forall (fun w => finite32 (v_tu (w_vertex w)) /\ finite32 (v_tv (w_vertex w)) /\ (0 <= real (v_tu (w_vertex w)) <= 1)%R /\ (low <= real (v_tv (w_vertex w)) <= high)%R) (fst m).
(** The rings of the spring: 24 for a turn, rounded down *)
Definition rings (p : Plunger) : Z := float_to_uint 18446744073709551615 (f32_value (mul32 (turns p) (int32 24))).
(** Numbers of vertices that fit in 16 bits *)
Definition fits (points : list TipPoint) (p : Plunger) : Prop := zlen points <= 2048 /\ rings p <= 8192.
(** With a rod of its own, not a flat one *)
Definition full (p : Plunger) : Prop := Plunger_plunger_type p = PlungerType_Modern \/ Plunger_plunger_type p = PlungerType_Custom.
(** A part of the way from one number to another *)
Definition on_the_way (a b : f32) (i n : Z) : f32 := add32 a (mul32 (sub32 b a) (div32 (int32 i) (int32 n))).
Definition rod_is (p : Plunger) : f32 := mul32 (mul32 (Plunger_width p) (Plunger_rod_diam p)) f32_half.
Definition ring_is (p : Plunger) : f32 := mul32 (mul32 (Plunger_width p) (Plunger_ring_diam p)) f32_half.
Definition spring_is (p : Plunger) : f32 := mul32 (mul32 (Plunger_width p) f32_half) (Plunger_spring_diam p).
(** The rings of the turns at the end *)
Definition end_rings (p : Plunger) : Z := float_to_uint 18446744073709551615 (f32_value (mul32 (Plunger_spring_end_loops p) (int32 24))).
(** The line of the spring: round the axis, up by one step for a ring in the turns at the end, and by another one in the others *)
Definition turn_angle (p : Plunger) (i : Z) : f32 := mul32 (mul32 (mul32 (div32 (int32 i) (int32 (rings p))) (turns p)) f32_two) f32_pi.
Definition winds (sin cos : f32 -> f32) (p : Plunger) (start : f32) (line : Z -> f32 * f32 * f32) : Prop :=
  snd (fst (line 0)) = start /\
  (exists at_ends others, forall i, 0 <= i < rings p - 1 -> snd (fst (line (i + 1))) = add32 (snd (fst (line i))) (if i <? end_rings p then at_ends else others)) /\
  forall i, 0 <= i < rings p -> fst (fst (line i)) = add32 f32_zero (mul32 (spring_is p) (cos (turn_angle p i))) /\ snd (line i) = add32 (Plunger_width p) (mul32 (spring_is p) (sin (turn_angle p i))).
(** A vertex on the wire: off the line by its normal times the gauge *)
Definition on_wire (gauge : f32) (c : f32 * f32 * f32) (v : Vtx) : Prop :=
  v_x v = add32 (fst (fst c)) (mul32 gauge (v_nx v)) /\ v_y v = add32 (snd (fst c)) (mul32 gauge (v_ny v)) /\ v_z v = add32 (snd c) (mul32 gauge (v_nz v)).
(** The side a triangle shows, by the turn of its corners, against the normal of its first corner: positive when they agree *)
Definition corner (m : mesh) (k : Z) : Vtx := match nth_error (fst m) (Z.to_nat k) with Some w => w_vertex w | None => mkVtx f32_zero f32_zero f32_zero f32_zero f32_zero f32_zero f32_zero f32_zero end.
Definition side (m : mesh) (f : face) : f32 :=
  let a := corner m (f_0 f) in let b := corner m (f_1 f) in let c := corner m (f_2 f) in
  let d (g : Vtx -> f32) (v : Vtx) := sub32 (g v) (g a) in
  let nx := sub32 (mul32 (d v_y b) (d v_z c)) (mul32 (d v_z b) (d v_y c)) in let ny := sub32 (mul32 (d v_z b) (d v_x c)) (mul32 (d v_x b) (d v_z c)) in
  let nz := sub32 (mul32 (d v_x b) (d v_y c)) (mul32 (d v_y b) (d v_x c)) in
  add32 (add32 (mul32 nx (v_nx a)) (mul32 ny (v_ny a))) (mul32 nz (v_nz a)).
(** All triangles show the side of their normals, or all show the other one *)
Definition one_sided (m : mesh) : Prop := (forall f, In f (snd m) -> lt32 (side m f) f32_zero = false) \/ (forall f, In f (snd m) -> lt32 f32_zero (side m f) = false).

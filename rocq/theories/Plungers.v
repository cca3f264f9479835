(** Meshes of plungers: src/vpx/mesh/plungers/mod.rs.

    Sine, cosine and [str::parse::<f32>] are arguments, and so is whether the build checks integer arithmetic for overflow: a debug build does and panics, a
    release build does not and wraps around.  That a large spring exhausts the memory is left out. *)
From Coq Require Import Floats.SpecFloat.
From Verif Require Import Base Text Json Image Sound Quantize ColorText Cfb JsonFloat Mesh Browser Common Enums ItemPlunger Builtin Polygon Smooth RubberMesh.

(** [0.51], [0.23], [0.24], [0.74], [0.26], [0.33], [0.42], [0.49], [0.76], [0.22], [0.99], [2.2], [1.25] *)
Definition f32_0_51 : f32 := Z_to_w32 0x3f028f5c.
Definition f32_0_23 : f32 := Z_to_w32 0x3e6b851f.
Definition f32_0_24 : f32 := Z_to_w32 0x3e75c28f.
Definition f32_0_74 : f32 := Z_to_w32 0x3f3d70a4.
Definition f32_0_26 : f32 := Z_to_w32 0x3e851eb8.
Definition f32_0_33 : f32 := Z_to_w32 0x3ea8f5c3.
Definition f32_0_42 : f32 := Z_to_w32 0x3ed70a3d.
Definition f32_0_49 : f32 := Z_to_w32 0x3efae148.
Definition f32_0_76 : f32 := Z_to_w32 0x3f428f5c.
Definition f32_0_22 : f32 := Z_to_w32 0x3e6147ae.
Definition f32_0_99 : f32 := Z_to_w32 0x3f7d70a4.
Definition f32_2_2 : f32 := Z_to_w32 0x400ccccd.
Definition f32_1_25 : f32 := Z_to_w32 0x3fa00000.
(** mod.rs:79 [N_LATHE_POINTS] *)
Definition lathe_points : Z := 16.

Definition mesh : Type := (list wrapper * list face)%type.
(** mod.rs:84-95 [PlungerMeshes] *)
Record PlungerMeshes : Type := mkPlungerMeshes { pl_flat_rod : option mesh; pl_rod : option mesh; pl_spring : option mesh; pl_ring : option mesh; pl_tip : option mesh }.
(** mod.rs:100-106 [TipShapePoint] *)
Record TipPoint : Set := mkTip { tip_y : f32; tip_r : f32 }.
(** [str::split(';')]; [word] is the current part, reversed *)
Fixpoint split_on (c : uchar) (word s : rstring) : list rstring :=
  match s with
  | [] => [rev word]
  | x :: s' => if (x =? c)%N then rev word :: split_on c [] s' else split_on c (x :: word) s'
  end.
(** mod.rs:134 [sort_by] with [partial_cmp]: stable; what it does when a number is not a number is left open by the library, here such a point stays before those
    that follow it *)
Fixpoint insert_tip (p : TipPoint) (l : list TipPoint) : list TipPoint :=
  match l with [] => [p] | q :: r => if lt32 (tip_y q) (tip_y p) then q :: insert_tip p r else p :: l end.
Definition sort_tips (l : list TipPoint) : list TipPoint := fold_right insert_tip [] l.

Fixpoint each {A B} (f : A -> res (list B)) (l : list A) : res (list B) :=
  match l with [] => Ok [] | x :: r => a <~ f x ;; b <~ each f r ;; Ok (a ++ b) end.

Section Mesh.
(** [f32::sin] and [f32::cos] *)
Variable sin cos : f32 -> f32.
(** [str::parse::<f32>] *)
Variable parse : rstring -> option f32.
(** Whether the build checks for overflow *)
Variable checked : bool.

(** [a + b] of [u16] *)
Definition add16 (a b : Z) : res Z := if a + b <? 65536 then Ok (a + b) else if checked then Panic else Ok ((a + b) mod 65536).

(** mod.rs:114-137 [parse_tip_shape]; an empty part has no words, and blanks around a part do not matter *)
Definition tip_of (segment : rstring) : list TipPoint :=
  match split_whitespace [] segment with
  | a :: b :: _ => match parse a, parse b with Some y, Some r => [mkTip y (mul32 r f32_half)] | _, _ => [] end
  | _ => []
  end.
Definition parse_tip_shape (s : rstring) : list TipPoint := sort_tips (flat_map tip_of (split_on 59%N [] s)).
(** mod.rs:430-434 and the like: the length of the tip *)
Definition tip_length (p : Plunger) : f32 := last (map tip_y (parse_tip_shape (Plunger_tip_shape p))) f32_zero.

(** mod.rs:148-168 [generate_lathe_ring] *)
Definition lathe_angle (i : Z) : f32 := mul32 (mul32 (div32 (int32 i) (int32 lathe_points)) f32_two) f32_pi.
Definition lathe_ring (y center_z radius : f32) : list Vec3 :=
  map (fun i => let a := neg_f32 (lathe_angle i) in mkVec3 (mul32 radius (sin a)) y (add32 center_z (mul32 radius (cos a)))) (steps lathe_points).
(** mod.rs:174-187 [generate_ring_normals] *)
Definition ring_normals (center_z : f32) (ring : list Vec3) : list Vec3 :=
  map (fun v => let nx := vec_x v in let nz := sub32 (vec_z v) center_z in let len := sqrt32 (add32 (mul32 nx nx) (mul32 nz nz)) in
                if lt32 f32_zero len then mkVec3 (div32 nx len) f32_zero (div32 nz len) else mkVec3 f32_one f32_zero f32_zero) ring.
(** mod.rs:213-262: the vertices of one ring *)
Definition around_u (n i : Z) : f32 := let u := add32 f32_0_51 (mul32 (int32 i) (div32 f32_one (int32 n))) in if lt32 f32_one u then sub32 u f32_one else u.
Definition new_vertex (p n : Vec3) (tu tv : f32) : wrapper := mkWrapper (repeat x00 32) (mkVtx (vec_x p) (vec_y p) (vec_z p) (vec_x n) (vec_y n) (vec_z n) tu tv).
Definition ring_wrappers (n : Z) (ring normals : list Vec3) (tv : f32) : list wrapper :=
  map (fun x => let '(i, (p, m)) := x in new_vertex p m (around_u n i) tv) (combine (steps (zlen ring)) (combine ring normals)).
(** mod.rs:265-273: the triangles at one place between two rings *)
Definition connect_faces (base n i : Z) : res (list face) :=
  let next := (i + 1) mod n in
  i0 <~ add16 base i ;; i1 <~ add16 base next ;; b <~ add16 base n ;; i2 <~ add16 b i ;; i3 <~ add16 b next ;;
  Ok [mkFace i0 i2 i1; mkFace i1 i2 i3].
(** mod.rs:201-276 [connect_rings] *)
Definition connect_rings (m : mesh) (ring1 ring2 normals1 normals2 : list Vec3) (base : Z) (tv1 tv2 : f32) : res (mesh * Z) :=
  let n := zlen ring1 in
  fs <~ each (connect_faces base n) (steps n) ;;
  base' <~ add16 base (2 * n) ;;
  Ok ((fst m ++ ring_wrappers n ring1 normals1 tv1 ++ ring_wrappers n ring2 normals2 tv2, snd m ++ fs), base').
(** mod.rs:346-410 [add_disc_cap] *)
Definition cap_u (n i : Z) : f32 := add32 f32_half (mul32 f32_half (cos (div32 (mul32 (mul32 f32_two f32_pi) (int32 i)) (int32 n)))).
Definition cap_faces (base n : Z) (flip : bool) (i : Z) : res (list face) :=
  b <~ add16 base 1 ;; i1 <~ add16 b i ;; i2 <~ add16 b ((i + 1) mod n) ;;
  Ok [if flip then mkFace base i2 i1 else mkFace base i1 i2].
Definition cap_center (ring : list Vec3) : Vec3 :=
  let s := fold_left (fun a v => mkVec3 (add32 (vec_x a) (vec_x v)) (add32 (vec_y a) (vec_y v)) (add32 (vec_z a) (vec_z v))) ring vec_zero in
  let n := int32 (zlen ring) in mkVec3 (div32 (vec_x s) n) (div32 (vec_y s) n) (div32 (vec_z s) n).
Definition add_disc_cap (m : mesh) (ring : list Vec3) (flip : bool) (normal : Vec3) (tv : f32) : res mesh :=
  let base := zlen (fst m) mod 65536 in let n := zlen ring in
  fs <~ each (cap_faces base n flip) (steps n) ;;
  Ok (fst m ++ new_vertex (cap_center ring) normal f32_half tv :: map (fun x => new_vertex (snd x) normal (cap_u n (fst x)) tv) (combine (steps n) ring), snd m ++ fs).

(** mod.rs:278-340 [generate_flat_rod_mesh] *)
Definition rod_radius (p : Plunger) : f32 := mul32 (mul32 (Plunger_width p) (Plunger_rod_diam p)) f32_half.
Definition up_y : Vec3 := mkVec3 f32_zero f32_one f32_zero.
Definition down_y : Vec3 := mkVec3 f32_zero f32_minus_one f32_zero.
Definition flat_rod_mesh (p : Plunger) : res mesh :=
  let zc := mul32 (Plunger_width p) f32_1_25 in
  let ring_base := lathe_ring (Plunger_height p) zc (rod_radius p) in let ring_tip := lathe_ring (neg_f32 (Plunger_stroke p)) zc (rod_radius p) in
  r <~ connect_rings ([], []) ring_base ring_tip (ring_normals zc ring_base) (ring_normals zc ring_tip) 0 f32_one f32_zero ;;
  m <~ add_disc_cap (fst r) ring_base false up_y f32_one ;;
  add_disc_cap m ring_tip true down_y f32_zero.
(** mod.rs:441-446, 538-547 and 769-774: where the ring ends *)
Definition ring_bottom (p : Plunger) : f32 := add32 (add32 (neg_f32 (Plunger_stroke p)) (tip_length p)) (Plunger_ring_gap p).
Definition ring_top (p : Plunger) : f32 := add32 (ring_bottom p) (Plunger_ring_width p).
(** the loops at mod.rs:484-502 and 925-939: strips one after the other; a ring comes with its normals and its texture coordinate *)
Fixpoint connect_all (m : mesh) (base : Z) (l : list (list Vec3 * list Vec3)) (tvs : list (f32 * f32)) : res (mesh * Z) :=
  match l, tvs with
  | (r1, n1) :: ((r2, n2) :: _) as rest, (t1, t2) :: tvs' => x <~ connect_rings m r1 r2 n1 n2 base t1 t2 ;; connect_all (fst x) (snd x) rest tvs'
  | _, _ => Ok (m, base)
  end.
Definition with_normals (zc : f32) (ring : list Vec3) : list Vec3 * list Vec3 := (ring, ring_normals zc ring).
(** mod.rs:420-515 [generate_rod_mesh] *)
Definition rod_y (p : Plunger) (i : Z) : f32 := add32 (ring_top p) (mul32 (sub32 (Plunger_height p) (ring_top p)) (div32 (int32 i) (int32 4))).
Definition rod_tv (i : Z) : f32 := add32 f32_0_51 (mul32 (div32 (int32 i) (int32 4)) f32_0_23).
Definition rod_mesh (p : Plunger) : res mesh :=
  let zc := Plunger_width p in
  let ring (i : Z) := lathe_ring (rod_y p i) zc (rod_radius p) in
  r <~ connect_all ([], []) 0 (map (fun i => with_normals zc (ring i)) (steps 5)) (map (fun i => (rod_tv i, rod_tv (i + 1))) (steps 4)) ;;
  add_disc_cap (fst r) (ring 0) false up_y f32_0_74.
(** mod.rs:751-858 [generate_ring_mesh] *)
Definition ring_mesh (p : Plunger) : res mesh :=
  let zc := Plunger_width p in
  let r_ring := mul32 (mul32 (Plunger_width p) (Plunger_ring_diam p)) f32_half in
  let all (n : Vec3) := repeat n (Z.to_nat lathe_points) in
  let bottom_inner := lathe_ring (ring_bottom p) zc (rod_radius p) in let bottom := lathe_ring (ring_bottom p) zc r_ring in
  let top := lathe_ring (ring_top p) zc r_ring in let top_inner := lathe_ring (ring_top p) zc (rod_radius p) in
  a <~ connect_rings ([], []) bottom_inner bottom (all down_y) (all down_y) 0 f32_0_26 f32_0_33 ;;
  b <~ connect_rings (fst a) bottom top (ring_normals zc bottom) (ring_normals zc top) (snd a) f32_0_33 f32_0_42 ;;
  c <~ connect_rings (fst b) top top_inner (all up_y) (all up_y) (snd b) f32_0_42 f32_0_49 ;;
  Ok (fst c).
(** mod.rs:877-945 [generate_tip_mesh] *)
Definition tip_tv (len : f32) (t : TipPoint) : f32 := div32 (mul32 f32_0_24 (tip_y t)) len.
Definition tip_mesh (p : Plunger) : res mesh :=
  let points := parse_tip_shape (Plunger_tip_shape p) in
  if zlen points <? 2 then Ok ([], []) else
  let zc := Plunger_width p in let len := tip_length p in
  let ring (t : TipPoint) := lathe_ring (add32 (neg_f32 (Plunger_stroke p)) (tip_y t)) zc (mul32 (Plunger_width p) (tip_r t)) in
  let tvs := map (tip_tv len) points in
  r <~ connect_all ([], []) 0 (map (fun t => with_normals zc (ring t)) points) (combine tvs (tl tvs)) ;;
  Ok (fst r).

(** mod.rs:553-585: the numbers of a spring *)
Definition total_turns (p : Plunger) : f32 := add32 (Plunger_spring_loops p) (mul32 (Plunger_spring_end_loops p) f32_two).
Definition total_segments (p : Plunger) : Z := float_to_uint 18446744073709551615 (f32_value (mul32 (total_turns p) (int32 24))).
Definition end_segments (p : Plunger) : Z := float_to_uint 18446744073709551615 (f32_value (mul32 (Plunger_spring_end_loops p) (int32 24))).
Definition main_segments (p : Plunger) : Z := Z.max 0 (total_segments p - end_segments p).
Definition spring_end (p : Plunger) : f32 := mul32 (mul32 (Plunger_spring_end_loops p) (Plunger_spring_gauge p)) f32_2_2.
Definition spring_length (p : Plunger) : f32 := sub32 (Plunger_height p) (ring_top p).
Definition dy_end (p : Plunger) : f32 := if 1 <? end_segments p then div32 (spring_end p) (int32 (end_segments p - 1)) else f32_zero.
Definition dy_main (p : Plunger) : f32 := if 1 <? main_segments p then div32 (sub32 (spring_length p) (spring_end p)) (int32 (main_segments p - 1)) else spring_length p.
Definition spring_radius (p : Plunger) : f32 := mul32 (mul32 (Plunger_width p) f32_half) (Plunger_spring_diam p).
(** mod.rs:603-643: the line of the spring *)
Definition helix_angle (p : Plunger) (i : Z) : f32 := mul32 (mul32 (mul32 (div32 (int32 i) (int32 (total_segments p))) (total_turns p)) f32_two) f32_pi.
Definition helix_dy (p : Plunger) (i : Z) (dy : f32) : f32 := if (i =? end_segments p) && (0 <? main_segments p) then dy_main p else dy.
Definition helix_point (p : Plunger) (i : Z) (y : f32) : Vec3 :=
  let a := helix_angle p i in mkVec3 (add32 f32_zero (mul32 (spring_radius p) (cos a))) y (add32 (Plunger_width p) (mul32 (spring_radius p) (sin a))).
Definition helix_tangent (p : Plunger) (i : Z) (dy : f32) : Vec3 :=
  let a := helix_angle p i in let step := div32 (mul32 f32_two f32_pi) (int32 24) in
  let dx := mul32 (mul32 (neg_f32 (spring_radius p)) (sin a)) step in let dz := mul32 (mul32 (spring_radius p) (cos a)) step in
  let len := sqrt32 (add32 (add32 (mul32 dx dx) (mul32 dy dy)) (mul32 dz dz)) in
  if lt32 f32_zero len then mkVec3 (div32 dx len) (div32 dy len) (div32 dz len) else up_y.
Fixpoint helix (p : Plunger) (is : list Z) (y dy : f32) : list (Z * Vec3 * Vec3) :=
  match is with
  | [] => []
  | i :: r => let d := helix_dy p i dy in (i, helix_point p i y, helix_tangent p i d) :: helix p r (add32 y d) d
  end.
(** mod.rs:651-676: two directions across the line *)
Definition coil_basis (t : Vec3) : Vec3 * Vec3 :=
  let up := if lt32 (abs32 (vec_y t)) f32_0_99 then up_y else mkVec3 f32_one f32_zero f32_zero in
  let b := cross t up in
  let len := sqrt32 (add32 (add32 (mul32 (vec_x b) (vec_x b)) (mul32 (vec_y b) (vec_y b))) (mul32 (vec_z b) (vec_z b))) in
  let b := mkVec3 (div32 (vec_x b) len) (div32 (vec_y b) len) (div32 (vec_z b) len) in
  (cross b t, b).
(** mod.rs:682-719: one vertex *)
Definition coil_vertex (p : Plunger) (h : Z * Vec3 * Vec3) (j : Z) : wrapper :=
  let '(i, c, t) := h in let '(n, b) := coil_basis t in
  let theta := mul32 (mul32 (div32 (int32 j) (int32 8)) f32_two) f32_pi in
  let at_ (f : Vec3 -> f32) := add32 (mul32 (f n) (cos theta)) (mul32 (f b) (sin theta)) in
  let m := mkVec3 (at_ vec_x) (at_ vec_y) (at_ vec_z) in
  let g := Plunger_spring_gauge p in
  new_vertex (mkVec3 (add32 (vec_x c) (mul32 g (vec_x m))) (add32 (vec_y c) (mul32 g (vec_y m))) (add32 (vec_z c) (mul32 g (vec_z m)))) m
    (mul32 (add32 (sin (helix_angle p i)) f32_one) f32_half) (add32 f32_0_76 (mul32 (div32 (int32 j) (int32 8)) f32_0_22)).
(** mod.rs:678, 721-740: the triangles from ring [i] to the next one *)
Definition coil_quad (base next j : Z) : res (list face) :=
  let k := (j + 1) mod 8 in
  q0 <~ add16 base j ;; q1 <~ add16 base k ;; q2 <~ add16 next j ;; q3 <~ add16 next k ;;
  Ok [mkFace q0 q1 q2; mkFace q1 q3 q2].
Definition coil_faces (i : Z) : res (list face) :=
  let base := (8 * i) mod 65536 in
  next <~ add16 base 8 ;; each (coil_quad base next) (steps 8).
(** mod.rs:521-745 [generate_spring_mesh]; the last point of the line is not used *)
Definition spring_mesh (p : Plunger) : res mesh :=
  let n := total_segments p in
  if n <? 2 then Ok ([], []) else
  let line := helix p (steps n) (ring_top p) (dy_end p) in
  fs <~ each coil_faces (steps (n - 1)) ;;
  Ok (flat_map (fun h => map (coil_vertex p h) (steps 8)) line, fs).

(** mod.rs:949-984 [build_plunger_meshes] *)
Definition build_plunger_meshes (p : Plunger) : res PlungerMeshes :=
  if negb (Plunger_is_visible p) then Ok (mkPlungerMeshes None None None None None)
  else match Plunger_plunger_type p with
       | PlungerType_Unknown | PlungerType_Flat => m <~ flat_rod_mesh p ;; Ok (mkPlungerMeshes (Some m) None None None None)
       | PlungerType_Modern | PlungerType_Custom =>
           rod <~ rod_mesh p ;; spring <~ spring_mesh p ;; ring <~ ring_mesh p ;; tip <~ tip_mesh p ;;
           Ok (mkPlungerMeshes None (Some rod) (Some spring) (Some ring) (Some tip))
       end.
End Mesh.

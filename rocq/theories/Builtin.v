(** The mesh of a primitive without one of its own: src/vpx/mesh/builtin_primitive.rs, and src/wasm.rs where it is handed to a browser. *)
From Coq Require Import Floats.SpecFloat.
From Verif Require Import Base Text Image Sound Quantize ColorText Cfb JsonFloat Mesh Browser.

(** Arithmetic of f32 numbers *)
Definition add32 (a b : f32) : f32 := f32_bits (SFadd 24 128 (f32_value a) (f32_value b)).
Definition sub32 (a b : f32) : f32 := f32_bits (SFsub 24 128 (f32_value a) (f32_value b)).
Definition mul32 (a b : f32) : f32 := f32_bits (SFmul 24 128 (f32_value a) (f32_value b)).
Definition div32 (a b : f32) : f32 := f32_bits (SFdiv 24 128 (f32_value a) (f32_value b)).
Definition lt32 (a b : f32) : bool := SFltb (f32_value a) (f32_value b).
(** [n as f32] *)
Definition int32 (n : Z) : f32 := f32_bits (binary_normalize 24 128 n 0 false).
Definition f32_pi : f32 := Z_to_w32 0x40490fdb.
Definition f32_one : f32 := Z_to_w32 0x3f800000.
Definition f32_minus_one : f32 := Z_to_w32 0xbf800000.
Definition f32_minus_half : f32 := Z_to_w32 0xbf000000.
Definition f32_quarter : f32 := Z_to_w32 0x3e800000.
Definition f32_three_quarters : f32 := Z_to_w32 0x3f400000.
Definition f32_inf (negative : bool) : f32 := f32_bits (S754_infinity negative).

Section Builtin.
(** [f32::sin] and [f32::cos] *)
Variable sin cos : f32 -> f32.

(** builtin_primitive.rs:97-99 *)
Definition outer_radius (sides : Z) : f32 := div32 f32_minus_half (cos (div32 f32_pi (int32 sides))).
(** builtin_primitive.rs:144: [add_angle * i as f32 + offs_angle] *)
Definition ring_angle (sides i : Z) : f32 :=
  add32 (mul32 (div32 (mul32 f32_two f32_pi) (int32 sides)) (int32 i)) (div32 f32_pi (int32 sides)).
(** builtin_primitive.rs:145-146 *)
Definition ring_x (sides i : Z) : f32 := mul32 (sin (ring_angle sides i)) (outer_radius sides).
Definition ring_y (sides i : Z) : f32 := mul32 (cos (ring_angle sides i)) (outer_radius sides).
(** [0..n] *)
Definition steps (sides : Z) : list Z := map Z.of_nat (seq 0 (Z.to_nat sides)).
(** builtin_primitive.rs:195-206 *)
Definition ring_min (l : list f32) : f32 := fold_left (fun m x => if lt32 x m then x else m) l (f32_inf false).
Definition ring_max (l : list f32) : f32 := fold_left (fun m x => if lt32 m x then x else m) l (f32_inf true).
(** builtin_primitive.rs:215-216 *)
Definition top_tu (sides i : Z) : f32 :=
  let l := map (ring_x sides) (steps sides) in
  mul32 (sub32 (ring_x sides i) (ring_min l)) (div32 f32_half (sub32 (ring_max l) (ring_min l))).
Definition top_tv (sides i : Z) : f32 :=
  let l := map (ring_y sides) (steps sides) in
  mul32 (sub32 (ring_y sides i) (ring_min l)) (div32 f32_half (sub32 (ring_max l) (ring_min l))).
(** builtin_primitive.rs:222 *)
Definition side_tu (sides i : Z) : f32 := mul32 (int32 i) (div32 f32_one (int32 sides)).
(** builtin_primitive.rs:101-227: the vertices.  The code fills an array of [4 * n + 2] places at indices that follow one another in these six
    parts; here the parts are appended. *)
Definition builtin_vertices (sides : Z) : list Vtx :=
  let ring (z nx ny nz : f32) (tu tv : Z -> f32) (i : Z) := mkVtx (ring_x sides i) (ring_y sides i) z nx ny nz (tu i) (tv i) in
  [mkVtx f32_zero f32_zero f32_half f32_zero f32_zero f32_one f32_quarter f32_quarter] ++
  map (ring f32_half f32_zero f32_zero f32_one (top_tu sides) (top_tv sides)) (steps sides) ++
  [mkVtx f32_zero f32_zero f32_minus_half f32_zero f32_zero f32_minus_one f32_three_quarters f32_quarter] ++
  map (ring f32_minus_half f32_zero f32_zero f32_minus_one (fun i => add32 (top_tu sides i) f32_half) (top_tv sides)) (steps sides) ++
  map (fun i => ring f32_half (sin (ring_angle sides i)) (cos (ring_angle sides i)) f32_zero (side_tu sides) (fun _ => f32_half) i) (steps sides) ++
  map (fun i => ring f32_minus_half (sin (ring_angle sides i)) (cos (ring_angle sides i)) f32_zero (side_tu sides) (fun _ => f32_one) i) (steps sides).
(** builtin_primitive.rs:246-279: the triangles of side [i] *)
Definition builtin_faces (n : Z) (inside : bool) (i : Z) : list face :=
  let tmp := if i =? n - 1 then 1 else i + 2 in
  let tmp2 := tmp + 1 in
  let a := 2 * n + tmp2 in let b := 3 * n + 2 + i in let c := 2 * n + 2 + i in let d := 3 * n + tmp2 in
  [mkFace 0 tmp (i + 1); mkFace (n + 1) (n + 2 + i) (n + tmp2); mkFace a b c; mkFace a d b] ++
  (if inside then [mkFace 0 (i + 1) tmp; mkFace (n + 1) (n + tmp2) (n + 2 + i); mkFace a c b; mkFace a b d] else []).
(** builtin_primitive.rs:88-283 [build_builtin_primitive_mesh] *)
Definition build_builtin (sides : u32) (inside : bool) : option (list wrapper * list face) :=
  let n := w32_to_Z sides in
  if n <? 3 then None
  else Some (map (mkWrapper (repeat x00 32)) (builtin_vertices n), flat_map (builtin_faces n inside) (steps n)).
(** wasm.rs:453-489 [generate_builtin_primitive] *)
Definition generate_builtin (sides : u32) (inside : bool) : res PrimitiveMesh :=
  match build_builtin sides inside with
  | None => Err
  | Some (vertices, faces) =>
      let vs := map w_vertex vertices in
      Ok (mkPrimitiveMesh (lit "primitive") (flat_map (fun v => [v_x v; v_y v; v_z v]) vs) (flat_map (fun v => [v_tu v; v_tv v]) vs)
            (flat_map (fun v => [v_nx v; v_ny v; v_nz v]) vs) (flat_map (fun f => [Z_to_w32 (f_0 f); Z_to_w32 (f_1 f); Z_to_w32 (f_2 f)]) faces))
  end.
End Builtin.

(** wasm.rs:217-247 [midpoint]: the numbers of one axis, and the three of them *)
Definition axis_mid (l : list f32) : f32 := mul32 (add32 (ring_min l) (ring_max l)) f32_half.
Definition midpoint (positions : list f32) : f32 * f32 * f32 :=
  match positions with
  | [] => (f32_zero, f32_zero, f32_zero)
  | _ => let ps := chunks3 positions in
         (axis_mid (map (fun p => fst (fst p)) ps), axis_mid (map (fun p => snd (fst p)) ps), axis_mid (map snd ps))
  end.

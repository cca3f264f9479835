(** What the properties about the meshes of the browser interface say, apart from the code. *)
From Coq Require Import Floats.SpecFloat.
From Verif Require Import Base Text Image Sound Quantize ColorText JsonFloat Mesh SpecMesh Browser.

(** Arrays that describe a mesh: three numbers per position and per normal and two per texture coordinate, for the same number of
    vertices, and triangles of vertices that exist *)
Definition mesh_arrays (positions tex_coords normals : list f32) (indices : list u32) : Prop :=
  exists vertices triangles,
    zlen positions = 3 * vertices /\ zlen tex_coords = 2 * vertices /\ zlen normals = 3 * vertices /\ zlen indices = 3 * triangles /\
    Forall (fun i => w32_to_Z i < vertices) indices.
(** The same without the last condition *)
Definition aligned_arrays (m : PrimitiveMesh) : Prop :=
  exists vertices triangles,
    zlen (pm_positions m) = 3 * vertices /\ zlen (pm_tex_coords m) = 2 * vertices /\ zlen (pm_normals m) = 3 * vertices /\
    zlen (pm_indices m) = 3 * triangles.
Definition numbers (l : list f32) : Prop := Forall (fun x => f32_is_nan x = false) l.
(** The second numbers of the pairs of an array: [v1; v2; ...] of [u1; v1; u2; v2; ...] *)
Fixpoint seconds {A} (l : list A) : list A := match l with _ :: v :: l' => v :: seconds l' | _ => [] end.
(** A texture coordinate that the text of its mirror image keeps: one between a half and two, or one that is recovered from the f32 next to
    [1 - v] or from [1 - v] with seventeen digits after the point *)
Definition mirrored {num} (print32 : f32 -> num) (print64_digits : nat -> f64 -> num) (parse64 : num -> option f64) (v : f32) : Prop :=
  let image := one_minus (f64_of_f32 (f32_value v)) in
  let kept (text : num) := exists w, parse64 text = Some w /\ as_f32 (one_minus w) = v in
  f32_is_nan v = false /\
  ((SFleb (f32_value f32_half) (f32_value v) = true /\ SFleb (f32_value v) (f32_value f32_two) = true) \/ kept (print32 (as_f32 image)) \/ kept (print64_digits 17%nat image)).
(** The arrays of a list of vertices *)
Definition arrays_of (name : rstring) (vs : list Vtx) (indices : list u32) : PrimitiveMesh :=
  mkPrimitiveMesh name (flat_map (fun v => [v_x v; v_y v; v_z v]) vs) (flat_map (fun v => [v_tu v; v_tv v]) vs)
    (flat_map (fun v => [v_nx v; v_ny v; v_nz v]) vs) indices.
Definition corners_u32 (fs : list face) : list u32 := flat_map (fun f => [Z_to_w32 (f_0 f); Z_to_w32 (f_1 f); Z_to_w32 (f_2 f)]) fs.

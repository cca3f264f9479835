(** What the properties about meshes say, apart from the code. *)
From Coq Require Import Floats.SpecFloat.
From Verif Require Import Base Text Image Sound Quantize ColorText JsonFloat Mesh.

(** ** Polygons *)
(** The corner indices of a face are 1-based u32 numbers; a corner is good when its three indices exist. *)
Definition corner_exists (np nt nn : Z) (c : corner) : Prop :=
  1 <= c_v c <= np /\ 1 <= c_vt c <= nt /\ 1 <= c_vn c <= nn.
Definition corner_u32 (c : corner) : Prop := 0 <= c_v c /\ 0 <= c_vt c /\ 0 <= c_vn c.
Definition good_face (np nt nn : Z) (f : list corner) : Prop := (3 <= List.length f)%nat /\ Forall (corner_exists np nt nn) f.
(** The [i]th corner of a face, counted from the end when the winding is reversed *)
Definition corner_at (reverse : bool) (f : list corner) (i : nat) : corner :=
  nth (if reverse then List.length f - 1 - i else i)%nat f (mkCorner 0 0 0).
(** The fan of a polygon with n corners: the triangles (0, j, j+1) for j = 1 .. n-2 *)
Definition fan_of (reverse : bool) (f : list corner) : list (corner * corner * corner) :=
  map (fun j => (corner_at reverse f 0, corner_at reverse f j, corner_at reverse f (S j))) (seq 1 (List.length f - 2)).
Definition surface (reverse : bool) (faces : list (list corner)) : list (corner * corner * corner) := flat_map (fan_of reverse) faces.
(** What an index of a triangle refers to *)
Definition at_index {A} (l : list A) (i : Z) : option A := if i <? 0 then None else nth_error l (Z.to_nat i).
Definition triple_of (c : corner) : Z * Z * Z := (c_v c - 1, c_vt c - 1, c_vn c - 1).
Definition corners_of (combined : list (Z * Z * Z)) (f : face) : option (Z*Z*Z) * option (Z*Z*Z) * option (Z*Z*Z) :=
  (at_index combined (f_0 f), at_index combined (f_1 f), at_index combined (f_2 f)).
Definition uses (f : face) (k : Z) : Prop := f_0 f = k \/ f_1 f = k \/ f_2 f = k.
(** Position, texture coordinate and normal of a mesh vertex, and of a corner of the file *)
Definition mesh_vertex (d : obj_data) (i : Z) : option (f32 * f32 * f32) * option (f32 * option f64) * option obj_normal :=
  (at_index (o_vertices d) i, at_index (o_tex d) i, at_index (o_normals d) i).
Definition file_vertex (r : obj_reader) (c : corner) : option (f32 * f32 * f32) * option (f32 * option f64) * option obj_normal :=
  (at_index (r_vertices r) (c_v c - 1), at_index (r_tex r) (c_vt c - 1), at_index (r_normals r) (c_vn c - 1)).

(** ** Stored meshes *)
Definition vertex_bytes (v : Vtx) : bytes :=
  w32_bytes (v_x v) ++ w32_bytes (v_y v) ++ w32_bytes (v_z v) ++ w32_bytes (v_nx v) ++ w32_bytes (v_ny v) ++ w32_bytes (v_nz v) ++
  w32_bytes (v_tu v) ++ w32_bytes (v_tv v).
(** A vertex together with the bytes it was read from *)
Definition stored_vertex (w : wrapper) : Prop := w_bytes w = vertex_bytes (w_vertex w).
Definition face_within (lo hi : Z) (f : face) : Prop := lo <= f_0 f <= hi /\ lo <= f_1 f <= hi /\ lo <= f_2 f <= hi.

(** ** Numbers as text *)
(** What is assumed of printing and reading numbers: the text of an f32 other than NaN is read as an f64 that rounds to it; the text of a
    NaN or of an f64 is a number; and 0.5 and -1 are read exactly. *)
Record number_texts {num : Type} (print32 : f32 -> num) (print64 : f64 -> num) (parse64 : num -> option f64) : Prop := {
  nt_f32 : forall x, f32_is_nan x = false ->
    exists v, parse64 (print32 x) = Some v /\ valid_binary 53 1024 v = true /\ f32_of_f64 v = f32_value x;
  nt_nan : forall x, f32_is_nan x = true -> exists v, parse64 (print32 x) = Some v;
  nt_f64 : forall x, exists v, parse64 (print64 x) = Some v;
  nt_half : parse64 (print32 (Z_to_w32 0x3f000000)) = Some (S754_finite false 4503599627370496 (-53));
  nt_minus_one : parse64 (print32 (Z_to_w32 0xbf800000)) = Some (S754_finite true 4503599627370496 (-52)) }.

(** ** Animation frames *)
Definition frame_numbers (v : frame_vertex) : list f32 := [fv_x v; fv_y v; fv_z v; fv_nx v; fv_ny v; fv_nz v].
Definition no_nan (fvs : list frame_vertex) : Prop := Forall (fun v => Forall (fun x => f32_is_nan x = false) (frame_numbers v)) fvs.

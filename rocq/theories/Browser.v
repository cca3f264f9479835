(** The meshes of the browser interface: src/wasm.rs.  The part that calls [extract] and [assemble] is that of Extract.v. *)
From Verif Require Import Base Text Image Sound Quantize ColorText Cfb JsonFloat Mesh.

(** wasm.rs:170-178 [PrimitiveMesh] *)
Record PrimitiveMesh : Type := mkPrimitiveMesh {
  pm_name : rstring; pm_positions : list f32; pm_tex_coords : list f32; pm_normals : list f32; pm_indices : list u32 }.

(** [slice::chunks_exact] *)
Fixpoint chunks3 {A} (l : list A) : list (A * A * A) := match l with a :: b :: c :: l' => (a, b, c) :: chunks3 l' | _ => [] end.
Fixpoint chunks2 {A} (l : list A) : list (A * A) := match l with a :: b :: l' => (a, b) :: chunks2 l' | _ => [] end.
(** [usize::is_multiple_of] *)
Definition multiple_of {A} (l : list A) (n : Z) : bool := zlen l mod n =? 0.

Section Browser.
(** As in Mesh.v *)
Variable num : Type.
Variable print32 : f32 -> num.
Variable print64 : f64 -> num.
Variable print64_digits : nat -> f64 -> num.
Variable parse64 : num -> option f64.
Variable estimate : f32 -> nat.
Notation line := (line num).

(** wasm.rs:401-429: a triangle; [idx + 1] is a u32 *)
Definition triangle_line (convert : bool) (vert_count : Z) (t : u32 * u32 * u32) : res line :=
  let '(i, j, k) := t in
  let out_of_range (x : u32) := vert_count <=? w32_to_Z x in
  if out_of_range i || out_of_range j || out_of_range k then Err
  else let corner (x : u32) := let n := Z.to_N ((w32_to_Z x + 1) mod 4294967296) in (n, Some n, Some n) in
       Ok (LFace (if convert then [corner k; corner j; corner i] else [corner i; corner j; corner k])).
(** wasm.rs:318-434 [mesh_to_obj].  [z_sign * z] keeps [z] or flips its sign. *)
Definition mesh_to_obj (name : rstring) (positions tex_coords normals : list f32) (indices : list u32) (convert : bool) : res (list line) :=
  if negb (multiple_of positions 3) then Err else if negb (multiple_of tex_coords 2) then Err
  else if negb (multiple_of normals 3) then Err else if negb (multiple_of indices 3) then Err
  else let vert_count := zlen positions / 3 in
  if negb (zlen tex_coords / 2 =? vert_count) || negb (zlen normals / 3 =? vert_count) then Err
  else
    let sign z := if convert then neg_f32 z else z in
    faces <~ map_res (triangle_line convert vert_count) (chunks3 indices) ;;
    Ok ([LComment (lit "numVerts: " ++ dec_text (Z.to_N vert_count) ++ lit " numFaces: " ++ dec_text (Z.to_N (zlen indices / 3)));
         LObject (match name with [] => lit "object" | _ => name end)] ++
        map (fun p => let '(x, y, z) := p in LVertex (print32 x) (print32 y) (print32 (sign z)) None) (chunks3 positions) ++
        map (fun t => LTex (print32 (fst t))
               (Some (if convert then fst (flipped_v num print32 print64 print64_digits parse64 estimate (snd t)) else print32 (snd t))) None) (chunks2 tex_coords) ++
        map (fun p => let '(x, y, z) := p in LNormal (print32 x) (print32 y) (print32 (sign z))) (chunks3 normals) ++
        faces).

(** wasm.rs:262-301 [obj_to_mesh]; [face.i0 as u32] *)
Definition obj_to_mesh (ls : list line) (convert : bool) : res PrimitiveMesh :=
  x <~ read_obj_from_reader num parse64 convert ls ;;
  Ok (mkPrimitiveMesh (x_name x) (flat_map (fun v => [v_x v; v_y v; v_z v]) (x_final x)) (flat_map (fun v => [v_tu v; v_tv v]) (x_final x))
        (flat_map (fun v => [v_nx v; v_ny v; v_nz v]) (x_final x)) (flat_map (fun f => [Z_to_w32 (f_0 f); Z_to_w32 (f_1 f); Z_to_w32 (f_2 f)]) (x_faces x))).
End Browser.

(** Meshes of walls: src/vpx/mesh/walls.rs.

    Indices of the lists are those of the code; they are within the lists, where the code would panic otherwise, as the loops run over the lists.
    The casts of indices to [u32] and [i64] lose nothing below 2^30 vertices and are left out. *)
From Coq Require Import Floats.SpecFloat.
From Verif Require Import Base Text Image Sound Quantize ColorText Cfb JsonFloat Mesh Browser Common ItemWall Builtin Polygon Smooth FileSystem.

Definition f32_four : f32 := Z_to_w32 0x40800000.
Definition no_vertex : RenderVertex := mkRV f32_zero f32_zero false false.
Definition at_round (points : list RenderVertex) (l : nat) : RenderVertex := nth (l mod List.length points) points no_vertex.
(** walls.rs:180-186 [build_render_vertices] *)
Definition build_render_vertices (fuel : nat) (w : Wall) : res (list RenderVertex) := get_vertices fuel (Wall_drag_points w) f32_four true.

(** ** Texture coordinates of the sides *)
(** walls.rs:203-217: the drag points with a texture coordinate of their own, and the vertices they are *)
Fixpoint manual_points (drag_points : list DragPoint) (points : list RenderVertex) (i icontrol : nat) : list (nat * nat) :=
  match points with
  | [] => []
  | rv :: r =>
      if rv_control_point rv then
        match nth_error drag_points icontrol with
        | Some p => if dp_has_auto_texture p then [] else [(icontrol, i)]
        | None => []
        end ++ manual_points drag_points r (S i) (S icontrol)
      else manual_points drag_points r (S i) icontrol
  end.
(** walls.rs:249-254, 266-270: the length of the edge from a vertex *)
Definition edge_length (points : list RenderVertex) (l : nat) : f32 :=
  let p1 := at_round points l in let p2 := at_round points (l + 1) in
  let dx := sub32 (rv_x p2) (rv_x p1) in let dy := sub32 (rv_y p2) (rv_y p1) in sqrt32 (add32 (mul32 dx dx) (mul32 dy dy)).
(** walls.rs:256-271: the coordinates of a section *)
Fixpoint assign (points : list RenderVertex) (start_tex delta_coord total_length : f32) (ls : list nat) (cur_length : f32) (coords : list f32) : list f32 :=
  match ls with
  | [] => coords
  | l :: r =>
      let frac := if lt32 f32_zero total_length then div32 cur_length total_length else f32_zero in
      assign points start_tex delta_coord total_length r (add32 cur_length (edge_length points l))
             (set_nth (l mod List.length points) (add32 start_tex (mul32 frac delta_coord)) coords)
  end.
Definition one_section (points : list RenderVertex) (start_render end_render : nat) (start_tex end_tex : f32) (coords : list f32) : list f32 :=
  let cpoints := List.length points in
  let start_render := (start_render mod cpoints)%nat in let end_render := (end_render mod cpoints)%nat in
  let end_render := if (end_render <=? start_render)%nat then (end_render + cpoints)%nat else end_render in
  let ls := seq start_render (end_render - start_render) in
  let total_length := fold_left (fun t l => add32 t (edge_length points l)) ls f32_zero in
  assign points start_tex (sub32 end_tex start_tex) total_length ls f32_zero coords.
(** walls.rs:228-272: from each of these points to the next one *)
Fixpoint sections (drag_points : list DragPoint) (points : list RenderVertex) (no_coords : bool) (from : nat * nat) (rest : list (nat * nat)) (coords : list f32) : list f32 :=
  match rest with
  | [] => coords
  | to :: r =>
      let tex (i : nat) := match nth_error drag_points (i mod List.length drag_points)%nat with Some p => dp_tex_coord p | None => f32_zero end in
      let '(start_tex, end_tex) := if no_coords then (f32_zero, f32_one) else (tex (fst from), tex (fst to)) in
      sections drag_points points no_coords to r (one_section points (snd from) (snd to) start_tex end_tex coords)
  end.
(** walls.rs:191-275 [compute_side_texture_coords] *)
Definition compute_side_texture_coords (points : list RenderVertex) (drag_points : list DragPoint) : list f32 :=
  let coords := repeat f32_zero (List.length points) in
  let wrap (p : nat * nat) := ((fst p + List.length drag_points)%nat, (snd p + List.length points)%nat) in
  match manual_points drag_points points 0 0 with
  | [] => sections drag_points points true (0, 0)%nat [wrap (0, 0)%nat] coords
  | p :: r => sections drag_points points false p (r ++ [wrap p]) coords
  end.

(** ** The sides *)
(** math/vec.rs:53-68 [Vec2::normalize] *)
Definition normalize2 (v : f32 * f32) : f32 * f32 :=
  let '(x, y) := v in
  let len := sqrt32 (add32 (mul32 x x) (mul32 y y)) in
  if eq32b len f32_zero then (f32_zero, f32_zero) else (div32 x len, div32 y len).
Definition after_index (count i : nat) : nat := if (i + 1 <? count)%nat then (i + 1)%nat else 0%nat.
Definition before_index (count i : nat) : nat := if (i =? 0)%nat then (count - 1)%nat else (i - 1)%nat.
(** walls.rs:287-300 *)
Definition edge_normal (points : list RenderVertex) (i : nat) : f32 * f32 :=
  let p := nth i points no_vertex in let q := nth (after_index (List.length points) i) points no_vertex in
  let dx := sub32 (rv_x p) (rv_x q) in let dy := sub32 (rv_y p) (rv_y q) in
  let inv_len := sqrt32 (add32 (mul32 dx dx) (mul32 dy dy)) in
  if eq32b inv_len f32_zero then (f32_zero, f32_zero) else (div32 dy inv_len, div32 dx inv_len).
(** walls.rs:320-338 *)
Definition corner_normal (points : list RenderVertex) (corner edge other : nat) (first : bool) : f32 * f32 :=
  let e := edge_normal points edge in
  normalize2 (if rv_smooth (nth corner points no_vertex)
              then let o := edge_normal points other in
                   if first then (add32 (fst o) (fst e), add32 (snd o) (snd e)) else (add32 (fst e) (fst o), add32 (snd e) (snd o))
              else e).
(** walls.rs:317-389: the four vertices of the side from a point to the next one *)
Definition side_vertices (w : Wall) (points : list RenderVertex) (coords : option (list f32)) (i : nat) : list Vtx :=
  let count := List.length points in let next := after_index count i in let prev := before_index count i in
  let n0 := corner_normal points i i prev true in let n1 := corner_normal points next i next false in
  let p := nth i points no_vertex in let q := nth next points no_vertex in
  let tu (j : nat) := match coords with Some c => nth j c f32_zero | None => f32_zero end in
  let tv (v : f32) := match coords with Some _ => v | None => f32_zero end in
  [mkVtx (rv_x p) (rv_y p) (Wall_height_bottom w) (fst n0) (neg_f32 (snd n0)) f32_zero (tu i) (tv f32_one);
   mkVtx (rv_x p) (rv_y p) (Wall_height_top w) (fst n0) (neg_f32 (snd n0)) f32_zero (tu i) (tv f32_zero);
   mkVtx (rv_x q) (rv_y q) (Wall_height_top w) (fst n1) (neg_f32 (snd n1)) f32_zero (tu next) (tv f32_zero);
   mkVtx (rv_x q) (rv_y q) (Wall_height_bottom w) (fst n1) (neg_f32 (snd n1)) f32_zero (tu next) (tv f32_one)].
(** walls.rs:391-404 *)
Definition side_faces (i : nat) : list face :=
  let offset := Z.of_nat i * 4 in [mkFace offset (offset + 1) (offset + 2); mkFace offset (offset + 2) (offset + 3)].
(** walls.rs:277-405 [build_side_mesh] *)
Definition build_side_mesh (w : Wall) (points : list RenderVertex) (coords : option (list f32)) : list Vtx * list face :=
  let is := seq 0 (List.length points) in (flat_map (side_vertices w points coords) is, flat_map side_faces is).

(** ** The top *)
Definition flat_point (v : RenderVertex) : point := (rv_x v, rv_y v).
(** walls.rs:428-438 *)
Definition top_vertex (w : Wall) (tu tv : f32 -> f32) (p : RenderVertex) : Vtx :=
  mkVtx (rv_x p) (rv_y p) (Wall_height_top w) f32_zero f32_zero f32_one (tu (rv_x p)) (tv (rv_y p)).
(** walls.rs:442-454 [bounds_xy], for one coordinate *)
Definition bounds (l : list f32) : f32 * f32 := (fold_left min32 l (f32_inf false), fold_left max32 l (f32_inf true)).
(** walls.rs:419-428, 434: relative to the bounding box *)
Definition inverse (low high : f32) : f32 := if eq32b high low then f32_zero else div32 f32_one (sub32 high low).
Definition relative (bs : f32 * f32) (x : f32) : f32 := mul32 (sub32 x (fst bs)) (inverse (fst bs) (snd bs)).
(** walls.rs:407-440 [build_top_mesh_item_space] *)
Definition build_top_mesh_item_space (w : Wall) (points : list RenderVertex) : res (list Vtx * list face) :=
  triangles <~ triangulate_wall (map flat_point points) ;;
  Ok (map (top_vertex w (relative (bounds (map rv_x points))) (relative (bounds (map rv_y points)))) points, triangles).
(** mod.rs:1151-1156 [TableDimensions] *)
Record TableDimensions : Set := mkTableDimensions { td_left : f32; td_top : f32; td_right : f32; td_bottom : f32 }.
(** walls.rs:473-486, 496-497: relative to the table *)
Definition on_table (low high : f32) (x : f32) : f32 :=
  let size := sub32 high low in mul32 (sub32 x low) (if eq32b size f32_zero then f32_zero else div32 f32_one size).
(** walls.rs:456-502 [build_top_mesh] *)
Definition build_top_mesh (w : Wall) (points : list RenderVertex) (td : TableDimensions) : res (list Vtx * list face) :=
  triangles <~ triangulate_wall (map flat_point points) ;;
  Ok (map (top_vertex w (on_table (td_left td) (td_right td)) (on_table (td_top td) (td_bottom td))) points, triangles).

(** ** Meshes *)
(** model.rs:20-30 [to_vpx_bytes] *)
Definition to_vpx_bytes (v : Vtx) : bytes := flat_map w32_bytes [v_x v; v_y v; v_z v; v_nx v; v_ny v; v_nz v; v_tu v; v_tv v].
Definition wrap (v : Vtx) : wrapper := mkWrapper (to_vpx_bytes v) v.
Definition shifted (k : Z) (f : face) : face := mkFace (f_0 f + k) (f_1 f + k) (f_2 f + k).
Definition is_empty {A} (l : list A) : bool := match l with [] => true | _ => false end.
(** walls.rs:104-175 [build_wall_mesh] *)
Definition build_wall_mesh (fuel : nat) (w : Wall) : res (option (list wrapper * list face)) :=
  points <~ build_render_vertices fuel w ;;
  if (List.length points <? 3)%nat then Ok None else
  let coords := if is_empty (Wall_side_image w) then None else Some (compute_side_texture_coords points (Wall_drag_points w)) in
  let '(side_vs, side_fs) := build_side_mesh w points coords in
  top <~ build_top_mesh_item_space w points ;;
  let '(top_vs, top_fs) := top in
  if is_empty top_fs then Ok None else
  let both := (side_vs ++ top_vs, side_fs ++ map (shifted (zlen side_vs)) top_fs) in
  let '(vs, fs) := if Wall_is_top_bottom_visible w && Wall_is_side_visible w then both
                   else if Wall_is_top_bottom_visible w then (top_vs, top_fs)
                   else if Wall_is_side_visible w then (side_vs, side_fs) else both in
  Ok (Some (map wrap vs, fs)).
(** walls.rs:15-20 [WallMeshes] *)
Record WallMeshes : Set := mkWallMeshes { wm_top : option (list wrapper * list face); wm_side : option (list wrapper * list face) }.
(** walls.rs:26-102 [build_wall_meshes] *)
Definition build_wall_meshes (fuel : nat) (w : Wall) (td : TableDimensions) : res (option WallMeshes) :=
  points <~ build_render_vertices fuel w ;;
  if (List.length points <? 3)%nat then Ok None else
  let coords := if is_empty (Wall_side_image w) && is_empty (Wall_image w) then None else Some (compute_side_texture_coords points (Wall_drag_points w)) in
  let '(side_vs, side_fs) := build_side_mesh w points coords in
  let side := if is_empty side_vs then None else Some (map wrap side_vs, side_fs) in
  top <~ build_top_mesh w points td ;;
  let '(top_vs, top_fs) := top in
  let top := if is_empty top_fs then None else Some (map wrap top_vs, top_fs) in
  match side, top with None, None => Ok None | _, _ => Ok (Some (mkWallMeshes top side)) end.

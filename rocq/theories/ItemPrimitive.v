(** Generated by tools/gen_items.py from src/vpx/gameitem/primitive.rs. *)
From Verif Require Import Base Text Biff Quantize Common Enums ItemBase.

(** gameitem/primitive.rs:28-397; the array [rot_and_tra] is 9 separate fields *)
Record Primitive : Type := mkPrimitive {
  Primitive_name : rstring;
  Primitive_position : Vertex3D;
  Primitive_size : Vertex3D;
  Primitive_rot_and_tra_0 : f32;
  Primitive_rot_and_tra_1 : f32;
  Primitive_rot_and_tra_2 : f32;
  Primitive_rot_and_tra_3 : f32;
  Primitive_rot_and_tra_4 : f32;
  Primitive_rot_and_tra_5 : f32;
  Primitive_rot_and_tra_6 : f32;
  Primitive_rot_and_tra_7 : f32;
  Primitive_rot_and_tra_8 : f32;
  Primitive_image : rstring;
  Primitive_normal_map : option rstring;
  Primitive_sides : u32;
  Primitive_material : rstring;
  Primitive_side_color : Color;
  Primitive_is_visible : bool;
  Primitive_draw_textures_inside : bool;
  Primitive_hit_event : bool;
  Primitive_threshold : f32;
  Primitive_elasticity : f32;
  Primitive_elasticity_falloff : f32;
  Primitive_friction : f32;
  Primitive_scatter : f32;
  Primitive_edge_factor_ui : f32;
  Primitive_collision_reduction_factor : option f32;
  Primitive_is_collidable : bool;
  Primitive_is_toy : bool;
  Primitive_use_3d_mesh : bool;
  Primitive_static_rendering : bool;
  Primitive_disable_lighting_top_old : option f32;
  Primitive_disable_lighting_top : option f32;
  Primitive_disable_lighting_below : option f32;
  Primitive_is_reflection_enabled : option bool;
  Primitive_backfaces_enabled : option bool;
  Primitive_physics_material : option rstring;
  Primitive_overwrite_physics : option bool;
  Primitive_display_texture : option bool;
  Primitive_object_space_normal_map : option bool;
  Primitive_min_aa_bound : option Vertex3D;
  Primitive_max_aa_bound : option Vertex3D;
  Primitive_mesh_file_name : option rstring;
  Primitive_num_vertices : option u32;
  Primitive_compressed_vertices_len : option u32;
  Primitive_compressed_vertices_data : option bytes;
  Primitive_num_indices : option u32;
  Primitive_compressed_indices_len : option u32;
  Primitive_compressed_indices_data : option bytes;
  Primitive_compressed_animation_vertices_len : option (list u32);
  Primitive_compressed_animation_vertices_data : option (list bytes);
  Primitive_depth_bias : f32;
  Primitive_add_blend : option bool;
  Primitive_use_depth_mask : option bool;
  Primitive_alpha : option f32;
  Primitive_color : option Color;
  Primitive_light_map : option rstring;
  Primitive_reflection_probe : option rstring;
  Primitive_reflection_strength : option f32;
  Primitive_refraction_probe : option rstring;
  Primitive_refraction_thickness : option f32;
  Primitive_is_locked : bool;
  Primitive_editor_layer : option u32;
  Primitive_editor_layer_name : option rstring;
  Primitive_editor_layer_visibility : option bool;
  Primitive_part_group_name : option rstring }.
Definition Primitive_eta (s : Primitive) : Primitive := mkPrimitive (Primitive_name s) (Primitive_position s) (Primitive_size s) (Primitive_rot_and_tra_0 s) (Primitive_rot_and_tra_1 s) (Primitive_rot_and_tra_2 s) (Primitive_rot_and_tra_3 s) (Primitive_rot_and_tra_4 s) (Primitive_rot_and_tra_5 s) (Primitive_rot_and_tra_6 s) (Primitive_rot_and_tra_7 s) (Primitive_rot_and_tra_8 s) (Primitive_image s) (Primitive_normal_map s) (Primitive_sides s) (Primitive_material s) (Primitive_side_color s) (Primitive_is_visible s) (Primitive_draw_textures_inside s) (Primitive_hit_event s) (Primitive_threshold s) (Primitive_elasticity s) (Primitive_elasticity_falloff s) (Primitive_friction s) (Primitive_scatter s) (Primitive_edge_factor_ui s) (Primitive_collision_reduction_factor s) (Primitive_is_collidable s) (Primitive_is_toy s) (Primitive_use_3d_mesh s) (Primitive_static_rendering s) (Primitive_disable_lighting_top_old s) (Primitive_disable_lighting_top s) (Primitive_disable_lighting_below s) (Primitive_is_reflection_enabled s) (Primitive_backfaces_enabled s) (Primitive_physics_material s) (Primitive_overwrite_physics s) (Primitive_display_texture s) (Primitive_object_space_normal_map s) (Primitive_min_aa_bound s) (Primitive_max_aa_bound s) (Primitive_mesh_file_name s) (Primitive_num_vertices s) (Primitive_compressed_vertices_len s) (Primitive_compressed_vertices_data s) (Primitive_num_indices s) (Primitive_compressed_indices_len s) (Primitive_compressed_indices_data s) (Primitive_compressed_animation_vertices_len s) (Primitive_compressed_animation_vertices_data s) (Primitive_depth_bias s) (Primitive_add_blend s) (Primitive_use_depth_mask s) (Primitive_alpha s) (Primitive_color s) (Primitive_light_map s) (Primitive_reflection_probe s) (Primitive_reflection_strength s) (Primitive_refraction_probe s) (Primitive_refraction_thickness s) (Primitive_is_locked s) (Primitive_editor_layer s) (Primitive_editor_layer_name s) (Primitive_editor_layer_visibility s) (Primitive_part_group_name s).
(** Assignments to one field. *)
Definition set_Primitive_name (x : rstring) (s : Primitive) : Primitive := ltac:(setter Primitive_eta Primitive_name s x).
Definition set_Primitive_position (x : Vertex3D) (s : Primitive) : Primitive := ltac:(setter Primitive_eta Primitive_position s x).
Definition set_Primitive_size (x : Vertex3D) (s : Primitive) : Primitive := ltac:(setter Primitive_eta Primitive_size s x).
Definition set_Primitive_rot_and_tra_0 (x : f32) (s : Primitive) : Primitive := ltac:(setter Primitive_eta Primitive_rot_and_tra_0 s x).
Definition set_Primitive_rot_and_tra_1 (x : f32) (s : Primitive) : Primitive := ltac:(setter Primitive_eta Primitive_rot_and_tra_1 s x).
Definition set_Primitive_rot_and_tra_2 (x : f32) (s : Primitive) : Primitive := ltac:(setter Primitive_eta Primitive_rot_and_tra_2 s x).
Definition set_Primitive_rot_and_tra_3 (x : f32) (s : Primitive) : Primitive := ltac:(setter Primitive_eta Primitive_rot_and_tra_3 s x).
Definition set_Primitive_rot_and_tra_4 (x : f32) (s : Primitive) : Primitive := ltac:(setter Primitive_eta Primitive_rot_and_tra_4 s x).
Definition set_Primitive_rot_and_tra_5 (x : f32) (s : Primitive) : Primitive := ltac:(setter Primitive_eta Primitive_rot_and_tra_5 s x).
Definition set_Primitive_rot_and_tra_6 (x : f32) (s : Primitive) : Primitive := ltac:(setter Primitive_eta Primitive_rot_and_tra_6 s x).
Definition set_Primitive_rot_and_tra_7 (x : f32) (s : Primitive) : Primitive := ltac:(setter Primitive_eta Primitive_rot_and_tra_7 s x).
Definition set_Primitive_rot_and_tra_8 (x : f32) (s : Primitive) : Primitive := ltac:(setter Primitive_eta Primitive_rot_and_tra_8 s x).
Definition set_Primitive_image (x : rstring) (s : Primitive) : Primitive := ltac:(setter Primitive_eta Primitive_image s x).
Definition set_Primitive_normal_map (x : option rstring) (s : Primitive) : Primitive := ltac:(setter Primitive_eta Primitive_normal_map s x).
Definition set_Primitive_sides (x : u32) (s : Primitive) : Primitive := ltac:(setter Primitive_eta Primitive_sides s x).
Definition set_Primitive_material (x : rstring) (s : Primitive) : Primitive := ltac:(setter Primitive_eta Primitive_material s x).
Definition set_Primitive_side_color (x : Color) (s : Primitive) : Primitive := ltac:(setter Primitive_eta Primitive_side_color s x).
Definition set_Primitive_is_visible (x : bool) (s : Primitive) : Primitive := ltac:(setter Primitive_eta Primitive_is_visible s x).
Definition set_Primitive_draw_textures_inside (x : bool) (s : Primitive) : Primitive := ltac:(setter Primitive_eta Primitive_draw_textures_inside s x).
Definition set_Primitive_hit_event (x : bool) (s : Primitive) : Primitive := ltac:(setter Primitive_eta Primitive_hit_event s x).
Definition set_Primitive_threshold (x : f32) (s : Primitive) : Primitive := ltac:(setter Primitive_eta Primitive_threshold s x).
Definition set_Primitive_elasticity (x : f32) (s : Primitive) : Primitive := ltac:(setter Primitive_eta Primitive_elasticity s x).
Definition set_Primitive_elasticity_falloff (x : f32) (s : Primitive) : Primitive := ltac:(setter Primitive_eta Primitive_elasticity_falloff s x).
Definition set_Primitive_friction (x : f32) (s : Primitive) : Primitive := ltac:(setter Primitive_eta Primitive_friction s x).
Definition set_Primitive_scatter (x : f32) (s : Primitive) : Primitive := ltac:(setter Primitive_eta Primitive_scatter s x).
Definition set_Primitive_edge_factor_ui (x : f32) (s : Primitive) : Primitive := ltac:(setter Primitive_eta Primitive_edge_factor_ui s x).
Definition set_Primitive_collision_reduction_factor (x : option f32) (s : Primitive) : Primitive := ltac:(setter Primitive_eta Primitive_collision_reduction_factor s x).
Definition set_Primitive_is_collidable (x : bool) (s : Primitive) : Primitive := ltac:(setter Primitive_eta Primitive_is_collidable s x).
Definition set_Primitive_is_toy (x : bool) (s : Primitive) : Primitive := ltac:(setter Primitive_eta Primitive_is_toy s x).
Definition set_Primitive_use_3d_mesh (x : bool) (s : Primitive) : Primitive := ltac:(setter Primitive_eta Primitive_use_3d_mesh s x).
Definition set_Primitive_static_rendering (x : bool) (s : Primitive) : Primitive := ltac:(setter Primitive_eta Primitive_static_rendering s x).
Definition set_Primitive_disable_lighting_top_old (x : option f32) (s : Primitive) : Primitive := ltac:(setter Primitive_eta Primitive_disable_lighting_top_old s x).
Definition set_Primitive_disable_lighting_top (x : option f32) (s : Primitive) : Primitive := ltac:(setter Primitive_eta Primitive_disable_lighting_top s x).
Definition set_Primitive_disable_lighting_below (x : option f32) (s : Primitive) : Primitive := ltac:(setter Primitive_eta Primitive_disable_lighting_below s x).
Definition set_Primitive_is_reflection_enabled (x : option bool) (s : Primitive) : Primitive := ltac:(setter Primitive_eta Primitive_is_reflection_enabled s x).
Definition set_Primitive_backfaces_enabled (x : option bool) (s : Primitive) : Primitive := ltac:(setter Primitive_eta Primitive_backfaces_enabled s x).
Definition set_Primitive_physics_material (x : option rstring) (s : Primitive) : Primitive := ltac:(setter Primitive_eta Primitive_physics_material s x).
Definition set_Primitive_overwrite_physics (x : option bool) (s : Primitive) : Primitive := ltac:(setter Primitive_eta Primitive_overwrite_physics s x).
Definition set_Primitive_display_texture (x : option bool) (s : Primitive) : Primitive := ltac:(setter Primitive_eta Primitive_display_texture s x).
Definition set_Primitive_object_space_normal_map (x : option bool) (s : Primitive) : Primitive := ltac:(setter Primitive_eta Primitive_object_space_normal_map s x).
Definition set_Primitive_min_aa_bound (x : option Vertex3D) (s : Primitive) : Primitive := ltac:(setter Primitive_eta Primitive_min_aa_bound s x).
Definition set_Primitive_max_aa_bound (x : option Vertex3D) (s : Primitive) : Primitive := ltac:(setter Primitive_eta Primitive_max_aa_bound s x).
Definition set_Primitive_mesh_file_name (x : option rstring) (s : Primitive) : Primitive := ltac:(setter Primitive_eta Primitive_mesh_file_name s x).
Definition set_Primitive_num_vertices (x : option u32) (s : Primitive) : Primitive := ltac:(setter Primitive_eta Primitive_num_vertices s x).
Definition set_Primitive_compressed_vertices_len (x : option u32) (s : Primitive) : Primitive := ltac:(setter Primitive_eta Primitive_compressed_vertices_len s x).
Definition set_Primitive_compressed_vertices_data (x : option bytes) (s : Primitive) : Primitive := ltac:(setter Primitive_eta Primitive_compressed_vertices_data s x).
Definition set_Primitive_num_indices (x : option u32) (s : Primitive) : Primitive := ltac:(setter Primitive_eta Primitive_num_indices s x).
Definition set_Primitive_compressed_indices_len (x : option u32) (s : Primitive) : Primitive := ltac:(setter Primitive_eta Primitive_compressed_indices_len s x).
Definition set_Primitive_compressed_indices_data (x : option bytes) (s : Primitive) : Primitive := ltac:(setter Primitive_eta Primitive_compressed_indices_data s x).
Definition set_Primitive_compressed_animation_vertices_len (x : option (list u32)) (s : Primitive) : Primitive := ltac:(setter Primitive_eta Primitive_compressed_animation_vertices_len s x).
Definition set_Primitive_compressed_animation_vertices_data (x : option (list bytes)) (s : Primitive) : Primitive := ltac:(setter Primitive_eta Primitive_compressed_animation_vertices_data s x).
Definition set_Primitive_depth_bias (x : f32) (s : Primitive) : Primitive := ltac:(setter Primitive_eta Primitive_depth_bias s x).
Definition set_Primitive_add_blend (x : option bool) (s : Primitive) : Primitive := ltac:(setter Primitive_eta Primitive_add_blend s x).
Definition set_Primitive_use_depth_mask (x : option bool) (s : Primitive) : Primitive := ltac:(setter Primitive_eta Primitive_use_depth_mask s x).
Definition set_Primitive_alpha (x : option f32) (s : Primitive) : Primitive := ltac:(setter Primitive_eta Primitive_alpha s x).
Definition set_Primitive_color (x : option Color) (s : Primitive) : Primitive := ltac:(setter Primitive_eta Primitive_color s x).
Definition set_Primitive_light_map (x : option rstring) (s : Primitive) : Primitive := ltac:(setter Primitive_eta Primitive_light_map s x).
Definition set_Primitive_reflection_probe (x : option rstring) (s : Primitive) : Primitive := ltac:(setter Primitive_eta Primitive_reflection_probe s x).
Definition set_Primitive_reflection_strength (x : option f32) (s : Primitive) : Primitive := ltac:(setter Primitive_eta Primitive_reflection_strength s x).
Definition set_Primitive_refraction_probe (x : option rstring) (s : Primitive) : Primitive := ltac:(setter Primitive_eta Primitive_refraction_probe s x).
Definition set_Primitive_refraction_thickness (x : option f32) (s : Primitive) : Primitive := ltac:(setter Primitive_eta Primitive_refraction_thickness s x).
Definition set_Primitive_is_locked (x : bool) (s : Primitive) : Primitive := ltac:(setter Primitive_eta Primitive_is_locked s x).
Definition set_Primitive_editor_layer (x : option u32) (s : Primitive) : Primitive := ltac:(setter Primitive_eta Primitive_editor_layer s x).
Definition set_Primitive_editor_layer_name (x : option rstring) (s : Primitive) : Primitive := ltac:(setter Primitive_eta Primitive_editor_layer_name s x).
Definition set_Primitive_editor_layer_visibility (x : option bool) (s : Primitive) : Primitive := ltac:(setter Primitive_eta Primitive_editor_layer_visibility s x).
Definition set_Primitive_part_group_name (x : option rstring) (s : Primitive) : Primitive := ltac:(setter Primitive_eta Primitive_part_group_name s x).
(** gameitem/primitive.rs:400-463 *)
Definition Primitive_default : Primitive := mkPrimitive
  []
  Vertex3D_default
  (mkVertex3D (Z_to_w32 1120403456) (* 100.0 *) (Z_to_w32 1120403456) (* 100.0 *) (Z_to_w32 1120403456) (* 100.0 *))
  f32_0
  f32_0
  f32_0
  f32_0
  f32_0
  f32_0
  f32_0
  f32_0
  f32_0
  []
  None
  (Z_to_w32 4)
  []
  Color_BLACK
  true
  false
  true
  (Z_to_w32 1073741824) (* 2.0 *)
  (Z_to_w32 1050253722) (* 0.3 *)
  (Z_to_w32 1056964608) (* 0.5 *)
  (Z_to_w32 1050253722) (* 0.3 *)
  f32_0
  (Z_to_w32 1048576000) (* 0.25 *)
  None
  true
  false
  false
  false
  None
  None
  None
  None
  None
  None
  None
  None
  None
  None
  None
  None
  None
  None
  None
  None
  None
  None
  None
  None
  f32_0
  None
  None
  None
  None
  None
  None
  None
  None
  None
  false
  None
  None
  None
  None.
(** gameitem/primitive.rs:398, the macro at gameitem/select.rs:168-207 *)
Definition Primitive_shared : HasShared Primitive := mkHasShared
  Primitive_is_locked Primitive_editor_layer Primitive_editor_layer_name Primitive_editor_layer_visibility Primitive_part_group_name
  set_Primitive_is_locked set_Primitive_editor_layer set_Primitive_editor_layer_name set_Primitive_editor_layer_visibility set_Primitive_part_group_name.
(** gameitem/primitive.rs:754-995, the arms of the record loop and its fallback; the local variables [compressed_animation_vertices] and [m3ax], stored at the end, are kept in their fields ([None] in the default value) *)
Definition Primitive_own_arms : list (arm Primitive) :=
  [
    ("VPOS", fun s => x <- Vertex3D_read ;; rret (set_Primitive_position x s)); (* 774 *)
    ("VSIZ", fun s => x <- Vertex3D_read ;; rret (set_Primitive_size x s)); (* 777 *)
    ("RTV0", fun s => x <- get_f32 ;; rret (set_Primitive_rot_and_tra_0 x s)); (* 780 *)
    ("RTV1", fun s => x <- get_f32 ;; rret (set_Primitive_rot_and_tra_1 x s)); (* 783 *)
    ("RTV2", fun s => x <- get_f32 ;; rret (set_Primitive_rot_and_tra_2 x s)); (* 786 *)
    ("RTV3", fun s => x <- get_f32 ;; rret (set_Primitive_rot_and_tra_3 x s)); (* 789 *)
    ("RTV4", fun s => x <- get_f32 ;; rret (set_Primitive_rot_and_tra_4 x s)); (* 792 *)
    ("RTV5", fun s => x <- get_f32 ;; rret (set_Primitive_rot_and_tra_5 x s)); (* 795 *)
    ("RTV6", fun s => x <- get_f32 ;; rret (set_Primitive_rot_and_tra_6 x s)); (* 798 *)
    ("RTV7", fun s => x <- get_f32 ;; rret (set_Primitive_rot_and_tra_7 x s)); (* 801 *)
    ("RTV8", fun s => x <- get_f32 ;; rret (set_Primitive_rot_and_tra_8 x s)); (* 804 *)
    ("IMAG", fun s => x <- get_string ;; rret (set_Primitive_image x s)); (* 807 *)
    ("NRMA", fun s => x <- get_string ;; rret (set_Primitive_normal_map (Some x) s)); (* 810 *)
    ("SIDS", fun s => x <- get_u32 ;; rret (set_Primitive_sides x s)); (* 813 *)
    ("NAME", fun s => x <- get_wide_string ;; rret (set_Primitive_name x s)); (* 816 *)
    ("MATR", fun s => x <- get_string ;; rret (set_Primitive_material x s)); (* 819 *)
    ("SCOL", fun s => x <- Color_read ;; rret (set_Primitive_side_color x s)); (* 822 *)
    ("TVIS", fun s => x <- get_bool ;; rret (set_Primitive_is_visible x s)); (* 825 *)
    ("DTXI", fun s => x <- get_bool ;; rret (set_Primitive_draw_textures_inside x s)); (* 828 *)
    ("HTEV", fun s => x <- get_bool ;; rret (set_Primitive_hit_event x s)); (* 831 *)
    ("THRS", fun s => x <- get_f32 ;; rret (set_Primitive_threshold x s)); (* 834 *)
    ("ELAS", fun s => x <- get_f32 ;; rret (set_Primitive_elasticity x s)); (* 837 *)
    ("ELFO", fun s => x <- get_f32 ;; rret (set_Primitive_elasticity_falloff x s)); (* 840 *)
    ("RFCT", fun s => x <- get_f32 ;; rret (set_Primitive_friction x s)); (* 843 *)
    ("RSCT", fun s => x <- get_f32 ;; rret (set_Primitive_scatter x s)); (* 846 *)
    ("EFUI", fun s => x <- get_f32 ;; rret (set_Primitive_edge_factor_ui x s)); (* 849 *)
    ("CORF", fun s => x <- get_f32 ;; rret (set_Primitive_collision_reduction_factor (Some x) s)); (* 852 *)
    ("CLDR", fun s => x <- get_bool ;; rret (set_Primitive_is_collidable x s)); (* 855 *)
    ("ISTO", fun s => x <- get_bool ;; rret (set_Primitive_is_toy x s)); (* 858 *)
    ("U3DM", fun s => x <- get_bool ;; rret (set_Primitive_use_3d_mesh x s)); (* 861 *)
    ("STRE", fun s => x <- get_bool ;; rret (set_Primitive_static_rendering x s)); (* 864 *)
    ("DILI", fun s => x <- get_dequantized8 ;; rret (set_Primitive_disable_lighting_top_old (Some x) s)); (* 867 *)
    ("DILT", fun s => x <- get_f32 ;; rret (set_Primitive_disable_lighting_top (Some x) s)); (* 872 *)
    ("DILB", fun s => x <- get_f32 ;; rret (set_Primitive_disable_lighting_below (Some x) s)); (* 875 *)
    ("REEN", fun s => x <- get_bool ;; rret (set_Primitive_is_reflection_enabled (Some x) s)); (* 878 *)
    ("EBFC", fun s => x <- get_bool ;; rret (set_Primitive_backfaces_enabled (Some x) s)); (* 881 *)
    ("MAPH", fun s => x <- get_string ;; rret (set_Primitive_physics_material (Some x) s)); (* 884 *)
    ("OVPH", fun s => x <- get_bool ;; rret (set_Primitive_overwrite_physics (Some x) s)); (* 887 *)
    ("DIPT", fun s => x <- get_bool ;; rret (set_Primitive_display_texture (Some x) s)); (* 890 *)
    ("OSNM", fun s => x <- get_bool ;; rret (set_Primitive_object_space_normal_map (Some x) s)); (* 893 *)
    ("BMIN", fun s => x <- Vertex3D_read_unpadded ;; rret (set_Primitive_min_aa_bound (Some x) s)); (* 896 *)
    ("BMAX", fun s => x <- Vertex3D_read_unpadded ;; rret (set_Primitive_max_aa_bound (Some x) s)); (* 899 *)
    ("M3DN", fun s => x <- get_string ;; rret (set_Primitive_mesh_file_name (Some x) s)); (* 902 *)
    ("M3VN", fun s => x <- get_u32 ;; rret (set_Primitive_num_vertices (Some x) s)); (* 905 *)
    ("M3CY", fun s => x <- get_u32 ;; rret (set_Primitive_compressed_vertices_len (Some x) s)); (* 908 *)
    ("M3CX", fun s => x <- get_record_data false ;; rret (set_Primitive_compressed_vertices_data (Some x) s)); (* 918 *)
    ("M3FN", fun s => x <- get_u32 ;; rret (set_Primitive_num_indices (Some x) s)); (* 921 *)
    ("M3CJ", fun s => x <- get_u32 ;; rret (set_Primitive_compressed_indices_len (Some x) s)); (* 924 *)
    ("M3CI", fun s => x <- get_record_data false ;; rret (set_Primitive_compressed_indices_data (Some x) s)); (* 927 *)
    ("M3AY", fun s => x <- get_u32 ;; rret (set_Primitive_compressed_animation_vertices_len (opt_push (Primitive_compressed_animation_vertices_len s) x) s)); (* 930 *)
    ("M3AX", fun s => x <- get_record_data false ;; rret (set_Primitive_compressed_animation_vertices_data (opt_push (Primitive_compressed_animation_vertices_data s) x) s)); (* 938 *)
    ("PIDB", fun s => x <- get_f32 ;; rret (set_Primitive_depth_bias x s)); (* 948 *)
    ("ADDB", fun s => x <- get_bool ;; rret (set_Primitive_add_blend (Some x) s)); (* 951 *)
    ("ZMSK", fun s => x <- get_bool ;; rret (set_Primitive_use_depth_mask (Some x) s)); (* 954 *)
    ("FALP", fun s => x <- get_f32 ;; rret (set_Primitive_alpha (Some x) s)); (* 957 *)
    ("COLR", fun s => x <- Color_read ;; rret (set_Primitive_color (Some x) s)); (* 960 *)
    ("LMAP", fun s => x <- get_string ;; rret (set_Primitive_light_map (Some x) s)); (* 963 *)
    ("REFL", fun s => x <- get_string ;; rret (set_Primitive_reflection_probe (Some x) s)); (* 966 *)
    ("RSTR", fun s => x <- get_f32 ;; rret (set_Primitive_reflection_strength (Some x) s)); (* 969 *)
    ("REFR", fun s => x <- get_string ;; rret (set_Primitive_refraction_probe (Some x) s)); (* 972 *)
    ("RTHI", fun s => x <- get_f32 ;; rret (set_Primitive_refraction_thickness (Some x) s)) (* 975 *) ]%string.
Definition Primitive_arms : list (arm Primitive) := Primitive_own_arms ++ shared_arms Primitive_shared.
Definition Primitive_init : Primitive := Primitive_default.
Definition Primitive_read : rd_M Primitive := read_arms Primitive_arms Primitive_init.
(** gameitem/primitive.rs:997-1147 *)
Definition Primitive_write (v : Primitive) : wr_M :=
  write_tagged_with "VPOS" (Vertex3D_write (Primitive_position v)) >>>
  write_tagged_with "VSIZ" (Vertex3D_write (Primitive_size v)) >>>
  write_tagged_f32 "RTV0" (Primitive_rot_and_tra_0 v) >>>
  write_tagged_f32 "RTV1" (Primitive_rot_and_tra_1 v) >>>
  write_tagged_f32 "RTV2" (Primitive_rot_and_tra_2 v) >>>
  write_tagged_f32 "RTV3" (Primitive_rot_and_tra_3 v) >>>
  write_tagged_f32 "RTV4" (Primitive_rot_and_tra_4 v) >>>
  write_tagged_f32 "RTV5" (Primitive_rot_and_tra_5 v) >>>
  write_tagged_f32 "RTV6" (Primitive_rot_and_tra_6 v) >>>
  write_tagged_f32 "RTV7" (Primitive_rot_and_tra_7 v) >>>
  write_tagged_f32 "RTV8" (Primitive_rot_and_tra_8 v) >>>
  write_tagged_string "IMAG" (Primitive_image v) >>>
  wopt (Primitive_normal_map v) (fun x => write_tagged_string "NRMA" x) >>>
  write_tagged_u32 "SIDS" (Primitive_sides v) >>>
  write_tagged_wide_string "NAME" (Primitive_name v) >>>
  write_tagged_string "MATR" (Primitive_material v) >>>
  write_tagged_with "SCOL" (Color_write (Primitive_side_color v)) >>>
  write_tagged_bool "TVIS" (Primitive_is_visible v) >>>
  write_tagged_bool "DTXI" (Primitive_draw_textures_inside v) >>>
  write_tagged_bool "HTEV" (Primitive_hit_event v) >>>
  write_tagged_f32 "THRS" (Primitive_threshold v) >>>
  write_tagged_f32 "ELAS" (Primitive_elasticity v) >>>
  write_tagged_f32 "ELFO" (Primitive_elasticity_falloff v) >>>
  write_tagged_f32 "RFCT" (Primitive_friction v) >>>
  write_tagged_f32 "RSCT" (Primitive_scatter v) >>>
  write_tagged_f32 "EFUI" (Primitive_edge_factor_ui v) >>>
  wopt (Primitive_collision_reduction_factor v) (fun x => write_tagged_f32 "CORF" x) >>>
  write_tagged_bool "CLDR" (Primitive_is_collidable v) >>>
  write_tagged_bool "ISTO" (Primitive_is_toy v) >>>
  write_tagged_bool "U3DM" (Primitive_use_3d_mesh v) >>>
  write_tagged_bool "STRE" (Primitive_static_rendering v) >>>
  wopt (Primitive_disable_lighting_top_old v) (fun x => write_tagged_quantized8 "DILI" x) >>>
  wopt (Primitive_disable_lighting_top v) (fun x => write_tagged_f32 "DILT" x) >>>
  wopt (Primitive_disable_lighting_below v) (fun x => write_tagged_f32 "DILB" x) >>>
  wopt (Primitive_is_reflection_enabled v) (fun x => write_tagged_bool "REEN" x) >>>
  wopt (Primitive_backfaces_enabled v) (fun x => write_tagged_bool "EBFC" x) >>>
  wopt (Primitive_physics_material v) (fun x => write_tagged_string "MAPH" x) >>>
  wopt (Primitive_overwrite_physics v) (fun x => write_tagged_bool "OVPH" x) >>>
  wopt (Primitive_display_texture v) (fun x => write_tagged_bool "DIPT" x) >>>
  wopt (Primitive_object_space_normal_map v) (fun x => write_tagged_bool "OSNM" x) >>>
  wopt (Primitive_min_aa_bound v) (fun x => write_tagged_with "BMIN" (Vertex3D_write_unpadded x)) >>>
  wopt (Primitive_max_aa_bound v) (fun x => write_tagged_with "BMAX" (Vertex3D_write_unpadded x)) >>>
  wopt (Primitive_mesh_file_name v) (fun x => write_tagged_string "M3DN" x) >>>
  wopt (Primitive_num_vertices v) (fun x => write_tagged_u32 "M3VN" x) >>>
  wopt (Primitive_compressed_vertices_len v) (fun x => write_tagged_u32 "M3CY" x) >>>
  wopt (Primitive_compressed_vertices_data v) (fun x => write_tagged_data "M3CX" x) >>>
  wopt (Primitive_num_indices v) (fun x => write_tagged_u32 "M3FN" x) >>>
  wopt (Primitive_compressed_indices_len v) (fun x => write_tagged_u32 "M3CJ" x) >>>
  wopt (Primitive_compressed_indices_data v) (fun x => write_tagged_data "M3CI" x) >>>
  write_animation (Primitive_compressed_animation_vertices_len v) (Primitive_compressed_animation_vertices_data v) >>>
  write_tagged_f32 "PIDB" (Primitive_depth_bias v) >>>
  wopt (Primitive_add_blend v) (fun x => write_tagged_bool "ADDB" x) >>>
  wopt (Primitive_use_depth_mask v) (fun x => write_tagged_bool "ZMSK" x) >>>
  wopt (Primitive_alpha v) (fun x => write_tagged_f32 "FALP" x) >>>
  wopt (Primitive_color v) (fun x => write_tagged_with "COLR" (Color_write x)) >>>
  wopt (Primitive_light_map v) (fun x => write_tagged_string "LMAP" x) >>>
  wopt (Primitive_reflection_probe v) (fun x => write_tagged_string "REFL" x) >>>
  wopt (Primitive_reflection_strength v) (fun x => write_tagged_f32 "RSTR" x) >>>
  wopt (Primitive_refraction_probe v) (fun x => write_tagged_string "REFR" x) >>>
  wopt (Primitive_refraction_thickness v) (fun x => write_tagged_f32 "RTHI" x) >>>
  write_shared_attributes Primitive_shared v >>>
  close true.

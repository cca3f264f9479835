(** Generated by tools/gen_items.py from src/vpx/gameitem/ramp.rs. *)
From Verif Require Import Base Text Biff Quantize Common Enums ItemBase.

(** gameitem/ramp.rs:130-192 *)
Record Ramp : Type := mkRamp {
  Ramp_height_bottom : f32;
  Ramp_height_top : f32;
  Ramp_width_bottom : f32;
  Ramp_width_top : f32;
  Ramp_material : rstring;
  Ramp_ramp_type : RampType;
  Ramp_name : rstring;
  Ramp_image : rstring;
  Ramp_image_alignment : RampImageAlignment;
  Ramp_image_walls : bool;
  Ramp_left_wall_height : f32;
  Ramp_right_wall_height : f32;
  Ramp_left_wall_height_visible : f32;
  Ramp_right_wall_height_visible : f32;
  Ramp_hit_event : option bool;
  Ramp_threshold : option f32;
  Ramp_elasticity : f32;
  Ramp_friction : f32;
  Ramp_scatter : f32;
  Ramp_is_collidable : bool;
  Ramp_is_visible : bool;
  Ramp_depth_bias : f32;
  Ramp_wire_diameter : f32;
  Ramp_wire_distance_x : f32;
  Ramp_wire_distance_y : f32;
  Ramp_is_reflection_enabled : option bool;
  Ramp_physics_material : option rstring;
  Ramp_overwrite_physics : option bool;
  Ramp_drag_points : list DragPoint;
  Ramp_timer : TimerData;
  Ramp_is_locked : bool;
  Ramp_editor_layer : option u32;
  Ramp_editor_layer_name : option rstring;
  Ramp_editor_layer_visibility : option bool;
  Ramp_part_group_name : option rstring }.
Definition Ramp_eta (s : Ramp) : Ramp := mkRamp (Ramp_height_bottom s) (Ramp_height_top s) (Ramp_width_bottom s) (Ramp_width_top s) (Ramp_material s) (Ramp_ramp_type s) (Ramp_name s) (Ramp_image s) (Ramp_image_alignment s) (Ramp_image_walls s) (Ramp_left_wall_height s) (Ramp_right_wall_height s) (Ramp_left_wall_height_visible s) (Ramp_right_wall_height_visible s) (Ramp_hit_event s) (Ramp_threshold s) (Ramp_elasticity s) (Ramp_friction s) (Ramp_scatter s) (Ramp_is_collidable s) (Ramp_is_visible s) (Ramp_depth_bias s) (Ramp_wire_diameter s) (Ramp_wire_distance_x s) (Ramp_wire_distance_y s) (Ramp_is_reflection_enabled s) (Ramp_physics_material s) (Ramp_overwrite_physics s) (Ramp_drag_points s) (Ramp_timer s) (Ramp_is_locked s) (Ramp_editor_layer s) (Ramp_editor_layer_name s) (Ramp_editor_layer_visibility s) (Ramp_part_group_name s).
(** Assignments to one field. *)
Definition set_Ramp_height_bottom (x : f32) (s : Ramp) : Ramp := ltac:(setter Ramp_eta Ramp_height_bottom s x).
Definition set_Ramp_height_top (x : f32) (s : Ramp) : Ramp := ltac:(setter Ramp_eta Ramp_height_top s x).
Definition set_Ramp_width_bottom (x : f32) (s : Ramp) : Ramp := ltac:(setter Ramp_eta Ramp_width_bottom s x).
Definition set_Ramp_width_top (x : f32) (s : Ramp) : Ramp := ltac:(setter Ramp_eta Ramp_width_top s x).
Definition set_Ramp_material (x : rstring) (s : Ramp) : Ramp := ltac:(setter Ramp_eta Ramp_material s x).
Definition set_Ramp_ramp_type (x : RampType) (s : Ramp) : Ramp := ltac:(setter Ramp_eta Ramp_ramp_type s x).
Definition set_Ramp_name (x : rstring) (s : Ramp) : Ramp := ltac:(setter Ramp_eta Ramp_name s x).
Definition set_Ramp_image (x : rstring) (s : Ramp) : Ramp := ltac:(setter Ramp_eta Ramp_image s x).
Definition set_Ramp_image_alignment (x : RampImageAlignment) (s : Ramp) : Ramp := ltac:(setter Ramp_eta Ramp_image_alignment s x).
Definition set_Ramp_image_walls (x : bool) (s : Ramp) : Ramp := ltac:(setter Ramp_eta Ramp_image_walls s x).
Definition set_Ramp_left_wall_height (x : f32) (s : Ramp) : Ramp := ltac:(setter Ramp_eta Ramp_left_wall_height s x).
Definition set_Ramp_right_wall_height (x : f32) (s : Ramp) : Ramp := ltac:(setter Ramp_eta Ramp_right_wall_height s x).
Definition set_Ramp_left_wall_height_visible (x : f32) (s : Ramp) : Ramp := ltac:(setter Ramp_eta Ramp_left_wall_height_visible s x).
Definition set_Ramp_right_wall_height_visible (x : f32) (s : Ramp) : Ramp := ltac:(setter Ramp_eta Ramp_right_wall_height_visible s x).
Definition set_Ramp_hit_event (x : option bool) (s : Ramp) : Ramp := ltac:(setter Ramp_eta Ramp_hit_event s x).
Definition set_Ramp_threshold (x : option f32) (s : Ramp) : Ramp := ltac:(setter Ramp_eta Ramp_threshold s x).
Definition set_Ramp_elasticity (x : f32) (s : Ramp) : Ramp := ltac:(setter Ramp_eta Ramp_elasticity s x).
Definition set_Ramp_friction (x : f32) (s : Ramp) : Ramp := ltac:(setter Ramp_eta Ramp_friction s x).
Definition set_Ramp_scatter (x : f32) (s : Ramp) : Ramp := ltac:(setter Ramp_eta Ramp_scatter s x).
Definition set_Ramp_is_collidable (x : bool) (s : Ramp) : Ramp := ltac:(setter Ramp_eta Ramp_is_collidable s x).
Definition set_Ramp_is_visible (x : bool) (s : Ramp) : Ramp := ltac:(setter Ramp_eta Ramp_is_visible s x).
Definition set_Ramp_depth_bias (x : f32) (s : Ramp) : Ramp := ltac:(setter Ramp_eta Ramp_depth_bias s x).
Definition set_Ramp_wire_diameter (x : f32) (s : Ramp) : Ramp := ltac:(setter Ramp_eta Ramp_wire_diameter s x).
Definition set_Ramp_wire_distance_x (x : f32) (s : Ramp) : Ramp := ltac:(setter Ramp_eta Ramp_wire_distance_x s x).
Definition set_Ramp_wire_distance_y (x : f32) (s : Ramp) : Ramp := ltac:(setter Ramp_eta Ramp_wire_distance_y s x).
Definition set_Ramp_is_reflection_enabled (x : option bool) (s : Ramp) : Ramp := ltac:(setter Ramp_eta Ramp_is_reflection_enabled s x).
Definition set_Ramp_physics_material (x : option rstring) (s : Ramp) : Ramp := ltac:(setter Ramp_eta Ramp_physics_material s x).
Definition set_Ramp_overwrite_physics (x : option bool) (s : Ramp) : Ramp := ltac:(setter Ramp_eta Ramp_overwrite_physics s x).
Definition set_Ramp_drag_points (x : list DragPoint) (s : Ramp) : Ramp := ltac:(setter Ramp_eta Ramp_drag_points s x).
Definition set_Ramp_timer (x : TimerData) (s : Ramp) : Ramp := ltac:(setter Ramp_eta Ramp_timer s x).
Definition set_Ramp_is_locked (x : bool) (s : Ramp) : Ramp := ltac:(setter Ramp_eta Ramp_is_locked s x).
Definition set_Ramp_editor_layer (x : option u32) (s : Ramp) : Ramp := ltac:(setter Ramp_eta Ramp_editor_layer s x).
Definition set_Ramp_editor_layer_name (x : option rstring) (s : Ramp) : Ramp := ltac:(setter Ramp_eta Ramp_editor_layer_name s x).
Definition set_Ramp_editor_layer_visibility (x : option bool) (s : Ramp) : Ramp := ltac:(setter Ramp_eta Ramp_editor_layer_visibility s x).
Definition set_Ramp_part_group_name (x : option rstring) (s : Ramp) : Ramp := ltac:(setter Ramp_eta Ramp_part_group_name s x).
(** gameitem/ramp.rs:333-373 *)
Definition Ramp_default : Ramp := mkRamp
  f32_0
  (Z_to_w32 1112014848) (* 50.0 *)
  (Z_to_w32 1117126656) (* 75.0 *)
  (Z_to_w32 1114636288) (* 60.0 *)
  []
  RampType_Flat
  []
  []
  RampImageAlignment_World
  true
  (Z_to_w32 1115160576) (* 62.0 *)
  (Z_to_w32 1115160576) (* 62.0 *)
  (Z_to_w32 1106247680) (* 30.0 *)
  (Z_to_w32 1106247680) (* 30.0 *)
  None
  None
  f32_0
  f32_0
  f32_0
  true
  true
  f32_0
  (Z_to_w32 1090519040) (* 8.0 *)
  (Z_to_w32 1108869120) (* 38.0 *)
  (Z_to_w32 1118830592) (* 88.0 *)
  None
  None
  None
  []
  TimerData_default
  false
  None
  None
  None
  None.
(** gameitem/ramp.rs:193, the macro at gameitem/select.rs:168-207 *)
Definition Ramp_shared : HasShared Ramp := mkHasShared
  Ramp_is_locked Ramp_editor_layer Ramp_editor_layer_name Ramp_editor_layer_visibility Ramp_part_group_name
  set_Ramp_is_locked set_Ramp_editor_layer set_Ramp_editor_layer_name set_Ramp_editor_layer_visibility set_Ramp_part_group_name.
(** gameitem/ramp.rs:375-494, the arms of the record loop and its fallback *)
Definition Ramp_own_arms : list (arm Ramp) :=
  [
    ("HTBT", fun s => x <- get_f32 ;; rret (set_Ramp_height_bottom x s)); (* 387 *)
    ("HTTP", fun s => x <- get_f32 ;; rret (set_Ramp_height_top x s)); (* 390 *)
    ("WDBT", fun s => x <- get_f32 ;; rret (set_Ramp_width_bottom x s)); (* 393 *)
    ("WDTP", fun s => x <- get_f32 ;; rret (set_Ramp_width_top x s)); (* 396 *)
    ("MATR", fun s => x <- get_string ;; rret (set_Ramp_material x s)); (* 399 *)
    ("TYPE", fun s => z <- get_u32 ;; x <- rlift (RampType_of_u32 z) ;; rret (set_Ramp_ramp_type x s)); (* 402 *)
    ("NAME", fun s => x <- get_wide_string ;; rret (set_Ramp_name x s)); (* 405 *)
    ("IMAG", fun s => x <- get_string ;; rret (set_Ramp_image x s)); (* 408 *)
    ("ALGN", fun s => z <- get_u32 ;; x <- rlift (RampImageAlignment_of_u32 z) ;; rret (set_Ramp_image_alignment x s)); (* 411 *)
    ("IMGW", fun s => x <- get_bool ;; rret (set_Ramp_image_walls x s)); (* 414 *)
    ("WLHL", fun s => x <- get_f32 ;; rret (set_Ramp_left_wall_height x s)); (* 417 *)
    ("WLHR", fun s => x <- get_f32 ;; rret (set_Ramp_right_wall_height x s)); (* 420 *)
    ("WVHL", fun s => x <- get_f32 ;; rret (set_Ramp_left_wall_height_visible x s)); (* 423 *)
    ("WVHR", fun s => x <- get_f32 ;; rret (set_Ramp_right_wall_height_visible x s)); (* 426 *)
    ("HTEV", fun s => x <- get_bool ;; rret (set_Ramp_hit_event (Some x) s)); (* 429 *)
    ("THRS", fun s => x <- get_f32 ;; rret (set_Ramp_threshold (Some x) s)); (* 432 *)
    ("ELAS", fun s => x <- get_f32 ;; rret (set_Ramp_elasticity x s)); (* 435 *)
    ("RFCT", fun s => x <- get_f32 ;; rret (set_Ramp_friction x s)); (* 438 *)
    ("RSCT", fun s => x <- get_f32 ;; rret (set_Ramp_scatter x s)); (* 441 *)
    ("CLDR", fun s => x <- get_bool ;; rret (set_Ramp_is_collidable x s)); (* 444 *)
    ("RVIS", fun s => x <- get_bool ;; rret (set_Ramp_is_visible x s)); (* 447 *)
    ("RADB", fun s => x <- get_f32 ;; rret (set_Ramp_depth_bias x s)); (* 450 *)
    ("RADI", fun s => x <- get_f32 ;; rret (set_Ramp_wire_diameter x s)); (* 453 *)
    ("RADX", fun s => x <- get_f32 ;; rret (set_Ramp_wire_distance_x x s)); (* 456 *)
    ("RADY", fun s => x <- get_f32 ;; rret (set_Ramp_wire_distance_y x s)); (* 459 *)
    ("REEN", fun s => x <- get_bool ;; rret (set_Ramp_is_reflection_enabled (Some x) s)); (* 462 *)
    ("MAPH", fun s => x <- get_string ;; rret (set_Ramp_physics_material (Some x) s)); (* 465 *)
    ("OVPH", fun s => x <- get_bool ;; rret (set_Ramp_overwrite_physics (Some x) s)); (* 468 *)
    ("PNTS", fun s => rret s); (* 471 *)
    ("DPNT", fun s => x <- DragPoint_read ;; rret (set_Ramp_drag_points (Ramp_drag_points s ++ [x]) s)) (* 474 *) ]%string.
Definition Ramp_arms : list (arm Ramp) := Ramp_own_arms ++ lift_arms Ramp_timer set_Ramp_timer TimerData_arms ++ shared_arms Ramp_shared.
Definition Ramp_init : Ramp := Ramp_default.
Definition Ramp_read : rd_M Ramp := read_arms Ramp_arms Ramp_init.
(** gameitem/ramp.rs:496-548 *)
Definition Ramp_write (v : Ramp) : wr_M :=
  write_tagged_f32 "HTBT" (Ramp_height_bottom v) >>>
  write_tagged_f32 "HTTP" (Ramp_height_top v) >>>
  write_tagged_f32 "WDBT" (Ramp_width_bottom v) >>>
  write_tagged_f32 "WDTP" (Ramp_width_top v) >>>
  write_tagged_string "MATR" (Ramp_material v) >>>
  TimerData_write (Ramp_timer v) >>>
  write_tagged_u32 "TYPE" (RampType_to_u32 (Ramp_ramp_type v)) >>>
  write_tagged_wide_string "NAME" (Ramp_name v) >>>
  write_tagged_string "IMAG" (Ramp_image v) >>>
  write_tagged_u32 "ALGN" (RampImageAlignment_to_u32 (Ramp_image_alignment v)) >>>
  write_tagged_bool "IMGW" (Ramp_image_walls v) >>>
  write_tagged_f32 "WLHL" (Ramp_left_wall_height v) >>>
  write_tagged_f32 "WLHR" (Ramp_right_wall_height v) >>>
  write_tagged_f32 "WVHL" (Ramp_left_wall_height_visible v) >>>
  write_tagged_f32 "WVHR" (Ramp_right_wall_height_visible v) >>>
  wopt (Ramp_hit_event v) (fun x => write_tagged_bool "HTEV" x) >>>
  wopt (Ramp_threshold v) (fun x => write_tagged_f32 "THRS" x) >>>
  write_tagged_f32 "ELAS" (Ramp_elasticity v) >>>
  write_tagged_f32 "RFCT" (Ramp_friction v) >>>
  write_tagged_f32 "RSCT" (Ramp_scatter v) >>>
  write_tagged_bool "CLDR" (Ramp_is_collidable v) >>>
  write_tagged_bool "RVIS" (Ramp_is_visible v) >>>
  write_tagged_f32 "RADB" (Ramp_depth_bias v) >>>
  write_tagged_f32 "RADI" (Ramp_wire_diameter v) >>>
  write_tagged_f32 "RADX" (Ramp_wire_distance_x v) >>>
  write_tagged_f32 "RADY" (Ramp_wire_distance_y v) >>>
  wopt (Ramp_is_reflection_enabled v) (fun x => write_tagged_bool "REEN" x) >>>
  wopt (Ramp_physics_material v) (fun x => write_tagged_string "MAPH" x) >>>
  wopt (Ramp_overwrite_physics v) (fun x => write_tagged_bool "OVPH" x) >>>
  write_shared_attributes Ramp_shared v >>>
  write_marker_tag "PNTS" >>>
  wfor (Ramp_drag_points v) (fun x => write_tagged_with "DPNT" (DragPoint_write x)) >>>
  close true.

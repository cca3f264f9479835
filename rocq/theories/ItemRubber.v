(** Generated by tools/gen_items.py from src/vpx/gameitem/rubber.rs. *)
From Verif Require Import Base Text Biff Quantize Common Enums ItemBase.

(** gameitem/rubber.rs:10-54 *)
Record Rubber : Type := mkRubber {
  Rubber_height : f32;
  Rubber_hit_height : option f32;
  Rubber_thickness : i32;
  Rubber_hit_event : bool;
  Rubber_material : rstring;
  Rubber_name : rstring;
  Rubber_image : rstring;
  Rubber_elasticity : f32;
  Rubber_elasticity_falloff : f32;
  Rubber_friction : f32;
  Rubber_scatter : f32;
  Rubber_is_collidable : bool;
  Rubber_is_visible : bool;
  Rubber_radb : option f32;
  Rubber_static_rendering : bool;
  Rubber_show_in_editor : bool;
  Rubber_rot_x : f32;
  Rubber_rot_y : f32;
  Rubber_rot_z : f32;
  Rubber_is_reflection_enabled : option bool;
  Rubber_physics_material : option rstring;
  Rubber_overwrite_physics : option bool;
  Rubber_timer : TimerData;
  Rubber_is_locked : bool;
  Rubber_editor_layer : option u32;
  Rubber_editor_layer_name : option rstring;
  Rubber_editor_layer_visibility : option bool;
  Rubber_part_group_name : option rstring;
  Rubber_drag_points : list DragPoint }.
Definition Rubber_eta (s : Rubber) : Rubber := mkRubber (Rubber_height s) (Rubber_hit_height s) (Rubber_thickness s) (Rubber_hit_event s) (Rubber_material s) (Rubber_name s) (Rubber_image s) (Rubber_elasticity s) (Rubber_elasticity_falloff s) (Rubber_friction s) (Rubber_scatter s) (Rubber_is_collidable s) (Rubber_is_visible s) (Rubber_radb s) (Rubber_static_rendering s) (Rubber_show_in_editor s) (Rubber_rot_x s) (Rubber_rot_y s) (Rubber_rot_z s) (Rubber_is_reflection_enabled s) (Rubber_physics_material s) (Rubber_overwrite_physics s) (Rubber_timer s) (Rubber_is_locked s) (Rubber_editor_layer s) (Rubber_editor_layer_name s) (Rubber_editor_layer_visibility s) (Rubber_part_group_name s) (Rubber_drag_points s).
(** Assignments to one field. *)
Definition set_Rubber_height (x : f32) (s : Rubber) : Rubber := ltac:(setter Rubber_eta Rubber_height s x).
Definition set_Rubber_hit_height (x : option f32) (s : Rubber) : Rubber := ltac:(setter Rubber_eta Rubber_hit_height s x).
Definition set_Rubber_thickness (x : i32) (s : Rubber) : Rubber := ltac:(setter Rubber_eta Rubber_thickness s x).
Definition set_Rubber_hit_event (x : bool) (s : Rubber) : Rubber := ltac:(setter Rubber_eta Rubber_hit_event s x).
Definition set_Rubber_material (x : rstring) (s : Rubber) : Rubber := ltac:(setter Rubber_eta Rubber_material s x).
Definition set_Rubber_name (x : rstring) (s : Rubber) : Rubber := ltac:(setter Rubber_eta Rubber_name s x).
Definition set_Rubber_image (x : rstring) (s : Rubber) : Rubber := ltac:(setter Rubber_eta Rubber_image s x).
Definition set_Rubber_elasticity (x : f32) (s : Rubber) : Rubber := ltac:(setter Rubber_eta Rubber_elasticity s x).
Definition set_Rubber_elasticity_falloff (x : f32) (s : Rubber) : Rubber := ltac:(setter Rubber_eta Rubber_elasticity_falloff s x).
Definition set_Rubber_friction (x : f32) (s : Rubber) : Rubber := ltac:(setter Rubber_eta Rubber_friction s x).
Definition set_Rubber_scatter (x : f32) (s : Rubber) : Rubber := ltac:(setter Rubber_eta Rubber_scatter s x).
Definition set_Rubber_is_collidable (x : bool) (s : Rubber) : Rubber := ltac:(setter Rubber_eta Rubber_is_collidable s x).
Definition set_Rubber_is_visible (x : bool) (s : Rubber) : Rubber := ltac:(setter Rubber_eta Rubber_is_visible s x).
Definition set_Rubber_radb (x : option f32) (s : Rubber) : Rubber := ltac:(setter Rubber_eta Rubber_radb s x).
Definition set_Rubber_static_rendering (x : bool) (s : Rubber) : Rubber := ltac:(setter Rubber_eta Rubber_static_rendering s x).
Definition set_Rubber_show_in_editor (x : bool) (s : Rubber) : Rubber := ltac:(setter Rubber_eta Rubber_show_in_editor s x).
Definition set_Rubber_rot_x (x : f32) (s : Rubber) : Rubber := ltac:(setter Rubber_eta Rubber_rot_x s x).
Definition set_Rubber_rot_y (x : f32) (s : Rubber) : Rubber := ltac:(setter Rubber_eta Rubber_rot_y s x).
Definition set_Rubber_rot_z (x : f32) (s : Rubber) : Rubber := ltac:(setter Rubber_eta Rubber_rot_z s x).
Definition set_Rubber_is_reflection_enabled (x : option bool) (s : Rubber) : Rubber := ltac:(setter Rubber_eta Rubber_is_reflection_enabled s x).
Definition set_Rubber_physics_material (x : option rstring) (s : Rubber) : Rubber := ltac:(setter Rubber_eta Rubber_physics_material s x).
Definition set_Rubber_overwrite_physics (x : option bool) (s : Rubber) : Rubber := ltac:(setter Rubber_eta Rubber_overwrite_physics s x).
Definition set_Rubber_timer (x : TimerData) (s : Rubber) : Rubber := ltac:(setter Rubber_eta Rubber_timer s x).
Definition set_Rubber_is_locked (x : bool) (s : Rubber) : Rubber := ltac:(setter Rubber_eta Rubber_is_locked s x).
Definition set_Rubber_editor_layer (x : option u32) (s : Rubber) : Rubber := ltac:(setter Rubber_eta Rubber_editor_layer s x).
Definition set_Rubber_editor_layer_name (x : option rstring) (s : Rubber) : Rubber := ltac:(setter Rubber_eta Rubber_editor_layer_name s x).
Definition set_Rubber_editor_layer_visibility (x : option bool) (s : Rubber) : Rubber := ltac:(setter Rubber_eta Rubber_editor_layer_visibility s x).
Definition set_Rubber_part_group_name (x : option rstring) (s : Rubber) : Rubber := ltac:(setter Rubber_eta Rubber_part_group_name s x).
Definition set_Rubber_drag_points (x : list DragPoint) (s : Rubber) : Rubber := ltac:(setter Rubber_eta Rubber_drag_points s x).
(** gameitem/rubber.rs:158-223 *)
Definition Rubber_default : Rubber := mkRubber
  (Z_to_w32 1103626240) (* 25.0 *)
  None
  (Z_to_w32 8)
  false
  []
  []
  []
  f32_0
  f32_0
  f32_0
  f32_0
  true
  true
  None
  true
  true
  f32_0
  f32_0
  f32_0
  None
  None
  None
  TimerData_default
  false
  None
  None
  None
  None
  [].
(** gameitem/rubber.rs:55, the macro at gameitem/select.rs:168-207 *)
Definition Rubber_shared : HasShared Rubber := mkHasShared
  Rubber_is_locked Rubber_editor_layer Rubber_editor_layer_name Rubber_editor_layer_visibility Rubber_part_group_name
  set_Rubber_is_locked set_Rubber_editor_layer set_Rubber_editor_layer_name set_Rubber_editor_layer_visibility set_Rubber_part_group_name.
(** gameitem/rubber.rs:244-345, the arms of the record loop and its fallback *)
Definition Rubber_own_arms : list (arm Rubber) :=
  [
    ("HTTP", fun s => x <- get_f32 ;; rret (set_Rubber_height x s)); (* 256 *)
    ("HTHI", fun s => x <- get_f32 ;; rret (set_Rubber_hit_height (Some x) s)); (* 259 *)
    ("WDTP", fun s => x <- get_i32 ;; rret (set_Rubber_thickness x s)); (* 262 *)
    ("HTEV", fun s => x <- get_bool ;; rret (set_Rubber_hit_event x s)); (* 265 *)
    ("MATR", fun s => x <- get_string ;; rret (set_Rubber_material x s)); (* 268 *)
    ("NAME", fun s => x <- get_wide_string ;; rret (set_Rubber_name x s)); (* 271 *)
    ("IMAG", fun s => x <- get_string ;; rret (set_Rubber_image x s)); (* 274 *)
    ("ELAS", fun s => x <- get_f32 ;; rret (set_Rubber_elasticity x s)); (* 277 *)
    ("ELFO", fun s => x <- get_f32 ;; rret (set_Rubber_elasticity_falloff x s)); (* 280 *)
    ("RFCT", fun s => x <- get_f32 ;; rret (set_Rubber_friction x s)); (* 283 *)
    ("RSCT", fun s => x <- get_f32 ;; rret (set_Rubber_scatter x s)); (* 286 *)
    ("CLDR", fun s => x <- get_bool ;; rret (set_Rubber_is_collidable x s)); (* 289 *)
    ("RVIS", fun s => x <- get_bool ;; rret (set_Rubber_is_visible x s)); (* 292 *)
    ("RADB", fun s => x <- get_f32 ;; rret (set_Rubber_radb (Some x) s)); (* 295 *)
    ("ESTR", fun s => x <- get_bool ;; rret (set_Rubber_static_rendering x s)); (* 298 *)
    ("ESIE", fun s => x <- get_bool ;; rret (set_Rubber_show_in_editor x s)); (* 301 *)
    ("ROTX", fun s => x <- get_f32 ;; rret (set_Rubber_rot_x x s)); (* 304 *)
    ("ROTY", fun s => x <- get_f32 ;; rret (set_Rubber_rot_y x s)); (* 307 *)
    ("ROTZ", fun s => x <- get_f32 ;; rret (set_Rubber_rot_z x s)); (* 310 *)
    ("REEN", fun s => x <- get_bool ;; rret (set_Rubber_is_reflection_enabled (Some x) s)); (* 313 *)
    ("MAPH", fun s => x <- get_string ;; rret (set_Rubber_physics_material (Some x) s)); (* 316 *)
    ("OVPH", fun s => x <- get_bool ;; rret (set_Rubber_overwrite_physics (Some x) s)); (* 319 *)
    ("PNTS", fun s => rret s); (* 322 *)
    ("DPNT", fun s => x <- DragPoint_read ;; rret (set_Rubber_drag_points (Rubber_drag_points s ++ [x]) s)) (* 325 *) ]%string.
Definition Rubber_arms : list (arm Rubber) := Rubber_own_arms ++ lift_arms Rubber_timer set_Rubber_timer TimerData_arms ++ shared_arms Rubber_shared.
Definition Rubber_init : Rubber := Rubber_default.
Definition Rubber_read : rd_M Rubber := read_arms Rubber_arms Rubber_init.
(** gameitem/rubber.rs:347-393 *)
Definition Rubber_write (v : Rubber) : wr_M :=
  write_tagged_f32 "HTTP" (Rubber_height v) >>>
  wopt (Rubber_hit_height v) (fun x => write_tagged_f32 "HTHI" x) >>>
  write_tagged_i32 "WDTP" (Rubber_thickness v) >>>
  write_tagged_bool "HTEV" (Rubber_hit_event v) >>>
  write_tagged_string "MATR" (Rubber_material v) >>>
  TimerData_write (Rubber_timer v) >>>
  write_tagged_wide_string "NAME" (Rubber_name v) >>>
  write_tagged_string "IMAG" (Rubber_image v) >>>
  write_tagged_f32 "ELAS" (Rubber_elasticity v) >>>
  write_tagged_f32 "ELFO" (Rubber_elasticity_falloff v) >>>
  write_tagged_f32 "RFCT" (Rubber_friction v) >>>
  write_tagged_f32 "RSCT" (Rubber_scatter v) >>>
  write_tagged_bool "CLDR" (Rubber_is_collidable v) >>>
  write_tagged_bool "RVIS" (Rubber_is_visible v) >>>
  wopt (Rubber_radb v) (fun x => write_tagged_f32 "RADB" x) >>>
  write_tagged_bool "ESTR" (Rubber_static_rendering v) >>>
  write_tagged_bool "ESIE" (Rubber_show_in_editor v) >>>
  write_tagged_f32 "ROTX" (Rubber_rot_x v) >>>
  write_tagged_f32 "ROTY" (Rubber_rot_y v) >>>
  write_tagged_f32 "ROTZ" (Rubber_rot_z v) >>>
  wopt (Rubber_is_reflection_enabled v) (fun x => write_tagged_bool "REEN" x) >>>
  wopt (Rubber_physics_material v) (fun x => write_tagged_string "MAPH" x) >>>
  wopt (Rubber_overwrite_physics v) (fun x => write_tagged_bool "OVPH" x) >>>
  write_shared_attributes Rubber_shared v >>>
  write_marker_tag "PNTS" >>>
  wfor (Rubber_drag_points v) (fun x => write_tagged_with "DPNT" (DragPoint_write x)) >>>
  close true.

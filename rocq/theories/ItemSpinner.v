(** Generated by tools/gen_items.py from src/vpx/gameitem/spinner.rs. *)
From Verif Require Import Base Text Biff Quantize Common Enums ItemBase.

(** gameitem/spinner.rs:10-136 *)
Record Spinner : Type := mkSpinner {
  Spinner_name : rstring;
  Spinner_center : Vertex2D;
  Spinner_rotation : f32;
  Spinner_height : f32;
  Spinner_length : f32;
  Spinner_damping : f32;
  Spinner_angle_max : f32;
  Spinner_angle_min : f32;
  Spinner_elasticity : f32;
  Spinner_is_visible : bool;
  Spinner_show_bracket : bool;
  Spinner_material : rstring;
  Spinner_image : rstring;
  Spinner_surface : rstring;
  Spinner_is_reflection_enabled : option bool;
  Spinner_timer : TimerData;
  Spinner_is_locked : bool;
  Spinner_editor_layer : option u32;
  Spinner_editor_layer_name : option rstring;
  Spinner_editor_layer_visibility : option bool;
  Spinner_part_group_name : option rstring }.
Definition Spinner_eta (s : Spinner) : Spinner := mkSpinner (Spinner_name s) (Spinner_center s) (Spinner_rotation s) (Spinner_height s) (Spinner_length s) (Spinner_damping s) (Spinner_angle_max s) (Spinner_angle_min s) (Spinner_elasticity s) (Spinner_is_visible s) (Spinner_show_bracket s) (Spinner_material s) (Spinner_image s) (Spinner_surface s) (Spinner_is_reflection_enabled s) (Spinner_timer s) (Spinner_is_locked s) (Spinner_editor_layer s) (Spinner_editor_layer_name s) (Spinner_editor_layer_visibility s) (Spinner_part_group_name s).
(** Assignments to one field. *)
Definition set_Spinner_name (x : rstring) (s : Spinner) : Spinner := ltac:(setter Spinner_eta Spinner_name s x).
Definition set_Spinner_center (x : Vertex2D) (s : Spinner) : Spinner := ltac:(setter Spinner_eta Spinner_center s x).
Definition set_Spinner_rotation (x : f32) (s : Spinner) : Spinner := ltac:(setter Spinner_eta Spinner_rotation s x).
Definition set_Spinner_height (x : f32) (s : Spinner) : Spinner := ltac:(setter Spinner_eta Spinner_height s x).
Definition set_Spinner_length (x : f32) (s : Spinner) : Spinner := ltac:(setter Spinner_eta Spinner_length s x).
Definition set_Spinner_damping (x : f32) (s : Spinner) : Spinner := ltac:(setter Spinner_eta Spinner_damping s x).
Definition set_Spinner_angle_max (x : f32) (s : Spinner) : Spinner := ltac:(setter Spinner_eta Spinner_angle_max s x).
Definition set_Spinner_angle_min (x : f32) (s : Spinner) : Spinner := ltac:(setter Spinner_eta Spinner_angle_min s x).
Definition set_Spinner_elasticity (x : f32) (s : Spinner) : Spinner := ltac:(setter Spinner_eta Spinner_elasticity s x).
Definition set_Spinner_is_visible (x : bool) (s : Spinner) : Spinner := ltac:(setter Spinner_eta Spinner_is_visible s x).
Definition set_Spinner_show_bracket (x : bool) (s : Spinner) : Spinner := ltac:(setter Spinner_eta Spinner_show_bracket s x).
Definition set_Spinner_material (x : rstring) (s : Spinner) : Spinner := ltac:(setter Spinner_eta Spinner_material s x).
Definition set_Spinner_image (x : rstring) (s : Spinner) : Spinner := ltac:(setter Spinner_eta Spinner_image s x).
Definition set_Spinner_surface (x : rstring) (s : Spinner) : Spinner := ltac:(setter Spinner_eta Spinner_surface s x).
Definition set_Spinner_is_reflection_enabled (x : option bool) (s : Spinner) : Spinner := ltac:(setter Spinner_eta Spinner_is_reflection_enabled s x).
Definition set_Spinner_timer (x : TimerData) (s : Spinner) : Spinner := ltac:(setter Spinner_eta Spinner_timer s x).
Definition set_Spinner_is_locked (x : bool) (s : Spinner) : Spinner := ltac:(setter Spinner_eta Spinner_is_locked s x).
Definition set_Spinner_editor_layer (x : option u32) (s : Spinner) : Spinner := ltac:(setter Spinner_eta Spinner_editor_layer s x).
Definition set_Spinner_editor_layer_name (x : option rstring) (s : Spinner) : Spinner := ltac:(setter Spinner_eta Spinner_editor_layer_name s x).
Definition set_Spinner_editor_layer_visibility (x : option bool) (s : Spinner) : Spinner := ltac:(setter Spinner_eta Spinner_editor_layer_visibility s x).
Definition set_Spinner_part_group_name (x : option rstring) (s : Spinner) : Spinner := ltac:(setter Spinner_eta Spinner_part_group_name s x).
(** gameitem/spinner.rs:216-242 *)
Definition Spinner_default : Spinner := mkSpinner
  []
  Vertex2D_default
  f32_0
  (Z_to_w32 1114636288) (* 60.0 *)
  (Z_to_w32 1117782016) (* 80.0 *)
  (Z_to_w32 1065150212) (* 0.9879 *)
  f32_0
  f32_0
  (Z_to_w32 1050253722) (* 0.3 *)
  true
  true
  []
  []
  []
  None
  TimerData_default
  false
  None
  None
  None
  None.
(** gameitem/spinner.rs:137, the macro at gameitem/select.rs:168-207 *)
Definition Spinner_shared : HasShared Spinner := mkHasShared
  Spinner_is_locked Spinner_editor_layer Spinner_editor_layer_name Spinner_editor_layer_visibility Spinner_part_group_name
  set_Spinner_is_locked set_Spinner_editor_layer set_Spinner_editor_layer_name set_Spinner_editor_layer_visibility set_Spinner_part_group_name.
(** gameitem/spinner.rs:263-335, the arms of the record loop and its fallback *)
Definition Spinner_own_arms : list (arm Spinner) :=
  [
    ("VCEN", fun s => x <- Vertex2D_read ;; rret (set_Spinner_center x s)); (* 274 *)
    ("ROTA", fun s => x <- get_f32 ;; rret (set_Spinner_rotation x s)); (* 277 *)
    ("HIGH", fun s => x <- get_f32 ;; rret (set_Spinner_height x s)); (* 280 *)
    ("LGTH", fun s => x <- get_f32 ;; rret (set_Spinner_length x s)); (* 283 *)
    ("AFRC", fun s => x <- get_f32 ;; rret (set_Spinner_damping x s)); (* 286 *)
    ("SMAX", fun s => x <- get_f32 ;; rret (set_Spinner_angle_max x s)); (* 289 *)
    ("SMIN", fun s => x <- get_f32 ;; rret (set_Spinner_angle_min x s)); (* 292 *)
    ("SELA", fun s => x <- get_f32 ;; rret (set_Spinner_elasticity x s)); (* 295 *)
    ("SVIS", fun s => x <- get_bool ;; rret (set_Spinner_is_visible x s)); (* 298 *)
    ("SSUP", fun s => x <- get_bool ;; rret (set_Spinner_show_bracket x s)); (* 301 *)
    ("MATR", fun s => x <- get_string ;; rret (set_Spinner_material x s)); (* 304 *)
    ("IMGF", fun s => x <- get_string ;; rret (set_Spinner_image x s)); (* 307 *)
    ("SURF", fun s => x <- get_string ;; rret (set_Spinner_surface x s)); (* 310 *)
    ("NAME", fun s => x <- get_wide_string ;; rret (set_Spinner_name x s)); (* 313 *)
    ("REEN", fun s => x <- get_bool ;; rret (set_Spinner_is_reflection_enabled (Some x) s)) (* 316 *) ]%string.
Definition Spinner_arms : list (arm Spinner) := Spinner_own_arms ++ lift_arms Spinner_timer set_Spinner_timer TimerData_arms ++ shared_arms Spinner_shared.
Definition Spinner_init : Spinner := Spinner_default.
Definition Spinner_read : rd_M Spinner := read_arms Spinner_arms Spinner_init.
(** gameitem/spinner.rs:337-362 *)
Definition Spinner_write (v : Spinner) : wr_M :=
  write_tagged_with "VCEN" (Vertex2D_write (Spinner_center v)) >>>
  write_tagged_f32 "ROTA" (Spinner_rotation v) >>>
  TimerData_write (Spinner_timer v) >>>
  write_tagged_f32 "HIGH" (Spinner_height v) >>>
  write_tagged_f32 "LGTH" (Spinner_length v) >>>
  write_tagged_f32 "AFRC" (Spinner_damping v) >>>
  write_tagged_f32 "SMAX" (Spinner_angle_max v) >>>
  write_tagged_f32 "SMIN" (Spinner_angle_min v) >>>
  write_tagged_f32 "SELA" (Spinner_elasticity v) >>>
  write_tagged_bool "SVIS" (Spinner_is_visible v) >>>
  write_tagged_bool "SSUP" (Spinner_show_bracket v) >>>
  write_tagged_string "MATR" (Spinner_material v) >>>
  write_tagged_string "IMGF" (Spinner_image v) >>>
  write_tagged_string "SURF" (Spinner_surface v) >>>
  write_tagged_wide_string "NAME" (Spinner_name v) >>>
  wopt (Spinner_is_reflection_enabled v) (fun x => write_tagged_bool "REEN" x) >>>
  write_shared_attributes Spinner_shared v >>>
  close true.

(** Generated by tools/gen_items.py from src/vpx/gameitem/trigger.rs. *)
From Verif Require Import Base Text Biff Quantize Common Enums ItemBase.

(** gameitem/trigger.rs:149-240 *)
Record Trigger : Type := mkTrigger {
  Trigger_name : rstring;
  Trigger_center : Vertex2D;
  Trigger_radius : f32;
  Trigger_rotation : f32;
  Trigger_wire_thickness : option f32;
  Trigger_scale_x : f32;
  Trigger_scale_y : f32;
  Trigger_material : rstring;
  Trigger_surface : rstring;
  Trigger_is_visible : bool;
  Trigger_is_enabled : bool;
  Trigger_hit_height : f32;
  Trigger_shape : TriggerShape;
  Trigger_anim_speed : f32;
  Trigger_is_reflection_enabled : option bool;
  Trigger_timer : TimerData;
  Trigger_is_locked : bool;
  Trigger_editor_layer : option u32;
  Trigger_editor_layer_name : option rstring;
  Trigger_editor_layer_visibility : option bool;
  Trigger_part_group_name : option rstring;
  Trigger_drag_points : list DragPoint }.
Definition Trigger_eta (s : Trigger) : Trigger := mkTrigger (Trigger_name s) (Trigger_center s) (Trigger_radius s) (Trigger_rotation s) (Trigger_wire_thickness s) (Trigger_scale_x s) (Trigger_scale_y s) (Trigger_material s) (Trigger_surface s) (Trigger_is_visible s) (Trigger_is_enabled s) (Trigger_hit_height s) (Trigger_shape s) (Trigger_anim_speed s) (Trigger_is_reflection_enabled s) (Trigger_timer s) (Trigger_is_locked s) (Trigger_editor_layer s) (Trigger_editor_layer_name s) (Trigger_editor_layer_visibility s) (Trigger_part_group_name s) (Trigger_drag_points s).
(** Assignments to one field. *)
Definition set_Trigger_name (x : rstring) (s : Trigger) : Trigger := ltac:(setter Trigger_eta Trigger_name s x).
Definition set_Trigger_center (x : Vertex2D) (s : Trigger) : Trigger := ltac:(setter Trigger_eta Trigger_center s x).
Definition set_Trigger_radius (x : f32) (s : Trigger) : Trigger := ltac:(setter Trigger_eta Trigger_radius s x).
Definition set_Trigger_rotation (x : f32) (s : Trigger) : Trigger := ltac:(setter Trigger_eta Trigger_rotation s x).
Definition set_Trigger_wire_thickness (x : option f32) (s : Trigger) : Trigger := ltac:(setter Trigger_eta Trigger_wire_thickness s x).
Definition set_Trigger_scale_x (x : f32) (s : Trigger) : Trigger := ltac:(setter Trigger_eta Trigger_scale_x s x).
Definition set_Trigger_scale_y (x : f32) (s : Trigger) : Trigger := ltac:(setter Trigger_eta Trigger_scale_y s x).
Definition set_Trigger_material (x : rstring) (s : Trigger) : Trigger := ltac:(setter Trigger_eta Trigger_material s x).
Definition set_Trigger_surface (x : rstring) (s : Trigger) : Trigger := ltac:(setter Trigger_eta Trigger_surface s x).
Definition set_Trigger_is_visible (x : bool) (s : Trigger) : Trigger := ltac:(setter Trigger_eta Trigger_is_visible s x).
Definition set_Trigger_is_enabled (x : bool) (s : Trigger) : Trigger := ltac:(setter Trigger_eta Trigger_is_enabled s x).
Definition set_Trigger_hit_height (x : f32) (s : Trigger) : Trigger := ltac:(setter Trigger_eta Trigger_hit_height s x).
Definition set_Trigger_shape (x : TriggerShape) (s : Trigger) : Trigger := ltac:(setter Trigger_eta Trigger_shape s x).
Definition set_Trigger_anim_speed (x : f32) (s : Trigger) : Trigger := ltac:(setter Trigger_eta Trigger_anim_speed s x).
Definition set_Trigger_is_reflection_enabled (x : option bool) (s : Trigger) : Trigger := ltac:(setter Trigger_eta Trigger_is_reflection_enabled s x).
Definition set_Trigger_timer (x : TimerData) (s : Trigger) : Trigger := ltac:(setter Trigger_eta Trigger_timer s x).
Definition set_Trigger_is_locked (x : bool) (s : Trigger) : Trigger := ltac:(setter Trigger_eta Trigger_is_locked s x).
Definition set_Trigger_editor_layer (x : option u32) (s : Trigger) : Trigger := ltac:(setter Trigger_eta Trigger_editor_layer s x).
Definition set_Trigger_editor_layer_name (x : option rstring) (s : Trigger) : Trigger := ltac:(setter Trigger_eta Trigger_editor_layer_name s x).
Definition set_Trigger_editor_layer_visibility (x : option bool) (s : Trigger) : Trigger := ltac:(setter Trigger_eta Trigger_editor_layer_visibility s x).
Definition set_Trigger_part_group_name (x : option rstring) (s : Trigger) : Trigger := ltac:(setter Trigger_eta Trigger_part_group_name s x).
Definition set_Trigger_drag_points (x : list DragPoint) (s : Trigger) : Trigger := ltac:(setter Trigger_eta Trigger_drag_points s x).
(** gameitem/trigger.rs:341-368 *)
Definition Trigger_default : Trigger := mkTrigger
  []
  Vertex2D_default
  (Z_to_w32 1103626240) (* 25.0 *)
  f32_0
  None
  f32_0
  f32_0
  []
  []
  true
  true
  (Z_to_w32 1112014848) (* 50.0 *)
  TriggerShape_WireA
  f32_0
  None
  TimerData_default
  false
  None
  None
  None
  None
  [].
(** gameitem/trigger.rs:241, the macro at gameitem/select.rs:168-207 *)
Definition Trigger_shared : HasShared Trigger := mkHasShared
  Trigger_is_locked Trigger_editor_layer Trigger_editor_layer_name Trigger_editor_layer_visibility Trigger_part_group_name
  set_Trigger_is_locked set_Trigger_editor_layer set_Trigger_editor_layer_name set_Trigger_editor_layer_visibility set_Trigger_part_group_name.
(** gameitem/trigger.rs:370-449, the arms of the record loop and its fallback *)
Definition Trigger_own_arms : list (arm Trigger) :=
  [
    ("VCEN", fun s => x <- Vertex2D_read ;; rret (set_Trigger_center x s)); (* 384 *)
    ("RADI", fun s => x <- get_f32 ;; rret (set_Trigger_radius x s)); (* 387 *)
    ("ROTA", fun s => x <- get_f32 ;; rret (set_Trigger_rotation x s)); (* 390 *)
    ("WITI", fun s => x <- get_f32 ;; rret (set_Trigger_wire_thickness (Some x) s)); (* 393 *)
    ("SCAX", fun s => x <- get_f32 ;; rret (set_Trigger_scale_x x s)); (* 396 *)
    ("SCAY", fun s => x <- get_f32 ;; rret (set_Trigger_scale_y x s)); (* 399 *)
    ("MATR", fun s => x <- get_string ;; rret (set_Trigger_material x s)); (* 402 *)
    ("SURF", fun s => x <- get_string ;; rret (set_Trigger_surface x s)); (* 405 *)
    ("VSBL", fun s => x <- get_bool ;; rret (set_Trigger_is_visible x s)); (* 408 *)
    ("EBLD", fun s => x <- get_bool ;; rret (set_Trigger_is_enabled x s)); (* 411 *)
    ("THOT", fun s => x <- get_f32 ;; rret (set_Trigger_hit_height x s)); (* 414 *)
    ("NAME", fun s => x <- get_wide_string ;; rret (set_Trigger_name x s)); (* 417 *)
    ("SHAP", fun s => z <- get_u32 ;; x <- rlift (TriggerShape_of_u32 z) ;; rret (set_Trigger_shape x s)); (* 420 *)
    ("ANSP", fun s => x <- get_f32 ;; rret (set_Trigger_anim_speed x s)); (* 423 *)
    ("REEN", fun s => x <- get_bool ;; rret (set_Trigger_is_reflection_enabled (Some x) s)); (* 426 *)
    ("DPNT", fun s => x <- DragPoint_read ;; rret (set_Trigger_drag_points (Trigger_drag_points s ++ [x]) s)) (* 429 *) ]%string.
Definition Trigger_arms : list (arm Trigger) := Trigger_own_arms ++ lift_arms Trigger_timer set_Trigger_timer TimerData_arms ++ shared_arms Trigger_shared.
Definition Trigger_init : Trigger := Trigger_default.
Definition Trigger_read : rd_M Trigger := read_arms Trigger_arms Trigger_init.
(** gameitem/trigger.rs:451-483 *)
Definition Trigger_write (v : Trigger) : wr_M :=
  write_tagged_with "VCEN" (Vertex2D_write (Trigger_center v)) >>>
  write_tagged_f32 "RADI" (Trigger_radius v) >>>
  write_tagged_f32 "ROTA" (Trigger_rotation v) >>>
  wopt (Trigger_wire_thickness v) (fun x => write_tagged_f32 "WITI" x) >>>
  write_tagged_f32 "SCAX" (Trigger_scale_x v) >>>
  write_tagged_f32 "SCAY" (Trigger_scale_y v) >>>
  TimerData_write (Trigger_timer v) >>>
  write_tagged_string "SURF" (Trigger_surface v) >>>
  write_tagged_string "MATR" (Trigger_material v) >>>
  write_tagged_bool "EBLD" (Trigger_is_enabled v) >>>
  write_tagged_bool "VSBL" (Trigger_is_visible v) >>>
  write_tagged_f32 "THOT" (Trigger_hit_height v) >>>
  write_tagged_wide_string "NAME" (Trigger_name v) >>>
  write_tagged_u32 "SHAP" (TriggerShape_to_u32 (Trigger_shape v)) >>>
  write_tagged_f32 "ANSP" (Trigger_anim_speed v) >>>
  wopt (Trigger_is_reflection_enabled v) (fun x => write_tagged_bool "REEN" x) >>>
  write_shared_attributes Trigger_shared v >>>
  wfor (Trigger_drag_points v) (fun x => write_tagged_with "DPNT" (DragPoint_write x)) >>>
  close true.

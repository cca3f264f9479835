(** Generated by tools/gen_items.py from src/vpx/gameitem/gate.rs. *)
From Verif Require Import Base Text Biff Quantize Common Enums ItemBase.

(** gameitem/gate.rs:131-197 *)
Record Gate : Type := mkGate {
  Gate_name : rstring;
  Gate_center : Vertex2D;
  Gate_length : f32;
  Gate_height : f32;
  Gate_rotation : f32;
  Gate_material : rstring;
  Gate_show_bracket : bool;
  Gate_is_collidable : bool;
  Gate_imgf : option rstring;
  Gate_imgb : option rstring;
  Gate_surface : rstring;
  Gate_elasticity : f32;
  Gate_angle_max : f32;
  Gate_angle_min : f32;
  Gate_friction : f32;
  Gate_damping : option f32;
  Gate_gravity_factor : option f32;
  Gate_is_visible : bool;
  Gate_two_way : bool;
  Gate_is_reflection_enabled : option bool;
  Gate_gate_type : option GateType;
  Gate_timer : TimerData;
  Gate_is_locked : bool;
  Gate_editor_layer : option u32;
  Gate_editor_layer_name : option rstring;
  Gate_editor_layer_visibility : option bool;
  Gate_part_group_name : option rstring }.
Definition Gate_eta (s : Gate) : Gate := mkGate (Gate_name s) (Gate_center s) (Gate_length s) (Gate_height s) (Gate_rotation s) (Gate_material s) (Gate_show_bracket s) (Gate_is_collidable s) (Gate_imgf s) (Gate_imgb s) (Gate_surface s) (Gate_elasticity s) (Gate_angle_max s) (Gate_angle_min s) (Gate_friction s) (Gate_damping s) (Gate_gravity_factor s) (Gate_is_visible s) (Gate_two_way s) (Gate_is_reflection_enabled s) (Gate_gate_type s) (Gate_timer s) (Gate_is_locked s) (Gate_editor_layer s) (Gate_editor_layer_name s) (Gate_editor_layer_visibility s) (Gate_part_group_name s).
(** Assignments to one field. *)
Definition set_Gate_name (x : rstring) (s : Gate) : Gate := ltac:(setter Gate_eta Gate_name s x).
Definition set_Gate_center (x : Vertex2D) (s : Gate) : Gate := ltac:(setter Gate_eta Gate_center s x).
Definition set_Gate_length (x : f32) (s : Gate) : Gate := ltac:(setter Gate_eta Gate_length s x).
Definition set_Gate_height (x : f32) (s : Gate) : Gate := ltac:(setter Gate_eta Gate_height s x).
Definition set_Gate_rotation (x : f32) (s : Gate) : Gate := ltac:(setter Gate_eta Gate_rotation s x).
Definition set_Gate_material (x : rstring) (s : Gate) : Gate := ltac:(setter Gate_eta Gate_material s x).
Definition set_Gate_show_bracket (x : bool) (s : Gate) : Gate := ltac:(setter Gate_eta Gate_show_bracket s x).
Definition set_Gate_is_collidable (x : bool) (s : Gate) : Gate := ltac:(setter Gate_eta Gate_is_collidable s x).
Definition set_Gate_imgf (x : option rstring) (s : Gate) : Gate := ltac:(setter Gate_eta Gate_imgf s x).
Definition set_Gate_imgb (x : option rstring) (s : Gate) : Gate := ltac:(setter Gate_eta Gate_imgb s x).
Definition set_Gate_surface (x : rstring) (s : Gate) : Gate := ltac:(setter Gate_eta Gate_surface s x).
Definition set_Gate_elasticity (x : f32) (s : Gate) : Gate := ltac:(setter Gate_eta Gate_elasticity s x).
Definition set_Gate_angle_max (x : f32) (s : Gate) : Gate := ltac:(setter Gate_eta Gate_angle_max s x).
Definition set_Gate_angle_min (x : f32) (s : Gate) : Gate := ltac:(setter Gate_eta Gate_angle_min s x).
Definition set_Gate_friction (x : f32) (s : Gate) : Gate := ltac:(setter Gate_eta Gate_friction s x).
Definition set_Gate_damping (x : option f32) (s : Gate) : Gate := ltac:(setter Gate_eta Gate_damping s x).
Definition set_Gate_gravity_factor (x : option f32) (s : Gate) : Gate := ltac:(setter Gate_eta Gate_gravity_factor s x).
Definition set_Gate_is_visible (x : bool) (s : Gate) : Gate := ltac:(setter Gate_eta Gate_is_visible s x).
Definition set_Gate_two_way (x : bool) (s : Gate) : Gate := ltac:(setter Gate_eta Gate_two_way s x).
Definition set_Gate_is_reflection_enabled (x : option bool) (s : Gate) : Gate := ltac:(setter Gate_eta Gate_is_reflection_enabled s x).
Definition set_Gate_gate_type (x : option GateType) (s : Gate) : Gate := ltac:(setter Gate_eta Gate_gate_type s x).
Definition set_Gate_timer (x : TimerData) (s : Gate) : Gate := ltac:(setter Gate_eta Gate_timer s x).
Definition set_Gate_is_locked (x : bool) (s : Gate) : Gate := ltac:(setter Gate_eta Gate_is_locked s x).
Definition set_Gate_editor_layer (x : option u32) (s : Gate) : Gate := ltac:(setter Gate_eta Gate_editor_layer s x).
Definition set_Gate_editor_layer_name (x : option rstring) (s : Gate) : Gate := ltac:(setter Gate_eta Gate_editor_layer_name s x).
Definition set_Gate_editor_layer_visibility (x : option bool) (s : Gate) : Gate := ltac:(setter Gate_eta Gate_editor_layer_visibility s x).
Definition set_Gate_part_group_name (x : option rstring) (s : Gate) : Gate := ltac:(setter Gate_eta Gate_part_group_name s x).
(** gameitem/gate.rs:200-232 *)
Definition Gate_default : Gate := mkGate
  []
  Vertex2D_default
  (Z_to_w32 1120403456) (* 100.0 *)
  (Z_to_w32 1112014848) (* 50.0 *)
  (Z_to_w32 3266576384) (* -90.0 *)
  []
  true
  true
  None
  None
  []
  (Z_to_w32 1050253722) (* 0.3 *)
  (Z_to_w32 1070141403) (* std::f32::consts::PI / 2.0 *)
  f32_0
  (Z_to_w32 1017370378) (* 0.02 *)
  None
  None
  true
  false
  None
  None
  TimerData_default
  false
  None
  None
  None
  None.
(** gameitem/gate.rs:198, the macro at gameitem/select.rs:168-207 *)
Definition Gate_shared : HasShared Gate := mkHasShared
  Gate_is_locked Gate_editor_layer Gate_editor_layer_name Gate_editor_layer_visibility Gate_part_group_name
  set_Gate_is_locked set_Gate_editor_layer set_Gate_editor_layer_name set_Gate_editor_layer_visibility set_Gate_part_group_name.
(** gameitem/gate.rs:347-438, the arms of the record loop and its fallback *)
Definition Gate_own_arms : list (arm Gate) :=
  [
    ("VCEN", fun s => x <- Vertex2D_read ;; rret (set_Gate_center x s)); (* 359 *)
    ("LGTH", fun s => x <- get_f32 ;; rret (set_Gate_length x s)); (* 362 *)
    ("HGTH", fun s => x <- get_f32 ;; rret (set_Gate_height x s)); (* 365 *)
    ("ROTA", fun s => x <- get_f32 ;; rret (set_Gate_rotation x s)); (* 368 *)
    ("MATR", fun s => x <- get_string ;; rret (set_Gate_material x s)); (* 371 *)
    ("GSUP", fun s => x <- get_bool ;; rret (set_Gate_show_bracket x s)); (* 374 *)
    ("GCOL", fun s => x <- get_bool ;; rret (set_Gate_is_collidable x s)); (* 377 *)
    ("IMGF", fun s => x <- get_string ;; rret (set_Gate_imgf (Some x) s)); (* 380 *)
    ("IMGB", fun s => x <- get_string ;; rret (set_Gate_imgb (Some x) s)); (* 383 *)
    ("SURF", fun s => x <- get_string ;; rret (set_Gate_surface x s)); (* 386 *)
    ("ELAS", fun s => x <- get_f32 ;; rret (set_Gate_elasticity x s)); (* 389 *)
    ("GAMA", fun s => x <- get_f32 ;; rret (set_Gate_angle_max x s)); (* 392 *)
    ("GAMI", fun s => x <- get_f32 ;; rret (set_Gate_angle_min x s)); (* 395 *)
    ("GFRC", fun s => x <- get_f32 ;; rret (set_Gate_friction x s)); (* 398 *)
    ("AFRC", fun s => x <- get_f32 ;; rret (set_Gate_damping (Some x) s)); (* 401 *)
    ("GGFC", fun s => x <- get_f32 ;; rret (set_Gate_gravity_factor (Some x) s)); (* 404 *)
    ("GVSB", fun s => x <- get_bool ;; rret (set_Gate_is_visible x s)); (* 407 *)
    ("NAME", fun s => x <- get_wide_string ;; rret (set_Gate_name x s)); (* 410 *)
    ("TWWA", fun s => x <- get_bool ;; rret (set_Gate_two_way x s)); (* 413 *)
    ("REEN", fun s => x <- get_bool ;; rret (set_Gate_is_reflection_enabled (Some x) s)); (* 416 *)
    ("GATY", fun s => z <- get_u32 ;; x <- rlift (GateType_of_u32 z) ;; rret (set_Gate_gate_type (Some x) s)) (* 419 *) ]%string.
Definition Gate_arms : list (arm Gate) := Gate_own_arms ++ lift_arms Gate_timer set_Gate_timer TimerData_arms ++ shared_arms Gate_shared.
Definition Gate_init : Gate := Gate_default.
Definition Gate_read : rd_M Gate := read_arms Gate_arms Gate_init.
(** gameitem/gate.rs:440-482 *)
Definition Gate_write (v : Gate) : wr_M :=
  write_tagged_with "VCEN" (Vertex2D_write (Gate_center v)) >>>
  write_tagged_f32 "LGTH" (Gate_length v) >>>
  write_tagged_f32 "HGTH" (Gate_height v) >>>
  write_tagged_f32 "ROTA" (Gate_rotation v) >>>
  write_tagged_string "MATR" (Gate_material v) >>>
  TimerData_write_tmon (Gate_timer v) >>>
  write_tagged_bool "GSUP" (Gate_show_bracket v) >>>
  write_tagged_bool "GCOL" (Gate_is_collidable v) >>>
  TimerData_write_tmin (Gate_timer v) >>>
  wopt (Gate_imgf v) (fun x => write_tagged_string "IMGF" x) >>>
  wopt (Gate_imgb v) (fun x => write_tagged_string "IMGB" x) >>>
  write_tagged_string "SURF" (Gate_surface v) >>>
  write_tagged_f32 "ELAS" (Gate_elasticity v) >>>
  write_tagged_f32 "GAMA" (Gate_angle_max v) >>>
  write_tagged_f32 "GAMI" (Gate_angle_min v) >>>
  write_tagged_f32 "GFRC" (Gate_friction v) >>>
  wopt (Gate_damping v) (fun x => write_tagged_f32 "AFRC" x) >>>
  wopt (Gate_gravity_factor v) (fun x => write_tagged_f32 "GGFC" x) >>>
  write_tagged_bool "GVSB" (Gate_is_visible v) >>>
  write_tagged_wide_string "NAME" (Gate_name v) >>>
  write_tagged_bool "TWWA" (Gate_two_way v) >>>
  wopt (Gate_is_reflection_enabled v) (fun x => write_tagged_bool "REEN" x) >>>
  wopt (Gate_gate_type v) (fun x => write_tagged_u32 "GATY" (GateType_to_u32 x)) >>>
  write_shared_attributes Gate_shared v >>>
  close true.

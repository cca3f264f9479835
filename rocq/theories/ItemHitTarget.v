(** Generated by tools/gen_items.py from src/vpx/gameitem/hittarget.rs. *)
From Verif Require Import Base Text Biff Quantize Common Enums ItemBase.

(** gameitem/hittarget.rs:153-230 *)
Record HitTarget : Type := mkHitTarget {
  HitTarget_name : rstring;
  HitTarget_position : Vertex3D;
  HitTarget_size : Vertex3D;
  HitTarget_rot_z : f32;
  HitTarget_image : rstring;
  HitTarget_target_type : TargetType;
  HitTarget_material : rstring;
  HitTarget_is_visible : bool;
  HitTarget_is_legacy : bool;
  HitTarget_use_hit_event : bool;
  HitTarget_threshold : f32;
  HitTarget_elasticity : f32;
  HitTarget_elasticity_falloff : f32;
  HitTarget_friction : f32;
  HitTarget_scatter : f32;
  HitTarget_is_collidable : bool;
  HitTarget_disable_lighting_top_old : option f32;
  HitTarget_disable_lighting_top : option f32;
  HitTarget_disable_lighting_below : option f32;
  HitTarget_depth_bias : f32;
  HitTarget_is_reflection_enabled : bool;
  HitTarget_is_dropped : bool;
  HitTarget_drop_speed : f32;
  HitTarget_raise_delay : option u32;
  HitTarget_physics_material : option rstring;
  HitTarget_overwrite_physics : option bool;
  HitTarget_timer : TimerData;
  HitTarget_is_locked : bool;
  HitTarget_editor_layer : option u32;
  HitTarget_editor_layer_name : option rstring;
  HitTarget_editor_layer_visibility : option bool;
  HitTarget_part_group_name : option rstring }.
Definition HitTarget_eta (s : HitTarget) : HitTarget := mkHitTarget (HitTarget_name s) (HitTarget_position s) (HitTarget_size s) (HitTarget_rot_z s) (HitTarget_image s) (HitTarget_target_type s) (HitTarget_material s) (HitTarget_is_visible s) (HitTarget_is_legacy s) (HitTarget_use_hit_event s) (HitTarget_threshold s) (HitTarget_elasticity s) (HitTarget_elasticity_falloff s) (HitTarget_friction s) (HitTarget_scatter s) (HitTarget_is_collidable s) (HitTarget_disable_lighting_top_old s) (HitTarget_disable_lighting_top s) (HitTarget_disable_lighting_below s) (HitTarget_depth_bias s) (HitTarget_is_reflection_enabled s) (HitTarget_is_dropped s) (HitTarget_drop_speed s) (HitTarget_raise_delay s) (HitTarget_physics_material s) (HitTarget_overwrite_physics s) (HitTarget_timer s) (HitTarget_is_locked s) (HitTarget_editor_layer s) (HitTarget_editor_layer_name s) (HitTarget_editor_layer_visibility s) (HitTarget_part_group_name s).
(** Assignments to one field. *)
Definition set_HitTarget_name (x : rstring) (s : HitTarget) : HitTarget := ltac:(setter HitTarget_eta HitTarget_name s x).
Definition set_HitTarget_position (x : Vertex3D) (s : HitTarget) : HitTarget := ltac:(setter HitTarget_eta HitTarget_position s x).
Definition set_HitTarget_size (x : Vertex3D) (s : HitTarget) : HitTarget := ltac:(setter HitTarget_eta HitTarget_size s x).
Definition set_HitTarget_rot_z (x : f32) (s : HitTarget) : HitTarget := ltac:(setter HitTarget_eta HitTarget_rot_z s x).
Definition set_HitTarget_image (x : rstring) (s : HitTarget) : HitTarget := ltac:(setter HitTarget_eta HitTarget_image s x).
Definition set_HitTarget_target_type (x : TargetType) (s : HitTarget) : HitTarget := ltac:(setter HitTarget_eta HitTarget_target_type s x).
Definition set_HitTarget_material (x : rstring) (s : HitTarget) : HitTarget := ltac:(setter HitTarget_eta HitTarget_material s x).
Definition set_HitTarget_is_visible (x : bool) (s : HitTarget) : HitTarget := ltac:(setter HitTarget_eta HitTarget_is_visible s x).
Definition set_HitTarget_is_legacy (x : bool) (s : HitTarget) : HitTarget := ltac:(setter HitTarget_eta HitTarget_is_legacy s x).
Definition set_HitTarget_use_hit_event (x : bool) (s : HitTarget) : HitTarget := ltac:(setter HitTarget_eta HitTarget_use_hit_event s x).
Definition set_HitTarget_threshold (x : f32) (s : HitTarget) : HitTarget := ltac:(setter HitTarget_eta HitTarget_threshold s x).
Definition set_HitTarget_elasticity (x : f32) (s : HitTarget) : HitTarget := ltac:(setter HitTarget_eta HitTarget_elasticity s x).
Definition set_HitTarget_elasticity_falloff (x : f32) (s : HitTarget) : HitTarget := ltac:(setter HitTarget_eta HitTarget_elasticity_falloff s x).
Definition set_HitTarget_friction (x : f32) (s : HitTarget) : HitTarget := ltac:(setter HitTarget_eta HitTarget_friction s x).
Definition set_HitTarget_scatter (x : f32) (s : HitTarget) : HitTarget := ltac:(setter HitTarget_eta HitTarget_scatter s x).
Definition set_HitTarget_is_collidable (x : bool) (s : HitTarget) : HitTarget := ltac:(setter HitTarget_eta HitTarget_is_collidable s x).
Definition set_HitTarget_disable_lighting_top_old (x : option f32) (s : HitTarget) : HitTarget := ltac:(setter HitTarget_eta HitTarget_disable_lighting_top_old s x).
Definition set_HitTarget_disable_lighting_top (x : option f32) (s : HitTarget) : HitTarget := ltac:(setter HitTarget_eta HitTarget_disable_lighting_top s x).
Definition set_HitTarget_disable_lighting_below (x : option f32) (s : HitTarget) : HitTarget := ltac:(setter HitTarget_eta HitTarget_disable_lighting_below s x).
Definition set_HitTarget_depth_bias (x : f32) (s : HitTarget) : HitTarget := ltac:(setter HitTarget_eta HitTarget_depth_bias s x).
Definition set_HitTarget_is_reflection_enabled (x : bool) (s : HitTarget) : HitTarget := ltac:(setter HitTarget_eta HitTarget_is_reflection_enabled s x).
Definition set_HitTarget_is_dropped (x : bool) (s : HitTarget) : HitTarget := ltac:(setter HitTarget_eta HitTarget_is_dropped s x).
Definition set_HitTarget_drop_speed (x : f32) (s : HitTarget) : HitTarget := ltac:(setter HitTarget_eta HitTarget_drop_speed s x).
Definition set_HitTarget_raise_delay (x : option u32) (s : HitTarget) : HitTarget := ltac:(setter HitTarget_eta HitTarget_raise_delay s x).
Definition set_HitTarget_physics_material (x : option rstring) (s : HitTarget) : HitTarget := ltac:(setter HitTarget_eta HitTarget_physics_material s x).
Definition set_HitTarget_overwrite_physics (x : option bool) (s : HitTarget) : HitTarget := ltac:(setter HitTarget_eta HitTarget_overwrite_physics s x).
Definition set_HitTarget_timer (x : TimerData) (s : HitTarget) : HitTarget := ltac:(setter HitTarget_eta HitTarget_timer s x).
Definition set_HitTarget_is_locked (x : bool) (s : HitTarget) : HitTarget := ltac:(setter HitTarget_eta HitTarget_is_locked s x).
Definition set_HitTarget_editor_layer (x : option u32) (s : HitTarget) : HitTarget := ltac:(setter HitTarget_eta HitTarget_editor_layer s x).
Definition set_HitTarget_editor_layer_name (x : option rstring) (s : HitTarget) : HitTarget := ltac:(setter HitTarget_eta HitTarget_editor_layer_name s x).
Definition set_HitTarget_editor_layer_visibility (x : option bool) (s : HitTarget) : HitTarget := ltac:(setter HitTarget_eta HitTarget_editor_layer_visibility s x).
Definition set_HitTarget_part_group_name (x : option rstring) (s : HitTarget) : HitTarget := ltac:(setter HitTarget_eta HitTarget_part_group_name s x).
(** gameitem/hittarget.rs:233-304 *)
Definition HitTarget_default : HitTarget := mkHitTarget
  []
  Vertex3D_default
  (mkVertex3D (Z_to_w32 1107296256) (* 32.0 *) (Z_to_w32 1107296256) (* 32.0 *) (Z_to_w32 1107296256) (* 32.0 *))
  f32_0
  []
  TargetType_DropTargetSimple
  []
  true
  false
  true
  (Z_to_w32 1073741824) (* 2.0 *)
  f32_0
  f32_0
  f32_0
  f32_0
  true
  None
  None
  None
  f32_0
  true
  false
  (Z_to_w32 1056964608) (* 0.5 *)
  None
  None
  None
  TimerData_default
  false
  None
  None
  None
  None.
(** gameitem/hittarget.rs:231, the macro at gameitem/select.rs:168-207 *)
Definition HitTarget_shared : HasShared HitTarget := mkHasShared
  HitTarget_is_locked HitTarget_editor_layer HitTarget_editor_layer_name HitTarget_editor_layer_visibility HitTarget_part_group_name
  set_HitTarget_is_locked set_HitTarget_editor_layer set_HitTarget_editor_layer_name set_HitTarget_editor_layer_visibility set_HitTarget_part_group_name.
(** gameitem/hittarget.rs:435-537, the arms of the record loop and its fallback *)
Definition HitTarget_own_arms : list (arm HitTarget) :=
  [
    ("VPOS", fun s => x <- Vertex3D_read ;; rret (set_HitTarget_position x s)); (* 447 *)
    ("VSIZ", fun s => x <- Vertex3D_read ;; rret (set_HitTarget_size x s)); (* 450 *)
    ("ROTZ", fun s => x <- get_f32 ;; rret (set_HitTarget_rot_z x s)); (* 453 *)
    ("IMAG", fun s => x <- get_string ;; rret (set_HitTarget_image x s)); (* 456 *)
    ("TRTY", fun s => z <- get_u32 ;; x <- rlift (TargetType_of_u32 z) ;; rret (set_HitTarget_target_type x s)); (* 459 *)
    ("NAME", fun s => x <- get_wide_string ;; rret (set_HitTarget_name x s)); (* 462 *)
    ("MATR", fun s => x <- get_string ;; rret (set_HitTarget_material x s)); (* 465 *)
    ("TVIS", fun s => x <- get_bool ;; rret (set_HitTarget_is_visible x s)); (* 468 *)
    ("LEMO", fun s => x <- get_bool ;; rret (set_HitTarget_is_legacy x s)); (* 471 *)
    ("HTEV", fun s => x <- get_bool ;; rret (set_HitTarget_use_hit_event x s)); (* 474 *)
    ("THRS", fun s => x <- get_f32 ;; rret (set_HitTarget_threshold x s)); (* 477 *)
    ("ELAS", fun s => x <- get_f32 ;; rret (set_HitTarget_elasticity x s)); (* 480 *)
    ("ELFO", fun s => x <- get_f32 ;; rret (set_HitTarget_elasticity_falloff x s)); (* 483 *)
    ("RFCT", fun s => x <- get_f32 ;; rret (set_HitTarget_friction x s)); (* 486 *)
    ("RSCT", fun s => x <- get_f32 ;; rret (set_HitTarget_scatter x s)); (* 489 *)
    ("CLDR", fun s => x <- get_bool ;; rret (set_HitTarget_is_collidable x s)); (* 492 *)
    ("DILI", fun s => x <- get_dequantized8 ;; rret (set_HitTarget_disable_lighting_top_old (Some x) s)); (* 495 *)
    ("DILT", fun s => x <- get_f32 ;; rret (set_HitTarget_disable_lighting_top (Some x) s)); (* 500 *)
    ("DILB", fun s => x <- get_f32 ;; rret (set_HitTarget_disable_lighting_below (Some x) s)); (* 503 *)
    ("REEN", fun s => x <- get_bool ;; rret (set_HitTarget_is_reflection_enabled x s)); (* 506 *)
    ("PIDB", fun s => x <- get_f32 ;; rret (set_HitTarget_depth_bias x s)); (* 509 *)
    ("ISDR", fun s => x <- get_bool ;; rret (set_HitTarget_is_dropped x s)); (* 512 *)
    ("DRSP", fun s => x <- get_f32 ;; rret (set_HitTarget_drop_speed x s)); (* 515 *)
    ("RADE", fun s => x <- get_u32 ;; rret (set_HitTarget_raise_delay (Some x) s)); (* 518 *)
    ("MAPH", fun s => x <- get_string ;; rret (set_HitTarget_physics_material (Some x) s)); (* 519 *)
    ("OVPH", fun s => x <- get_bool ;; rret (set_HitTarget_overwrite_physics (Some x) s)) (* 520 *) ]%string.
Definition HitTarget_arms : list (arm HitTarget) := HitTarget_own_arms ++ lift_arms HitTarget_timer set_HitTarget_timer TimerData_arms ++ shared_arms HitTarget_shared.
Definition HitTarget_init : HitTarget := HitTarget_default.
Definition HitTarget_read : rd_M HitTarget := read_arms HitTarget_arms HitTarget_init.
(** gameitem/hittarget.rs:539-584 *)
Definition HitTarget_write (v : HitTarget) : wr_M :=
  write_tagged_with "VPOS" (Vertex3D_write (HitTarget_position v)) >>>
  write_tagged_with "VSIZ" (Vertex3D_write (HitTarget_size v)) >>>
  write_tagged_f32 "ROTZ" (HitTarget_rot_z v) >>>
  write_tagged_string "IMAG" (HitTarget_image v) >>>
  write_tagged_u32 "TRTY" (TargetType_to_u32 (HitTarget_target_type v)) >>>
  write_tagged_wide_string "NAME" (HitTarget_name v) >>>
  write_tagged_string "MATR" (HitTarget_material v) >>>
  write_tagged_bool "TVIS" (HitTarget_is_visible v) >>>
  write_tagged_bool "LEMO" (HitTarget_is_legacy v) >>>
  write_tagged_bool "HTEV" (HitTarget_use_hit_event v) >>>
  write_tagged_f32 "THRS" (HitTarget_threshold v) >>>
  write_tagged_f32 "ELAS" (HitTarget_elasticity v) >>>
  write_tagged_f32 "ELFO" (HitTarget_elasticity_falloff v) >>>
  write_tagged_f32 "RFCT" (HitTarget_friction v) >>>
  write_tagged_f32 "RSCT" (HitTarget_scatter v) >>>
  write_tagged_bool "CLDR" (HitTarget_is_collidable v) >>>
  wopt (HitTarget_disable_lighting_top_old v) (fun x => write_tagged_quantized8 "DILI" x) >>>
  wopt (HitTarget_disable_lighting_top v) (fun x => write_tagged_f32 "DILT" x) >>>
  wopt (HitTarget_disable_lighting_below v) (fun x => write_tagged_f32 "DILB" x) >>>
  write_tagged_bool "REEN" (HitTarget_is_reflection_enabled v) >>>
  write_tagged_f32 "PIDB" (HitTarget_depth_bias v) >>>
  write_tagged_bool "ISDR" (HitTarget_is_dropped v) >>>
  write_tagged_f32 "DRSP" (HitTarget_drop_speed v) >>>
  TimerData_write (HitTarget_timer v) >>>
  wopt (HitTarget_raise_delay v) (fun x => write_tagged_u32 "RADE" x) >>>
  wopt (HitTarget_physics_material v) (fun x => write_tagged_string "MAPH" x) >>>
  wopt (HitTarget_overwrite_physics v) (fun x => write_tagged_bool "OVPH" x) >>>
  write_shared_attributes HitTarget_shared v >>>
  close true.

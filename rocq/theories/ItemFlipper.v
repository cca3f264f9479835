(** Generated by tools/gen_items.py from src/vpx/gameitem/flipper.rs. *)
From Verif Require Import Base Text Biff Quantize Common Enums ItemBase.

(** gameitem/flipper.rs:10-331 *)
Record Flipper : Type := mkFlipper {
  Flipper_name : rstring;
  Flipper_center : Vertex2D;
  Flipper_base_radius : f32;
  Flipper_end_radius : f32;
  Flipper_flipper_radius_max : f32;
  Flipper_return_ : f32;
  Flipper_start_angle : f32;
  Flipper_end_angle : f32;
  Flipper_override_physics : u32;
  Flipper_mass : f32;
  Flipper_surface : rstring;
  Flipper_material : rstring;
  Flipper_rubber_material : rstring;
  Flipper_rubber_thickness_int : u32;
  Flipper_rubber_thickness : option f32;
  Flipper_rubber_height_int : u32;
  Flipper_rubber_height : option f32;
  Flipper_rubber_width_int : u32;
  Flipper_rubber_width : option f32;
  Flipper_strength : f32;
  Flipper_elasticity : f32;
  Flipper_elasticity_falloff : f32;
  Flipper_friction : f32;
  Flipper_ramp_up : f32;
  Flipper_scatter : option f32;
  Flipper_torque_damping : option f32;
  Flipper_torque_damping_angle : option f32;
  Flipper_flipper_radius_min : f32;
  Flipper_is_visible : bool;
  Flipper_is_enabled : bool;
  Flipper_height : f32;
  Flipper_image : option rstring;
  Flipper_is_reflection_enabled : option bool;
  Flipper_timer : TimerData;
  Flipper_is_locked : bool;
  Flipper_editor_layer : option u32;
  Flipper_editor_layer_name : option rstring;
  Flipper_editor_layer_visibility : option bool;
  Flipper_part_group_name : option rstring }.
Definition Flipper_eta (s : Flipper) : Flipper := mkFlipper (Flipper_name s) (Flipper_center s) (Flipper_base_radius s) (Flipper_end_radius s) (Flipper_flipper_radius_max s) (Flipper_return_ s) (Flipper_start_angle s) (Flipper_end_angle s) (Flipper_override_physics s) (Flipper_mass s) (Flipper_surface s) (Flipper_material s) (Flipper_rubber_material s) (Flipper_rubber_thickness_int s) (Flipper_rubber_thickness s) (Flipper_rubber_height_int s) (Flipper_rubber_height s) (Flipper_rubber_width_int s) (Flipper_rubber_width s) (Flipper_strength s) (Flipper_elasticity s) (Flipper_elasticity_falloff s) (Flipper_friction s) (Flipper_ramp_up s) (Flipper_scatter s) (Flipper_torque_damping s) (Flipper_torque_damping_angle s) (Flipper_flipper_radius_min s) (Flipper_is_visible s) (Flipper_is_enabled s) (Flipper_height s) (Flipper_image s) (Flipper_is_reflection_enabled s) (Flipper_timer s) (Flipper_is_locked s) (Flipper_editor_layer s) (Flipper_editor_layer_name s) (Flipper_editor_layer_visibility s) (Flipper_part_group_name s).
(** Assignments to one field. *)
Definition set_Flipper_name (x : rstring) (s : Flipper) : Flipper := ltac:(setter Flipper_eta Flipper_name s x).
Definition set_Flipper_center (x : Vertex2D) (s : Flipper) : Flipper := ltac:(setter Flipper_eta Flipper_center s x).
Definition set_Flipper_base_radius (x : f32) (s : Flipper) : Flipper := ltac:(setter Flipper_eta Flipper_base_radius s x).
Definition set_Flipper_end_radius (x : f32) (s : Flipper) : Flipper := ltac:(setter Flipper_eta Flipper_end_radius s x).
Definition set_Flipper_flipper_radius_max (x : f32) (s : Flipper) : Flipper := ltac:(setter Flipper_eta Flipper_flipper_radius_max s x).
Definition set_Flipper_return_ (x : f32) (s : Flipper) : Flipper := ltac:(setter Flipper_eta Flipper_return_ s x).
Definition set_Flipper_start_angle (x : f32) (s : Flipper) : Flipper := ltac:(setter Flipper_eta Flipper_start_angle s x).
Definition set_Flipper_end_angle (x : f32) (s : Flipper) : Flipper := ltac:(setter Flipper_eta Flipper_end_angle s x).
Definition set_Flipper_override_physics (x : u32) (s : Flipper) : Flipper := ltac:(setter Flipper_eta Flipper_override_physics s x).
Definition set_Flipper_mass (x : f32) (s : Flipper) : Flipper := ltac:(setter Flipper_eta Flipper_mass s x).
Definition set_Flipper_surface (x : rstring) (s : Flipper) : Flipper := ltac:(setter Flipper_eta Flipper_surface s x).
Definition set_Flipper_material (x : rstring) (s : Flipper) : Flipper := ltac:(setter Flipper_eta Flipper_material s x).
Definition set_Flipper_rubber_material (x : rstring) (s : Flipper) : Flipper := ltac:(setter Flipper_eta Flipper_rubber_material s x).
Definition set_Flipper_rubber_thickness_int (x : u32) (s : Flipper) : Flipper := ltac:(setter Flipper_eta Flipper_rubber_thickness_int s x).
Definition set_Flipper_rubber_thickness (x : option f32) (s : Flipper) : Flipper := ltac:(setter Flipper_eta Flipper_rubber_thickness s x).
Definition set_Flipper_rubber_height_int (x : u32) (s : Flipper) : Flipper := ltac:(setter Flipper_eta Flipper_rubber_height_int s x).
Definition set_Flipper_rubber_height (x : option f32) (s : Flipper) : Flipper := ltac:(setter Flipper_eta Flipper_rubber_height s x).
Definition set_Flipper_rubber_width_int (x : u32) (s : Flipper) : Flipper := ltac:(setter Flipper_eta Flipper_rubber_width_int s x).
Definition set_Flipper_rubber_width (x : option f32) (s : Flipper) : Flipper := ltac:(setter Flipper_eta Flipper_rubber_width s x).
Definition set_Flipper_strength (x : f32) (s : Flipper) : Flipper := ltac:(setter Flipper_eta Flipper_strength s x).
Definition set_Flipper_elasticity (x : f32) (s : Flipper) : Flipper := ltac:(setter Flipper_eta Flipper_elasticity s x).
Definition set_Flipper_elasticity_falloff (x : f32) (s : Flipper) : Flipper := ltac:(setter Flipper_eta Flipper_elasticity_falloff s x).
Definition set_Flipper_friction (x : f32) (s : Flipper) : Flipper := ltac:(setter Flipper_eta Flipper_friction s x).
Definition set_Flipper_ramp_up (x : f32) (s : Flipper) : Flipper := ltac:(setter Flipper_eta Flipper_ramp_up s x).
Definition set_Flipper_scatter (x : option f32) (s : Flipper) : Flipper := ltac:(setter Flipper_eta Flipper_scatter s x).
Definition set_Flipper_torque_damping (x : option f32) (s : Flipper) : Flipper := ltac:(setter Flipper_eta Flipper_torque_damping s x).
Definition set_Flipper_torque_damping_angle (x : option f32) (s : Flipper) : Flipper := ltac:(setter Flipper_eta Flipper_torque_damping_angle s x).
Definition set_Flipper_flipper_radius_min (x : f32) (s : Flipper) : Flipper := ltac:(setter Flipper_eta Flipper_flipper_radius_min s x).
Definition set_Flipper_is_visible (x : bool) (s : Flipper) : Flipper := ltac:(setter Flipper_eta Flipper_is_visible s x).
Definition set_Flipper_is_enabled (x : bool) (s : Flipper) : Flipper := ltac:(setter Flipper_eta Flipper_is_enabled s x).
Definition set_Flipper_height (x : f32) (s : Flipper) : Flipper := ltac:(setter Flipper_eta Flipper_height s x).
Definition set_Flipper_image (x : option rstring) (s : Flipper) : Flipper := ltac:(setter Flipper_eta Flipper_image s x).
Definition set_Flipper_is_reflection_enabled (x : option bool) (s : Flipper) : Flipper := ltac:(setter Flipper_eta Flipper_is_reflection_enabled s x).
Definition set_Flipper_timer (x : TimerData) (s : Flipper) : Flipper := ltac:(setter Flipper_eta Flipper_timer s x).
Definition set_Flipper_is_locked (x : bool) (s : Flipper) : Flipper := ltac:(setter Flipper_eta Flipper_is_locked s x).
Definition set_Flipper_editor_layer (x : option u32) (s : Flipper) : Flipper := ltac:(setter Flipper_eta Flipper_editor_layer s x).
Definition set_Flipper_editor_layer_name (x : option rstring) (s : Flipper) : Flipper := ltac:(setter Flipper_eta Flipper_editor_layer_name s x).
Definition set_Flipper_editor_layer_visibility (x : option bool) (s : Flipper) : Flipper := ltac:(setter Flipper_eta Flipper_editor_layer_visibility s x).
Definition set_Flipper_part_group_name (x : option rstring) (s : Flipper) : Flipper := ltac:(setter Flipper_eta Flipper_part_group_name s x).
(** gameitem/flipper.rs:491-535 *)
Definition Flipper_default : Flipper := mkFlipper
  []
  Vertex2D_default
  (Z_to_w32 1101791232) (* 21.5 *)
  (Z_to_w32 1095761920) (* 13.0 *)
  (Z_to_w32 1124204544) (* 130.0 *)
  (Z_to_w32 1030590824) (* 0.058 *)
  (Z_to_w32 1123155968) (* 121.0 *)
  (Z_to_w32 1116471296) (* 70.0 *)
  (Z_to_w32 0)
  (Z_to_w32 1065353216) (* 1.0 *)
  []
  []
  []
  (Z_to_w32 0)
  None
  (Z_to_w32 0)
  None
  (Z_to_w32 0)
  None
  (Z_to_w32 1158250496) (* 2200.0 *)
  (Z_to_w32 1061997773) (* 0.8 *)
  (Z_to_w32 1054615798) (* 0.43 *)
  (Z_to_w32 1058642330) (* 0.6 *)
  (Z_to_w32 1077936128) (* 3.0 *)
  None
  None
  None
  f32_0
  true
  true
  (Z_to_w32 1112014848) (* 50.0 *)
  None
  None
  TimerData_default
  false
  None
  None
  None
  None.
(** gameitem/flipper.rs:332, the macro at gameitem/select.rs:168-207 *)
Definition Flipper_shared : HasShared Flipper := mkHasShared
  Flipper_is_locked Flipper_editor_layer Flipper_editor_layer_name Flipper_editor_layer_visibility Flipper_part_group_name
  set_Flipper_is_locked set_Flipper_editor_layer set_Flipper_editor_layer_name set_Flipper_editor_layer_visibility set_Flipper_part_group_name.
(** gameitem/flipper.rs:537-664, the arms of the record loop and its fallback *)
Definition Flipper_own_arms : list (arm Flipper) :=
  [
    ("VCEN", fun s => x <- Vertex2D_read ;; rret (set_Flipper_center x s)); (* 549 *)
    ("BASR", fun s => x <- get_f32 ;; rret (set_Flipper_base_radius x s)); (* 552 *)
    ("ENDR", fun s => x <- get_f32 ;; rret (set_Flipper_end_radius x s)); (* 555 *)
    ("FLPR", fun s => x <- get_f32 ;; rret (set_Flipper_flipper_radius_max x s)); (* 558 *)
    ("FRTN", fun s => x <- get_f32 ;; rret (set_Flipper_return_ x s)); (* 561 *)
    ("ANGS", fun s => x <- get_f32 ;; rret (set_Flipper_start_angle x s)); (* 564 *)
    ("ANGE", fun s => x <- get_f32 ;; rret (set_Flipper_end_angle x s)); (* 567 *)
    ("OVRP", fun s => x <- get_u32 ;; rret (set_Flipper_override_physics x s)); (* 570 *)
    ("FORC", fun s => x <- get_f32 ;; rret (set_Flipper_mass x s)); (* 573 *)
    ("SURF", fun s => x <- get_string ;; rret (set_Flipper_surface x s)); (* 576 *)
    ("MATR", fun s => x <- get_string ;; rret (set_Flipper_material x s)); (* 579 *)
    ("NAME", fun s => x <- get_wide_string ;; rret (set_Flipper_name x s)); (* 582 *)
    ("RUMA", fun s => x <- get_string ;; rret (set_Flipper_rubber_material x s)); (* 585 *)
    ("RTHK", fun s => x <- get_u32 ;; rret (set_Flipper_rubber_thickness_int x s)); (* 588 *)
    ("RTHF", fun s => x <- get_f32 ;; rret (set_Flipper_rubber_thickness (Some x) s)); (* 591 *)
    ("RHGT", fun s => x <- get_u32 ;; rret (set_Flipper_rubber_height_int x s)); (* 594 *)
    ("RHGF", fun s => x <- get_f32 ;; rret (set_Flipper_rubber_height (Some x) s)); (* 597 *)
    ("RWDT", fun s => x <- get_u32 ;; rret (set_Flipper_rubber_width_int x s)); (* 600 *)
    ("RWDF", fun s => x <- get_f32 ;; rret (set_Flipper_rubber_width (Some x) s)); (* 603 *)
    ("STRG", fun s => x <- get_f32 ;; rret (set_Flipper_strength x s)); (* 606 *)
    ("ELAS", fun s => x <- get_f32 ;; rret (set_Flipper_elasticity x s)); (* 609 *)
    ("ELFO", fun s => x <- get_f32 ;; rret (set_Flipper_elasticity_falloff x s)); (* 612 *)
    ("FRIC", fun s => x <- get_f32 ;; rret (set_Flipper_friction x s)); (* 615 *)
    ("RPUP", fun s => x <- get_f32 ;; rret (set_Flipper_ramp_up x s)); (* 618 *)
    ("SCTR", fun s => x <- get_f32 ;; rret (set_Flipper_scatter (Some x) s)); (* 621 *)
    ("TODA", fun s => x <- get_f32 ;; rret (set_Flipper_torque_damping (Some x) s)); (* 624 *)
    ("TDAA", fun s => x <- get_f32 ;; rret (set_Flipper_torque_damping_angle (Some x) s)); (* 627 *)
    ("VSBL", fun s => x <- get_bool ;; rret (set_Flipper_is_visible x s)); (* 630 *)
    ("ENBL", fun s => x <- get_bool ;; rret (set_Flipper_is_enabled x s)); (* 633 *)
    ("FRMN", fun s => x <- get_f32 ;; rret (set_Flipper_flipper_radius_min x s)); (* 636 *)
    ("FHGT", fun s => x <- get_f32 ;; rret (set_Flipper_height x s)); (* 639 *)
    ("IMAG", fun s => x <- get_string ;; rret (set_Flipper_image (Some x) s)); (* 642 *)
    ("REEN", fun s => x <- get_bool ;; rret (set_Flipper_is_reflection_enabled (Some x) s)) (* 645 *) ]%string.
Definition Flipper_arms : list (arm Flipper) := Flipper_own_arms ++ lift_arms Flipper_timer set_Flipper_timer TimerData_arms ++ shared_arms Flipper_shared.
Definition Flipper_init : Flipper := Flipper_default.
Definition Flipper_read : rd_M Flipper := read_arms Flipper_arms Flipper_init.
(** gameitem/flipper.rs:666-723 *)
Definition Flipper_write (v : Flipper) : wr_M :=
  write_tagged_with "VCEN" (Vertex2D_write (Flipper_center v)) >>>
  write_tagged_f32 "BASR" (Flipper_base_radius v) >>>
  write_tagged_f32 "ENDR" (Flipper_end_radius v) >>>
  write_tagged_f32 "FLPR" (Flipper_flipper_radius_max v) >>>
  write_tagged_f32 "FRTN" (Flipper_return_ v) >>>
  write_tagged_f32 "ANGS" (Flipper_start_angle v) >>>
  write_tagged_f32 "ANGE" (Flipper_end_angle v) >>>
  write_tagged_u32 "OVRP" (Flipper_override_physics v) >>>
  write_tagged_f32 "FORC" (Flipper_mass v) >>>
  TimerData_write (Flipper_timer v) >>>
  write_tagged_string "SURF" (Flipper_surface v) >>>
  write_tagged_string "MATR" (Flipper_material v) >>>
  write_tagged_wide_string "NAME" (Flipper_name v) >>>
  write_tagged_string "RUMA" (Flipper_rubber_material v) >>>
  write_tagged_u32 "RTHK" (Flipper_rubber_thickness_int v) >>>
  wopt (Flipper_rubber_thickness v) (fun x => write_tagged_f32 "RTHF" x) >>>
  write_tagged_u32 "RHGT" (Flipper_rubber_height_int v) >>>
  wopt (Flipper_rubber_height v) (fun x => write_tagged_f32 "RHGF" x) >>>
  write_tagged_u32 "RWDT" (Flipper_rubber_width_int v) >>>
  wopt (Flipper_rubber_width v) (fun x => write_tagged_f32 "RWDF" x) >>>
  write_tagged_f32 "STRG" (Flipper_strength v) >>>
  write_tagged_f32 "ELAS" (Flipper_elasticity v) >>>
  write_tagged_f32 "ELFO" (Flipper_elasticity_falloff v) >>>
  write_tagged_f32 "FRIC" (Flipper_friction v) >>>
  write_tagged_f32 "RPUP" (Flipper_ramp_up v) >>>
  wopt (Flipper_scatter v) (fun x => write_tagged_f32 "SCTR" x) >>>
  wopt (Flipper_torque_damping v) (fun x => write_tagged_f32 "TODA" x) >>>
  wopt (Flipper_torque_damping_angle v) (fun x => write_tagged_f32 "TDAA" x) >>>
  write_tagged_bool "VSBL" (Flipper_is_visible v) >>>
  write_tagged_bool "ENBL" (Flipper_is_enabled v) >>>
  write_tagged_f32 "FRMN" (Flipper_flipper_radius_min v) >>>
  write_tagged_f32 "FHGT" (Flipper_height v) >>>
  wopt (Flipper_image v) (fun x => write_tagged_string "IMAG" x) >>>
  wopt (Flipper_is_reflection_enabled v) (fun x => write_tagged_bool "REEN" x) >>>
  write_shared_attributes Flipper_shared v >>>
  close true.

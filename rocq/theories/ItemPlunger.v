(** Generated by tools/gen_items.py from src/vpx/gameitem/plunger.rs. *)
From Verif Require Import Base Text Biff Quantize Common Enums ItemBase.

(** gameitem/plunger.rs:113-167 *)
Record Plunger : Type := mkPlunger {
  Plunger_center : Vertex2D;
  Plunger_width : f32;
  Plunger_height : f32;
  Plunger_z_adjust : f32;
  Plunger_stroke : f32;
  Plunger_speed_pull : f32;
  Plunger_speed_fire : f32;
  Plunger_plunger_type : PlungerType;
  Plunger_anim_frames : u32;
  Plunger_material : rstring;
  Plunger_image : rstring;
  Plunger_mech_strength : f32;
  Plunger_is_mech_plunger : bool;
  Plunger_auto_plunger : bool;
  Plunger_park_position : f32;
  Plunger_scatter_velocity : f32;
  Plunger_momentum_xfer : f32;
  Plunger_is_visible : bool;
  Plunger_is_reflection_enabled : option bool;
  Plunger_surface : rstring;
  Plunger_name : rstring;
  Plunger_tip_shape : rstring;
  Plunger_rod_diam : f32;
  Plunger_ring_gap : f32;
  Plunger_ring_diam : f32;
  Plunger_ring_width : f32;
  Plunger_spring_diam : f32;
  Plunger_spring_gauge : f32;
  Plunger_spring_loops : f32;
  Plunger_spring_end_loops : f32;
  Plunger_timer : TimerData;
  Plunger_is_locked : bool;
  Plunger_editor_layer : option u32;
  Plunger_editor_layer_name : option rstring;
  Plunger_editor_layer_visibility : option bool;
  Plunger_part_group_name : option rstring }.
Definition Plunger_eta (s : Plunger) : Plunger := mkPlunger (Plunger_center s) (Plunger_width s) (Plunger_height s) (Plunger_z_adjust s) (Plunger_stroke s) (Plunger_speed_pull s) (Plunger_speed_fire s) (Plunger_plunger_type s) (Plunger_anim_frames s) (Plunger_material s) (Plunger_image s) (Plunger_mech_strength s) (Plunger_is_mech_plunger s) (Plunger_auto_plunger s) (Plunger_park_position s) (Plunger_scatter_velocity s) (Plunger_momentum_xfer s) (Plunger_is_visible s) (Plunger_is_reflection_enabled s) (Plunger_surface s) (Plunger_name s) (Plunger_tip_shape s) (Plunger_rod_diam s) (Plunger_ring_gap s) (Plunger_ring_diam s) (Plunger_ring_width s) (Plunger_spring_diam s) (Plunger_spring_gauge s) (Plunger_spring_loops s) (Plunger_spring_end_loops s) (Plunger_timer s) (Plunger_is_locked s) (Plunger_editor_layer s) (Plunger_editor_layer_name s) (Plunger_editor_layer_visibility s) (Plunger_part_group_name s).
(** Assignments to one field. *)
Definition set_Plunger_center (x : Vertex2D) (s : Plunger) : Plunger := ltac:(setter Plunger_eta Plunger_center s x).
Definition set_Plunger_width (x : f32) (s : Plunger) : Plunger := ltac:(setter Plunger_eta Plunger_width s x).
Definition set_Plunger_height (x : f32) (s : Plunger) : Plunger := ltac:(setter Plunger_eta Plunger_height s x).
Definition set_Plunger_z_adjust (x : f32) (s : Plunger) : Plunger := ltac:(setter Plunger_eta Plunger_z_adjust s x).
Definition set_Plunger_stroke (x : f32) (s : Plunger) : Plunger := ltac:(setter Plunger_eta Plunger_stroke s x).
Definition set_Plunger_speed_pull (x : f32) (s : Plunger) : Plunger := ltac:(setter Plunger_eta Plunger_speed_pull s x).
Definition set_Plunger_speed_fire (x : f32) (s : Plunger) : Plunger := ltac:(setter Plunger_eta Plunger_speed_fire s x).
Definition set_Plunger_plunger_type (x : PlungerType) (s : Plunger) : Plunger := ltac:(setter Plunger_eta Plunger_plunger_type s x).
Definition set_Plunger_anim_frames (x : u32) (s : Plunger) : Plunger := ltac:(setter Plunger_eta Plunger_anim_frames s x).
Definition set_Plunger_material (x : rstring) (s : Plunger) : Plunger := ltac:(setter Plunger_eta Plunger_material s x).
Definition set_Plunger_image (x : rstring) (s : Plunger) : Plunger := ltac:(setter Plunger_eta Plunger_image s x).
Definition set_Plunger_mech_strength (x : f32) (s : Plunger) : Plunger := ltac:(setter Plunger_eta Plunger_mech_strength s x).
Definition set_Plunger_is_mech_plunger (x : bool) (s : Plunger) : Plunger := ltac:(setter Plunger_eta Plunger_is_mech_plunger s x).
Definition set_Plunger_auto_plunger (x : bool) (s : Plunger) : Plunger := ltac:(setter Plunger_eta Plunger_auto_plunger s x).
Definition set_Plunger_park_position (x : f32) (s : Plunger) : Plunger := ltac:(setter Plunger_eta Plunger_park_position s x).
Definition set_Plunger_scatter_velocity (x : f32) (s : Plunger) : Plunger := ltac:(setter Plunger_eta Plunger_scatter_velocity s x).
Definition set_Plunger_momentum_xfer (x : f32) (s : Plunger) : Plunger := ltac:(setter Plunger_eta Plunger_momentum_xfer s x).
Definition set_Plunger_is_visible (x : bool) (s : Plunger) : Plunger := ltac:(setter Plunger_eta Plunger_is_visible s x).
Definition set_Plunger_is_reflection_enabled (x : option bool) (s : Plunger) : Plunger := ltac:(setter Plunger_eta Plunger_is_reflection_enabled s x).
Definition set_Plunger_surface (x : rstring) (s : Plunger) : Plunger := ltac:(setter Plunger_eta Plunger_surface s x).
Definition set_Plunger_name (x : rstring) (s : Plunger) : Plunger := ltac:(setter Plunger_eta Plunger_name s x).
Definition set_Plunger_tip_shape (x : rstring) (s : Plunger) : Plunger := ltac:(setter Plunger_eta Plunger_tip_shape s x).
Definition set_Plunger_rod_diam (x : f32) (s : Plunger) : Plunger := ltac:(setter Plunger_eta Plunger_rod_diam s x).
Definition set_Plunger_ring_gap (x : f32) (s : Plunger) : Plunger := ltac:(setter Plunger_eta Plunger_ring_gap s x).
Definition set_Plunger_ring_diam (x : f32) (s : Plunger) : Plunger := ltac:(setter Plunger_eta Plunger_ring_diam s x).
Definition set_Plunger_ring_width (x : f32) (s : Plunger) : Plunger := ltac:(setter Plunger_eta Plunger_ring_width s x).
Definition set_Plunger_spring_diam (x : f32) (s : Plunger) : Plunger := ltac:(setter Plunger_eta Plunger_spring_diam s x).
Definition set_Plunger_spring_gauge (x : f32) (s : Plunger) : Plunger := ltac:(setter Plunger_eta Plunger_spring_gauge s x).
Definition set_Plunger_spring_loops (x : f32) (s : Plunger) : Plunger := ltac:(setter Plunger_eta Plunger_spring_loops s x).
Definition set_Plunger_spring_end_loops (x : f32) (s : Plunger) : Plunger := ltac:(setter Plunger_eta Plunger_spring_end_loops s x).
Definition set_Plunger_timer (x : TimerData) (s : Plunger) : Plunger := ltac:(setter Plunger_eta Plunger_timer s x).
Definition set_Plunger_is_locked (x : bool) (s : Plunger) : Plunger := ltac:(setter Plunger_eta Plunger_is_locked s x).
Definition set_Plunger_editor_layer (x : option u32) (s : Plunger) : Plunger := ltac:(setter Plunger_eta Plunger_editor_layer s x).
Definition set_Plunger_editor_layer_name (x : option rstring) (s : Plunger) : Plunger := ltac:(setter Plunger_eta Plunger_editor_layer_name s x).
Definition set_Plunger_editor_layer_visibility (x : option bool) (s : Plunger) : Plunger := ltac:(setter Plunger_eta Plunger_editor_layer_visibility s x).
Definition set_Plunger_part_group_name (x : option rstring) (s : Plunger) : Plunger := ltac:(setter Plunger_eta Plunger_part_group_name s x).
(** gameitem/plunger.rs:170-212 *)
Definition Plunger_default : Plunger := mkPlunger
  Vertex2D_default
  (Z_to_w32 1103626240) (* 25.0 *)
  (Z_to_w32 1101004800) (* 20.0 *)
  f32_0
  (Z_to_w32 1117782016) (* 80.0 *)
  (Z_to_w32 1056964608) (* 0.5 *)
  (Z_to_w32 1117782016) (* 80.0 *)
  PlungerType_Modern
  (Z_to_w32 1)
  []
  []
  (Z_to_w32 1118437376) (* 85.0 *)
  false
  false
  (Z_to_w32 1042983595) (* 0.5 / 3.0 *)
  f32_0
  (Z_to_w32 1065353216) (* 1.0 *)
  true
  (Some true)
  []
  []
  (lit "0 .34; 2 .6; 3 .64; 5 .7; 7 .84; 8 .88; 9 .9; 11 .92; 14 .92; 39 .84")
  (Z_to_w32 1058642330) (* 0.6 *)
  (Z_to_w32 1073741824) (* 2.0 *)
  (Z_to_w32 1064346583) (* 0.94 *)
  (Z_to_w32 1077936128) (* 3.0 *)
  (Z_to_w32 1061494456) (* 0.77 *)
  (Z_to_w32 1068540887) (* 1.38 *)
  (Z_to_w32 1090519040) (* 8.0 *)
  (Z_to_w32 1075838976) (* 2.5 *)
  TimerData_default
  false
  None
  None
  None
  None.
(** gameitem/plunger.rs:168, the macro at gameitem/select.rs:168-207 *)
Definition Plunger_shared : HasShared Plunger := mkHasShared
  Plunger_is_locked Plunger_editor_layer Plunger_editor_layer_name Plunger_editor_layer_visibility Plunger_part_group_name
  set_Plunger_is_locked set_Plunger_editor_layer set_Plunger_editor_layer_name set_Plunger_editor_layer_visibility set_Plunger_part_group_name.
(** gameitem/plunger.rs:355-477, the arms of the record loop and its fallback *)
Definition Plunger_own_arms : list (arm Plunger) :=
  [
    ("VCEN", fun s => x <- Vertex2D_read ;; rret (set_Plunger_center x s)); (* 370 *)
    ("WDTH", fun s => x <- get_f32 ;; rret (set_Plunger_width x s)); (* 373 *)
    ("HIGH", fun s => x <- get_f32 ;; rret (set_Plunger_height x s)); (* 376 *)
    ("ZADJ", fun s => x <- get_f32 ;; rret (set_Plunger_z_adjust x s)); (* 379 *)
    ("HPSL", fun s => x <- get_f32 ;; rret (set_Plunger_stroke x s)); (* 382 *)
    ("SPDP", fun s => x <- get_f32 ;; rret (set_Plunger_speed_pull x s)); (* 385 *)
    ("SPDF", fun s => x <- get_f32 ;; rret (set_Plunger_speed_fire x s)); (* 388 *)
    ("TYPE", fun s => z <- get_u32 ;; x <- rlift (PlungerType_of_u32 z) ;; rret (set_Plunger_plunger_type x s)); (* 391 *)
    ("ANFR", fun s => x <- get_u32 ;; rret (set_Plunger_anim_frames x s)); (* 394 *)
    ("MATR", fun s => x <- get_string ;; rret (set_Plunger_material x s)); (* 397 *)
    ("IMAG", fun s => x <- get_string ;; rret (set_Plunger_image x s)); (* 400 *)
    ("MEST", fun s => x <- get_f32 ;; rret (set_Plunger_mech_strength x s)); (* 403 *)
    ("MECH", fun s => x <- get_bool ;; rret (set_Plunger_is_mech_plunger x s)); (* 406 *)
    ("APLG", fun s => x <- get_bool ;; rret (set_Plunger_auto_plunger x s)); (* 409 *)
    ("MPRK", fun s => x <- get_f32 ;; rret (set_Plunger_park_position x s)); (* 412 *)
    ("PSCV", fun s => x <- get_f32 ;; rret (set_Plunger_scatter_velocity x s)); (* 415 *)
    ("MOMX", fun s => x <- get_f32 ;; rret (set_Plunger_momentum_xfer x s)); (* 418 *)
    ("VSBL", fun s => x <- get_bool ;; rret (set_Plunger_is_visible x s)); (* 421 *)
    ("REEN", fun s => x <- get_bool ;; rret (set_Plunger_is_reflection_enabled (Some x) s)); (* 424 *)
    ("SURF", fun s => x <- get_string ;; rret (set_Plunger_surface x s)); (* 427 *)
    ("NAME", fun s => x <- get_wide_string ;; rret (set_Plunger_name x s)); (* 430 *)
    ("TIPS", fun s => x <- get_string ;; rret (set_Plunger_tip_shape x s)); (* 433 *)
    ("RODD", fun s => x <- get_f32 ;; rret (set_Plunger_rod_diam x s)); (* 436 *)
    ("RNGG", fun s => x <- get_f32 ;; rret (set_Plunger_ring_gap x s)); (* 439 *)
    ("RNGD", fun s => x <- get_f32 ;; rret (set_Plunger_ring_diam x s)); (* 442 *)
    ("RNGW", fun s => x <- get_f32 ;; rret (set_Plunger_ring_width x s)); (* 445 *)
    ("SPRD", fun s => x <- get_f32 ;; rret (set_Plunger_spring_diam x s)); (* 448 *)
    ("SPRG", fun s => x <- get_f32 ;; rret (set_Plunger_spring_gauge x s)); (* 451 *)
    ("SPRL", fun s => x <- get_f32 ;; rret (set_Plunger_spring_loops x s)); (* 454 *)
    ("SPRE", fun s => x <- get_f32 ;; rret (set_Plunger_spring_end_loops x s)) (* 457 *) ]%string.
Definition Plunger_arms : list (arm Plunger) := Plunger_own_arms ++ lift_arms Plunger_timer set_Plunger_timer TimerData_arms ++ shared_arms Plunger_shared.
Definition Plunger_init : Plunger := set_Plunger_is_reflection_enabled None (Plunger_default).
Definition Plunger_read : rd_M Plunger := read_arms Plunger_arms Plunger_init.
(** gameitem/plunger.rs:479-519 *)
Definition Plunger_write (v : Plunger) : wr_M :=
  write_tagged_with "VCEN" (Vertex2D_write (Plunger_center v)) >>>
  write_tagged_f32 "WDTH" (Plunger_width v) >>>
  write_tagged_f32 "HIGH" (Plunger_height v) >>>
  write_tagged_f32 "ZADJ" (Plunger_z_adjust v) >>>
  write_tagged_f32 "HPSL" (Plunger_stroke v) >>>
  write_tagged_f32 "SPDP" (Plunger_speed_pull v) >>>
  write_tagged_f32 "SPDF" (Plunger_speed_fire v) >>>
  write_tagged_u32 "TYPE" (PlungerType_to_u32 (Plunger_plunger_type v)) >>>
  write_tagged_u32 "ANFR" (Plunger_anim_frames v) >>>
  write_tagged_string "MATR" (Plunger_material v) >>>
  write_tagged_string "IMAG" (Plunger_image v) >>>
  write_tagged_f32 "MEST" (Plunger_mech_strength v) >>>
  write_tagged_bool "MECH" (Plunger_is_mech_plunger v) >>>
  write_tagged_bool "APLG" (Plunger_auto_plunger v) >>>
  write_tagged_f32 "MPRK" (Plunger_park_position v) >>>
  write_tagged_f32 "PSCV" (Plunger_scatter_velocity v) >>>
  write_tagged_f32 "MOMX" (Plunger_momentum_xfer v) >>>
  TimerData_write (Plunger_timer v) >>>
  write_tagged_bool "VSBL" (Plunger_is_visible v) >>>
  wopt (Plunger_is_reflection_enabled v) (fun x => write_tagged_bool "REEN" x) >>>
  write_tagged_string "SURF" (Plunger_surface v) >>>
  write_tagged_wide_string "NAME" (Plunger_name v) >>>
  write_tagged_string "TIPS" (Plunger_tip_shape v) >>>
  write_tagged_f32 "RODD" (Plunger_rod_diam v) >>>
  write_tagged_f32 "RNGG" (Plunger_ring_gap v) >>>
  write_tagged_f32 "RNGD" (Plunger_ring_diam v) >>>
  write_tagged_f32 "RNGW" (Plunger_ring_width v) >>>
  write_tagged_f32 "SPRD" (Plunger_spring_diam v) >>>
  write_tagged_f32 "SPRG" (Plunger_spring_gauge v) >>>
  write_tagged_f32 "SPRL" (Plunger_spring_loops v) >>>
  write_tagged_f32 "SPRE" (Plunger_spring_end_loops v) >>>
  write_shared_attributes Plunger_shared v >>>
  close true.

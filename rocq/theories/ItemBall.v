(** Generated by tools/gen_items.py from src/vpx/gameitem/ball.rs. *)
From Verif Require Import Base Text Biff Quantize Common Enums ItemBase.

(** gameitem/ball.rs:47-166 *)
Record Ball : Type := mkBall {
  Ball_name : rstring;
  Ball_pos : Vertex3D;
  Ball_radius : f32;
  Ball_mass : f32;
  Ball_force_reflection : bool;
  Ball_decal_mode : bool;
  Ball_image : rstring;
  Ball_image_decal : rstring;
  Ball_bulb_intensity_scale : f32;
  Ball_playfield_reflection_strength : f32;
  Ball_color : Color;
  Ball_spherical_mapping : bool;
  Ball_is_reflection_enabled : bool;
  Ball_timer : TimerData;
  Ball_is_locked : bool;
  Ball_editor_layer : option u32;
  Ball_editor_layer_name : option rstring;
  Ball_editor_layer_visibility : option bool;
  Ball_part_group_name : option rstring }.
Definition Ball_eta (s : Ball) : Ball := mkBall (Ball_name s) (Ball_pos s) (Ball_radius s) (Ball_mass s) (Ball_force_reflection s) (Ball_decal_mode s) (Ball_image s) (Ball_image_decal s) (Ball_bulb_intensity_scale s) (Ball_playfield_reflection_strength s) (Ball_color s) (Ball_spherical_mapping s) (Ball_is_reflection_enabled s) (Ball_timer s) (Ball_is_locked s) (Ball_editor_layer s) (Ball_editor_layer_name s) (Ball_editor_layer_visibility s) (Ball_part_group_name s).
(** Assignments to one field. *)
Definition set_Ball_name (x : rstring) (s : Ball) : Ball := ltac:(setter Ball_eta Ball_name s x).
Definition set_Ball_pos (x : Vertex3D) (s : Ball) : Ball := ltac:(setter Ball_eta Ball_pos s x).
Definition set_Ball_radius (x : f32) (s : Ball) : Ball := ltac:(setter Ball_eta Ball_radius s x).
Definition set_Ball_mass (x : f32) (s : Ball) : Ball := ltac:(setter Ball_eta Ball_mass s x).
Definition set_Ball_force_reflection (x : bool) (s : Ball) : Ball := ltac:(setter Ball_eta Ball_force_reflection s x).
Definition set_Ball_decal_mode (x : bool) (s : Ball) : Ball := ltac:(setter Ball_eta Ball_decal_mode s x).
Definition set_Ball_image (x : rstring) (s : Ball) : Ball := ltac:(setter Ball_eta Ball_image s x).
Definition set_Ball_image_decal (x : rstring) (s : Ball) : Ball := ltac:(setter Ball_eta Ball_image_decal s x).
Definition set_Ball_bulb_intensity_scale (x : f32) (s : Ball) : Ball := ltac:(setter Ball_eta Ball_bulb_intensity_scale s x).
Definition set_Ball_playfield_reflection_strength (x : f32) (s : Ball) : Ball := ltac:(setter Ball_eta Ball_playfield_reflection_strength s x).
Definition set_Ball_color (x : Color) (s : Ball) : Ball := ltac:(setter Ball_eta Ball_color s x).
Definition set_Ball_spherical_mapping (x : bool) (s : Ball) : Ball := ltac:(setter Ball_eta Ball_spherical_mapping s x).
Definition set_Ball_is_reflection_enabled (x : bool) (s : Ball) : Ball := ltac:(setter Ball_eta Ball_is_reflection_enabled s x).
Definition set_Ball_timer (x : TimerData) (s : Ball) : Ball := ltac:(setter Ball_eta Ball_timer s x).
Definition set_Ball_is_locked (x : bool) (s : Ball) : Ball := ltac:(setter Ball_eta Ball_is_locked s x).
Definition set_Ball_editor_layer (x : option u32) (s : Ball) : Ball := ltac:(setter Ball_eta Ball_editor_layer s x).
Definition set_Ball_editor_layer_name (x : option rstring) (s : Ball) : Ball := ltac:(setter Ball_eta Ball_editor_layer_name s x).
Definition set_Ball_editor_layer_visibility (x : option bool) (s : Ball) : Ball := ltac:(setter Ball_eta Ball_editor_layer_visibility s x).
Definition set_Ball_part_group_name (x : option rstring) (s : Ball) : Ball := ltac:(setter Ball_eta Ball_part_group_name s x).
(** gameitem/ball.rs:212-236 *)
Definition Ball_default : Ball := mkBall
  []
  (mkVertex3D f32_0 f32_0 (Z_to_w32 1103626240) (* 25.0 *))
  (Z_to_w32 1103626240) (* 25.0 *)
  (Z_to_w32 1065353216) (* 1.0 *)
  false
  false
  []
  []
  (Z_to_w32 1065353216) (* 1.0 *)
  (Z_to_w32 1065353216) (* 1.0 *)
  Color_WHITE
  false
  true
  TimerData_default
  false
  None
  None
  None
  None.
(** gameitem/ball.rs:167, the macro at gameitem/select.rs:168-207 *)
Definition Ball_shared : HasShared Ball := mkHasShared
  Ball_is_locked Ball_editor_layer Ball_editor_layer_name Ball_editor_layer_visibility Ball_part_group_name
  set_Ball_is_locked set_Ball_editor_layer set_Ball_editor_layer_name set_Ball_editor_layer_visibility set_Ball_part_group_name.
(** gameitem/ball.rs:283-350, the arms of the record loop and its fallback *)
Definition Ball_own_arms : list (arm Ball) :=
  [
    ("VCEN", fun s => x <- Vertex3D_read_unpadded ;; rret (set_Ball_pos x s)); (* 295 *)
    ("RADI", fun s => x <- get_f32 ;; rret (set_Ball_radius x s)); (* 298 *)
    ("MASS", fun s => x <- get_f32 ;; rret (set_Ball_mass x s)); (* 301 *)
    ("FREF", fun s => x <- get_bool ;; rret (set_Ball_force_reflection x s)); (* 304 *)
    ("DCMD", fun s => x <- get_bool ;; rret (set_Ball_decal_mode x s)); (* 307 *)
    ("IMAG", fun s => x <- get_string ;; rret (set_Ball_image x s)); (* 310 *)
    ("DIMG", fun s => x <- get_string ;; rret (set_Ball_image_decal x s)); (* 313 *)
    ("BISC", fun s => x <- get_f32 ;; rret (set_Ball_bulb_intensity_scale x s)); (* 316 *)
    ("PFRF", fun s => x <- get_f32 ;; rret (set_Ball_playfield_reflection_strength x s)); (* 319 *)
    ("COLR", fun s => x <- Color_read ;; rret (set_Ball_color x s)); (* 322 *)
    ("SPHR", fun s => x <- get_bool ;; rret (set_Ball_spherical_mapping x s)); (* 325 *)
    ("REEN", fun s => x <- get_bool ;; rret (set_Ball_is_reflection_enabled x s)); (* 328 *)
    ("NAME", fun s => x <- get_wide_string ;; rret (set_Ball_name x s)) (* 331 *) ]%string.
Definition Ball_arms : list (arm Ball) := Ball_own_arms ++ lift_arms Ball_timer set_Ball_timer TimerData_arms ++ shared_arms Ball_shared.
Definition Ball_init : Ball := Ball_default.
Definition Ball_read : rd_M Ball := read_arms Ball_arms Ball_init.
(** gameitem/ball.rs:352-373 *)
Definition Ball_write (v : Ball) : wr_M :=
  write_tagged_with "VCEN" (Vertex3D_write_unpadded (Ball_pos v)) >>>
  write_tagged_f32 "RADI" (Ball_radius v) >>>
  write_tagged_f32 "MASS" (Ball_mass v) >>>
  write_tagged_bool "FREF" (Ball_force_reflection v) >>>
  write_tagged_bool "DCMD" (Ball_decal_mode v) >>>
  write_tagged_string "IMAG" (Ball_image v) >>>
  write_tagged_string "DIMG" (Ball_image_decal v) >>>
  write_tagged_f32 "BISC" (Ball_bulb_intensity_scale v) >>>
  write_tagged_f32 "PFRF" (Ball_playfield_reflection_strength v) >>>
  write_tagged_with "COLR" (Color_write (Ball_color v)) >>>
  write_tagged_bool "SPHR" (Ball_spherical_mapping v) >>>
  write_tagged_bool "REEN" (Ball_is_reflection_enabled v) >>>
  TimerData_write (Ball_timer v) >>>
  write_tagged_wide_string "NAME" (Ball_name v) >>>
  write_shared_attributes Ball_shared v >>>
  close true.

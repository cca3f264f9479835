(** Generated by tools/gen_items.py from src/vpx/gameitem/reel.rs. *)
From Verif Require Import Base Text Biff Quantize Common Enums ItemBase.

(** gameitem/reel.rs:13-45 *)
Record Reel : Type := mkReel {
  Reel_ver1 : Vertex2D;
  Reel_ver2 : Vertex2D;
  Reel_back_color : Color;
  Reel_is_transparent : bool;
  Reel_image : rstring;
  Reel_sound : rstring;
  Reel_name : rstring;
  Reel_width : f32;
  Reel_height : f32;
  Reel_reel_count : f32;
  Reel_reel_spacing : f32;
  Reel_motor_steps : f32;
  Reel_digit_range : f32;
  Reel_update_interval : u32;
  Reel_use_image_grid : bool;
  Reel_is_visible : bool;
  Reel_images_per_grid_row : u32;
  Reel_timer : TimerData;
  Reel_is_locked : bool;
  Reel_editor_layer : option u32;
  Reel_editor_layer_name : option rstring;
  Reel_editor_layer_visibility : option bool;
  Reel_part_group_name : option rstring }.
Definition Reel_eta (s : Reel) : Reel := mkReel (Reel_ver1 s) (Reel_ver2 s) (Reel_back_color s) (Reel_is_transparent s) (Reel_image s) (Reel_sound s) (Reel_name s) (Reel_width s) (Reel_height s) (Reel_reel_count s) (Reel_reel_spacing s) (Reel_motor_steps s) (Reel_digit_range s) (Reel_update_interval s) (Reel_use_image_grid s) (Reel_is_visible s) (Reel_images_per_grid_row s) (Reel_timer s) (Reel_is_locked s) (Reel_editor_layer s) (Reel_editor_layer_name s) (Reel_editor_layer_visibility s) (Reel_part_group_name s).
(** Assignments to one field. *)
Definition set_Reel_ver1 (x : Vertex2D) (s : Reel) : Reel := ltac:(setter Reel_eta Reel_ver1 s x).
Definition set_Reel_ver2 (x : Vertex2D) (s : Reel) : Reel := ltac:(setter Reel_eta Reel_ver2 s x).
Definition set_Reel_back_color (x : Color) (s : Reel) : Reel := ltac:(setter Reel_eta Reel_back_color s x).
Definition set_Reel_is_transparent (x : bool) (s : Reel) : Reel := ltac:(setter Reel_eta Reel_is_transparent s x).
Definition set_Reel_image (x : rstring) (s : Reel) : Reel := ltac:(setter Reel_eta Reel_image s x).
Definition set_Reel_sound (x : rstring) (s : Reel) : Reel := ltac:(setter Reel_eta Reel_sound s x).
Definition set_Reel_name (x : rstring) (s : Reel) : Reel := ltac:(setter Reel_eta Reel_name s x).
Definition set_Reel_width (x : f32) (s : Reel) : Reel := ltac:(setter Reel_eta Reel_width s x).
Definition set_Reel_height (x : f32) (s : Reel) : Reel := ltac:(setter Reel_eta Reel_height s x).
Definition set_Reel_reel_count (x : f32) (s : Reel) : Reel := ltac:(setter Reel_eta Reel_reel_count s x).
Definition set_Reel_reel_spacing (x : f32) (s : Reel) : Reel := ltac:(setter Reel_eta Reel_reel_spacing s x).
Definition set_Reel_motor_steps (x : f32) (s : Reel) : Reel := ltac:(setter Reel_eta Reel_motor_steps s x).
Definition set_Reel_digit_range (x : f32) (s : Reel) : Reel := ltac:(setter Reel_eta Reel_digit_range s x).
Definition set_Reel_update_interval (x : u32) (s : Reel) : Reel := ltac:(setter Reel_eta Reel_update_interval s x).
Definition set_Reel_use_image_grid (x : bool) (s : Reel) : Reel := ltac:(setter Reel_eta Reel_use_image_grid s x).
Definition set_Reel_is_visible (x : bool) (s : Reel) : Reel := ltac:(setter Reel_eta Reel_is_visible s x).
Definition set_Reel_images_per_grid_row (x : u32) (s : Reel) : Reel := ltac:(setter Reel_eta Reel_images_per_grid_row s x).
Definition set_Reel_timer (x : TimerData) (s : Reel) : Reel := ltac:(setter Reel_eta Reel_timer s x).
Definition set_Reel_is_locked (x : bool) (s : Reel) : Reel := ltac:(setter Reel_eta Reel_is_locked s x).
Definition set_Reel_editor_layer (x : option u32) (s : Reel) : Reel := ltac:(setter Reel_eta Reel_editor_layer s x).
Definition set_Reel_editor_layer_name (x : option rstring) (s : Reel) : Reel := ltac:(setter Reel_eta Reel_editor_layer_name s x).
Definition set_Reel_editor_layer_visibility (x : option bool) (s : Reel) : Reel := ltac:(setter Reel_eta Reel_editor_layer_visibility s x).
Definition set_Reel_part_group_name (x : option rstring) (s : Reel) : Reel := ltac:(setter Reel_eta Reel_part_group_name s x).
(** gameitem/reel.rs:130-158 *)
Definition Reel_default : Reel := mkReel
  Vertex2D_default
  Vertex2D_default
  (Color_rgb 64 64 64)
  false
  []
  []
  []
  (Z_to_w32 1106247680) (* 30.0 *)
  (Z_to_w32 1109393408) (* 40.0 *)
  (Z_to_w32 1084227584) (* 5.0 *)
  (Z_to_w32 1082130432) (* 4.0 *)
  (Z_to_w32 1073741824) (* 2.0 *)
  (Z_to_w32 1091567616) (* 9.0 *)
  (Z_to_w32 50)
  false
  true
  (Z_to_w32 1)
  TimerData_default
  false
  None
  None
  None
  None.
(** gameitem/reel.rs:46, the macro at gameitem/select.rs:168-207 *)
Definition Reel_shared : HasShared Reel := mkHasShared
  Reel_is_locked Reel_editor_layer Reel_editor_layer_name Reel_editor_layer_visibility Reel_part_group_name
  set_Reel_is_locked set_Reel_editor_layer set_Reel_editor_layer_name set_Reel_editor_layer_visibility set_Reel_part_group_name.
(** gameitem/reel.rs:179-258, the arms of the record loop and its fallback *)
Definition Reel_own_arms : list (arm Reel) :=
  [
    ("VER1", fun s => x <- Vertex2D_read ;; rret (set_Reel_ver1 x s)); (* 191 *)
    ("VER2", fun s => x <- Vertex2D_read ;; rret (set_Reel_ver2 x s)); (* 194 *)
    ("CLRB", fun s => x <- Color_read ;; rret (set_Reel_back_color x s)); (* 197 *)
    ("TRNS", fun s => x <- get_bool ;; rret (set_Reel_is_transparent x s)); (* 200 *)
    ("IMAG", fun s => x <- get_string ;; rret (set_Reel_image x s)); (* 203 *)
    ("SOUN", fun s => x <- get_string ;; rret (set_Reel_sound x s)); (* 206 *)
    ("NAME", fun s => x <- get_wide_string ;; rret (set_Reel_name x s)); (* 209 *)
    ("WDTH", fun s => x <- get_f32 ;; rret (set_Reel_width x s)); (* 212 *)
    ("HIGH", fun s => x <- get_f32 ;; rret (set_Reel_height x s)); (* 215 *)
    ("RCNT", fun s => x <- get_f32 ;; rret (set_Reel_reel_count x s)); (* 218 *)
    ("RSPC", fun s => x <- get_f32 ;; rret (set_Reel_reel_spacing x s)); (* 221 *)
    ("MSTP", fun s => x <- get_f32 ;; rret (set_Reel_motor_steps x s)); (* 224 *)
    ("RANG", fun s => x <- get_f32 ;; rret (set_Reel_digit_range x s)); (* 227 *)
    ("UPTM", fun s => x <- get_u32 ;; rret (set_Reel_update_interval x s)); (* 230 *)
    ("UGRD", fun s => x <- get_bool ;; rret (set_Reel_use_image_grid x s)); (* 233 *)
    ("VISI", fun s => x <- get_bool ;; rret (set_Reel_is_visible x s)); (* 236 *)
    ("GIPR", fun s => x <- get_u32 ;; rret (set_Reel_images_per_grid_row x s)) (* 239 *) ]%string.
Definition Reel_arms : list (arm Reel) := Reel_own_arms ++ lift_arms Reel_timer set_Reel_timer TimerData_arms ++ shared_arms Reel_shared.
Definition Reel_init : Reel := Reel_default.
Definition Reel_read : rd_M Reel := read_arms Reel_arms Reel_init.
(** gameitem/reel.rs:260-285 *)
Definition Reel_write (v : Reel) : wr_M :=
  write_tagged_with "VER1" (Vertex2D_write (Reel_ver1 v)) >>>
  write_tagged_with "VER2" (Vertex2D_write (Reel_ver2 v)) >>>
  write_tagged_with "CLRB" (Color_write (Reel_back_color v)) >>>
  TimerData_write (Reel_timer v) >>>
  write_tagged_bool "TRNS" (Reel_is_transparent v) >>>
  write_tagged_string "IMAG" (Reel_image v) >>>
  write_tagged_string "SOUN" (Reel_sound v) >>>
  write_tagged_wide_string "NAME" (Reel_name v) >>>
  write_tagged_f32 "WDTH" (Reel_width v) >>>
  write_tagged_f32 "HIGH" (Reel_height v) >>>
  write_tagged_f32 "RCNT" (Reel_reel_count v) >>>
  write_tagged_f32 "RSPC" (Reel_reel_spacing v) >>>
  write_tagged_f32 "MSTP" (Reel_motor_steps v) >>>
  write_tagged_f32 "RANG" (Reel_digit_range v) >>>
  write_tagged_u32 "UPTM" (Reel_update_interval v) >>>
  write_tagged_bool "UGRD" (Reel_use_image_grid v) >>>
  write_tagged_bool "VISI" (Reel_is_visible v) >>>
  write_tagged_u32 "GIPR" (Reel_images_per_grid_row v) >>>
  write_shared_attributes Reel_shared v >>>
  close true.

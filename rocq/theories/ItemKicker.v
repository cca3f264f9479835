(** Generated by tools/gen_items.py from src/vpx/gameitem/kicker.rs. *)
From Verif Require Import Base Text Biff Quantize Common Enums ItemBase.

(** gameitem/kicker.rs:137-168 *)
Record Kicker : Type := mkKicker {
  Kicker_center : Vertex2D;
  Kicker_radius : f32;
  Kicker_material : rstring;
  Kicker_surface : rstring;
  Kicker_is_enabled : bool;
  Kicker_name : rstring;
  Kicker_kicker_type : KickerType;
  Kicker_scatter : f32;
  Kicker_hit_accuracy : f32;
  Kicker_hit_height : option f32;
  Kicker_orientation : f32;
  Kicker_fall_through : bool;
  Kicker_legacy_mode : bool;
  Kicker_timer : TimerData;
  Kicker_is_locked : bool;
  Kicker_editor_layer : option u32;
  Kicker_editor_layer_name : option rstring;
  Kicker_editor_layer_visibility : option bool;
  Kicker_part_group_name : option rstring }.
Definition Kicker_eta (s : Kicker) : Kicker := mkKicker (Kicker_center s) (Kicker_radius s) (Kicker_material s) (Kicker_surface s) (Kicker_is_enabled s) (Kicker_name s) (Kicker_kicker_type s) (Kicker_scatter s) (Kicker_hit_accuracy s) (Kicker_hit_height s) (Kicker_orientation s) (Kicker_fall_through s) (Kicker_legacy_mode s) (Kicker_timer s) (Kicker_is_locked s) (Kicker_editor_layer s) (Kicker_editor_layer_name s) (Kicker_editor_layer_visibility s) (Kicker_part_group_name s).
(** Assignments to one field. *)
Definition set_Kicker_center (x : Vertex2D) (s : Kicker) : Kicker := ltac:(setter Kicker_eta Kicker_center s x).
Definition set_Kicker_radius (x : f32) (s : Kicker) : Kicker := ltac:(setter Kicker_eta Kicker_radius s x).
Definition set_Kicker_material (x : rstring) (s : Kicker) : Kicker := ltac:(setter Kicker_eta Kicker_material s x).
Definition set_Kicker_surface (x : rstring) (s : Kicker) : Kicker := ltac:(setter Kicker_eta Kicker_surface s x).
Definition set_Kicker_is_enabled (x : bool) (s : Kicker) : Kicker := ltac:(setter Kicker_eta Kicker_is_enabled s x).
Definition set_Kicker_name (x : rstring) (s : Kicker) : Kicker := ltac:(setter Kicker_eta Kicker_name s x).
Definition set_Kicker_kicker_type (x : KickerType) (s : Kicker) : Kicker := ltac:(setter Kicker_eta Kicker_kicker_type s x).
Definition set_Kicker_scatter (x : f32) (s : Kicker) : Kicker := ltac:(setter Kicker_eta Kicker_scatter s x).
Definition set_Kicker_hit_accuracy (x : f32) (s : Kicker) : Kicker := ltac:(setter Kicker_eta Kicker_hit_accuracy s x).
Definition set_Kicker_hit_height (x : option f32) (s : Kicker) : Kicker := ltac:(setter Kicker_eta Kicker_hit_height s x).
Definition set_Kicker_orientation (x : f32) (s : Kicker) : Kicker := ltac:(setter Kicker_eta Kicker_orientation s x).
Definition set_Kicker_fall_through (x : bool) (s : Kicker) : Kicker := ltac:(setter Kicker_eta Kicker_fall_through s x).
Definition set_Kicker_legacy_mode (x : bool) (s : Kicker) : Kicker := ltac:(setter Kicker_eta Kicker_legacy_mode s x).
Definition set_Kicker_timer (x : TimerData) (s : Kicker) : Kicker := ltac:(setter Kicker_eta Kicker_timer s x).
Definition set_Kicker_is_locked (x : bool) (s : Kicker) : Kicker := ltac:(setter Kicker_eta Kicker_is_locked s x).
Definition set_Kicker_editor_layer (x : option u32) (s : Kicker) : Kicker := ltac:(setter Kicker_eta Kicker_editor_layer s x).
Definition set_Kicker_editor_layer_name (x : option rstring) (s : Kicker) : Kicker := ltac:(setter Kicker_eta Kicker_editor_layer_name s x).
Definition set_Kicker_editor_layer_visibility (x : option bool) (s : Kicker) : Kicker := ltac:(setter Kicker_eta Kicker_editor_layer_visibility s x).
Definition set_Kicker_part_group_name (x : option rstring) (s : Kicker) : Kicker := ltac:(setter Kicker_eta Kicker_part_group_name s x).
(** gameitem/kicker.rs:261-285 *)
Definition Kicker_default : Kicker := mkKicker
  Vertex2D_default
  (Z_to_w32 1103626240) (* 25.0 *)
  []
  []
  true
  []
  KickerType_Hole
  f32_0
  (Z_to_w32 1060320051) (* 0.7 *)
  None
  f32_0
  false
  true
  TimerData_default
  false
  None
  None
  None
  None.
(** gameitem/kicker.rs:169, the macro at gameitem/select.rs:168-207 *)
Definition Kicker_shared : HasShared Kicker := mkHasShared
  Kicker_is_locked Kicker_editor_layer Kicker_editor_layer_name Kicker_editor_layer_visibility Kicker_part_group_name
  set_Kicker_is_locked set_Kicker_editor_layer set_Kicker_editor_layer_name set_Kicker_editor_layer_visibility set_Kicker_part_group_name.
(** gameitem/kicker.rs:287-354, the arms of the record loop and its fallback *)
Definition Kicker_own_arms : list (arm Kicker) :=
  [
    ("VCEN", fun s => x <- Vertex2D_read ;; rret (set_Kicker_center x s)); (* 299 *)
    ("RADI", fun s => x <- get_f32 ;; rret (set_Kicker_radius x s)); (* 302 *)
    ("MATR", fun s => x <- get_string ;; rret (set_Kicker_material x s)); (* 305 *)
    ("SURF", fun s => x <- get_string ;; rret (set_Kicker_surface x s)); (* 308 *)
    ("EBLD", fun s => x <- get_bool ;; rret (set_Kicker_is_enabled x s)); (* 311 *)
    ("NAME", fun s => x <- get_wide_string ;; rret (set_Kicker_name x s)); (* 314 *)
    ("TYPE", fun s => z <- get_u32 ;; x <- rlift (KickerType_of_u32 z) ;; rret (set_Kicker_kicker_type x s)); (* 317 *)
    ("KSCT", fun s => x <- get_f32 ;; rret (set_Kicker_scatter x s)); (* 320 *)
    ("KHAC", fun s => x <- get_f32 ;; rret (set_Kicker_hit_accuracy x s)); (* 323 *)
    ("KHHI", fun s => x <- get_f32 ;; rret (set_Kicker_hit_height (Some x) s)); (* 326 *)
    ("KORI", fun s => x <- get_f32 ;; rret (set_Kicker_orientation x s)); (* 329 *)
    ("FATH", fun s => x <- get_bool ;; rret (set_Kicker_fall_through x s)); (* 332 *)
    ("LEMO", fun s => x <- get_bool ;; rret (set_Kicker_legacy_mode x s)) (* 335 *) ]%string.
Definition Kicker_arms : list (arm Kicker) := Kicker_own_arms ++ lift_arms Kicker_timer set_Kicker_timer TimerData_arms ++ shared_arms Kicker_shared.
Definition Kicker_init : Kicker := Kicker_default.
Definition Kicker_read : rd_M Kicker := read_arms Kicker_arms Kicker_init.
(** gameitem/kicker.rs:356-379 *)
Definition Kicker_write (v : Kicker) : wr_M :=
  write_tagged_with "VCEN" (Vertex2D_write (Kicker_center v)) >>>
  write_tagged_f32 "RADI" (Kicker_radius v) >>>
  TimerData_write (Kicker_timer v) >>>
  write_tagged_string "MATR" (Kicker_material v) >>>
  write_tagged_string "SURF" (Kicker_surface v) >>>
  write_tagged_bool "EBLD" (Kicker_is_enabled v) >>>
  write_tagged_wide_string "NAME" (Kicker_name v) >>>
  write_tagged_u32 "TYPE" (KickerType_to_u32 (Kicker_kicker_type v)) >>>
  write_tagged_f32 "KSCT" (Kicker_scatter v) >>>
  write_tagged_f32 "KHAC" (Kicker_hit_accuracy v) >>>
  wopt (Kicker_hit_height v) (fun x => write_tagged_f32 "KHHI" x) >>>
  write_tagged_f32 "KORI" (Kicker_orientation v) >>>
  write_tagged_bool "FATH" (Kicker_fall_through v) >>>
  write_tagged_bool "LEMO" (Kicker_legacy_mode v) >>>
  write_shared_attributes Kicker_shared v >>>
  close true.

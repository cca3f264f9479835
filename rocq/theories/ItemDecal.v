(** Generated by tools/gen_items.py from src/vpx/gameitem/decal.rs. *)
From Verif Require Import Base Text Biff Quantize Common Enums ItemBase.

(** gameitem/decal.rs:166-197 *)
Record Decal : Type := mkDecal {
  Decal_center : Vertex2D;
  Decal_width : f32;
  Decal_height : f32;
  Decal_rotation : f32;
  Decal_image : rstring;
  Decal_surface : rstring;
  Decal_name : rstring;
  Decal_text : rstring;
  Decal_decal_type : DecalType;
  Decal_material : rstring;
  Decal_color : Color;
  Decal_sizing_type : SizingType;
  Decal_vertical_text : bool;
  Decal_backglass : bool;
  Decal_font : FontDesc;
  Decal_is_locked : bool;
  Decal_editor_layer : option u32;
  Decal_editor_layer_name : option rstring;
  Decal_editor_layer_visibility : option bool;
  Decal_part_group_name : option rstring }.
Definition Decal_eta (s : Decal) : Decal := mkDecal (Decal_center s) (Decal_width s) (Decal_height s) (Decal_rotation s) (Decal_image s) (Decal_surface s) (Decal_name s) (Decal_text s) (Decal_decal_type s) (Decal_material s) (Decal_color s) (Decal_sizing_type s) (Decal_vertical_text s) (Decal_backglass s) (Decal_font s) (Decal_is_locked s) (Decal_editor_layer s) (Decal_editor_layer_name s) (Decal_editor_layer_visibility s) (Decal_part_group_name s).
(** Assignments to one field. *)
Definition set_Decal_center (x : Vertex2D) (s : Decal) : Decal := ltac:(setter Decal_eta Decal_center s x).
Definition set_Decal_width (x : f32) (s : Decal) : Decal := ltac:(setter Decal_eta Decal_width s x).
Definition set_Decal_height (x : f32) (s : Decal) : Decal := ltac:(setter Decal_eta Decal_height s x).
Definition set_Decal_rotation (x : f32) (s : Decal) : Decal := ltac:(setter Decal_eta Decal_rotation s x).
Definition set_Decal_image (x : rstring) (s : Decal) : Decal := ltac:(setter Decal_eta Decal_image s x).
Definition set_Decal_surface (x : rstring) (s : Decal) : Decal := ltac:(setter Decal_eta Decal_surface s x).
Definition set_Decal_name (x : rstring) (s : Decal) : Decal := ltac:(setter Decal_eta Decal_name s x).
Definition set_Decal_text (x : rstring) (s : Decal) : Decal := ltac:(setter Decal_eta Decal_text s x).
Definition set_Decal_decal_type (x : DecalType) (s : Decal) : Decal := ltac:(setter Decal_eta Decal_decal_type s x).
Definition set_Decal_material (x : rstring) (s : Decal) : Decal := ltac:(setter Decal_eta Decal_material s x).
Definition set_Decal_color (x : Color) (s : Decal) : Decal := ltac:(setter Decal_eta Decal_color s x).
Definition set_Decal_sizing_type (x : SizingType) (s : Decal) : Decal := ltac:(setter Decal_eta Decal_sizing_type s x).
Definition set_Decal_vertical_text (x : bool) (s : Decal) : Decal := ltac:(setter Decal_eta Decal_vertical_text s x).
Definition set_Decal_backglass (x : bool) (s : Decal) : Decal := ltac:(setter Decal_eta Decal_backglass s x).
Definition set_Decal_font (x : FontDesc) (s : Decal) : Decal := ltac:(setter Decal_eta Decal_font s x).
Definition set_Decal_is_locked (x : bool) (s : Decal) : Decal := ltac:(setter Decal_eta Decal_is_locked s x).
Definition set_Decal_editor_layer (x : option u32) (s : Decal) : Decal := ltac:(setter Decal_eta Decal_editor_layer s x).
Definition set_Decal_editor_layer_name (x : option rstring) (s : Decal) : Decal := ltac:(setter Decal_eta Decal_editor_layer_name s x).
Definition set_Decal_editor_layer_visibility (x : option bool) (s : Decal) : Decal := ltac:(setter Decal_eta Decal_editor_layer_visibility s x).
Definition set_Decal_part_group_name (x : option rstring) (s : Decal) : Decal := ltac:(setter Decal_eta Decal_part_group_name s x).
(** gameitem/decal.rs:273-298 *)
Definition Decal_default : Decal := mkDecal
  Vertex2D_default
  (Z_to_w32 1120403456) (* 100.0 *)
  (Z_to_w32 1120403456) (* 100.0 *)
  f32_0
  []
  []
  []
  []
  DecalType_Image
  []
  (Color_from_rgb 0)
  SizingType_ManualSize
  false
  false
  FontDesc_default
  false
  None
  None
  None
  None.
(** gameitem/decal.rs:198, the macro at gameitem/select.rs:168-207 *)
Definition Decal_shared : HasShared Decal := mkHasShared
  Decal_is_locked Decal_editor_layer Decal_editor_layer_name Decal_editor_layer_visibility Decal_part_group_name
  set_Decal_is_locked set_Decal_editor_layer set_Decal_editor_layer_name set_Decal_editor_layer_visibility set_Decal_part_group_name.
(** gameitem/decal.rs:325-396, the arms of the record loop and its fallback *)
Definition Decal_own_arms : list (arm Decal) :=
  [
    ("VCEN", fun s => x <- Vertex2D_read ;; rret (set_Decal_center x s)); (* 336 *)
    ("WDTH", fun s => x <- get_f32 ;; rret (set_Decal_width x s)); (* 339 *)
    ("HIGH", fun s => x <- get_f32 ;; rret (set_Decal_height x s)); (* 342 *)
    ("ROTA", fun s => x <- get_f32 ;; rret (set_Decal_rotation x s)); (* 345 *)
    ("IMAG", fun s => x <- get_string ;; rret (set_Decal_image x s)); (* 348 *)
    ("SURF", fun s => x <- get_string ;; rret (set_Decal_surface x s)); (* 351 *)
    ("NAME", fun s => x <- get_wide_string ;; rret (set_Decal_name x s)); (* 354 *)
    ("TEXT", fun s => x <- get_string ;; rret (set_Decal_text x s)); (* 357 *)
    ("TYPE", fun s => z <- get_u32 ;; x <- rlift (DecalType_of_u32 z) ;; rret (set_Decal_decal_type x s)); (* 360 *)
    ("MATR", fun s => x <- get_string ;; rret (set_Decal_material x s)); (* 363 *)
    ("COLR", fun s => x <- Color_read ;; rret (set_Decal_color x s)); (* 366 *)
    ("SIZE", fun s => z <- get_u32 ;; x <- rlift (SizingType_of_u32 z) ;; rret (set_Decal_sizing_type x s)); (* 369 *)
    ("VERT", fun s => x <- get_bool ;; rret (set_Decal_vertical_text x s)); (* 372 *)
    ("BGLS", fun s => x <- get_bool ;; rret (set_Decal_backglass x s)); (* 375 *)
    ("FONT", fun s => x <- FontDesc_read ;; rret (set_Decal_font x s)) (* 379 *) ]%string.
Definition Decal_arms : list (arm Decal) := Decal_own_arms ++ shared_arms Decal_shared.
Definition Decal_init : Decal := Decal_default.
Definition Decal_read : rd_M Decal := read_arms Decal_arms Decal_init.
(** gameitem/decal.rs:398-421 *)
Definition Decal_write (v : Decal) : wr_M :=
  write_tagged_with "VCEN" (Vertex2D_write (Decal_center v)) >>>
  write_tagged_f32 "WDTH" (Decal_width v) >>>
  write_tagged_f32 "HIGH" (Decal_height v) >>>
  write_tagged_f32 "ROTA" (Decal_rotation v) >>>
  write_tagged_string "IMAG" (Decal_image v) >>>
  write_tagged_string "SURF" (Decal_surface v) >>>
  write_tagged_wide_string "NAME" (Decal_name v) >>>
  write_tagged_string "TEXT" (Decal_text v) >>>
  write_tagged_u32 "TYPE" (DecalType_to_u32 (Decal_decal_type v)) >>>
  write_tagged_string "MATR" (Decal_material v) >>>
  write_tagged_with "COLR" (Color_write (Decal_color v)) >>>
  write_tagged_u32 "SIZE" (SizingType_to_u32 (Decal_sizing_type v)) >>>
  write_tagged_bool "VERT" (Decal_vertical_text v) >>>
  write_tagged_bool "BGLS" (Decal_backglass v) >>>
  write_shared_attributes Decal_shared v >>>
  write_tagged_without_size "FONT" (FontDesc_write (Decal_font v)) >>>
  close true.

(** Generated by tools/gen_items.py from src/vpx/gameitem/textbox.rs. *)
From Verif Require Import Base Text Biff Quantize Common Enums ItemBase.

(** gameitem/textbox.rs:110-137 *)
Record TextBox : Type := mkTextBox {
  TextBox_ver1 : Vertex2D;
  TextBox_ver2 : Vertex2D;
  TextBox_back_color : Color;
  TextBox_font_color : Color;
  TextBox_intensity_scale : f32;
  TextBox_text : rstring;
  TextBox_name : rstring;
  TextBox_align : TextAlignment;
  TextBox_is_transparent : bool;
  TextBox_is_dmd : option bool;
  TextBox_font : FontDesc;
  TextBox_timer : TimerData;
  TextBox_is_locked : bool;
  TextBox_editor_layer : option u32;
  TextBox_editor_layer_name : option rstring;
  TextBox_editor_layer_visibility : option bool;
  TextBox_part_group_name : option rstring }.
Definition TextBox_eta (s : TextBox) : TextBox := mkTextBox (TextBox_ver1 s) (TextBox_ver2 s) (TextBox_back_color s) (TextBox_font_color s) (TextBox_intensity_scale s) (TextBox_text s) (TextBox_name s) (TextBox_align s) (TextBox_is_transparent s) (TextBox_is_dmd s) (TextBox_font s) (TextBox_timer s) (TextBox_is_locked s) (TextBox_editor_layer s) (TextBox_editor_layer_name s) (TextBox_editor_layer_visibility s) (TextBox_part_group_name s).
(** Assignments to one field. *)
Definition set_TextBox_ver1 (x : Vertex2D) (s : TextBox) : TextBox := ltac:(setter TextBox_eta TextBox_ver1 s x).
Definition set_TextBox_ver2 (x : Vertex2D) (s : TextBox) : TextBox := ltac:(setter TextBox_eta TextBox_ver2 s x).
Definition set_TextBox_back_color (x : Color) (s : TextBox) : TextBox := ltac:(setter TextBox_eta TextBox_back_color s x).
Definition set_TextBox_font_color (x : Color) (s : TextBox) : TextBox := ltac:(setter TextBox_eta TextBox_font_color s x).
Definition set_TextBox_intensity_scale (x : f32) (s : TextBox) : TextBox := ltac:(setter TextBox_eta TextBox_intensity_scale s x).
Definition set_TextBox_text (x : rstring) (s : TextBox) : TextBox := ltac:(setter TextBox_eta TextBox_text s x).
Definition set_TextBox_name (x : rstring) (s : TextBox) : TextBox := ltac:(setter TextBox_eta TextBox_name s x).
Definition set_TextBox_align (x : TextAlignment) (s : TextBox) : TextBox := ltac:(setter TextBox_eta TextBox_align s x).
Definition set_TextBox_is_transparent (x : bool) (s : TextBox) : TextBox := ltac:(setter TextBox_eta TextBox_is_transparent s x).
Definition set_TextBox_is_dmd (x : option bool) (s : TextBox) : TextBox := ltac:(setter TextBox_eta TextBox_is_dmd s x).
Definition set_TextBox_font (x : FontDesc) (s : TextBox) : TextBox := ltac:(setter TextBox_eta TextBox_font s x).
Definition set_TextBox_timer (x : TimerData) (s : TextBox) : TextBox := ltac:(setter TextBox_eta TextBox_timer s x).
Definition set_TextBox_is_locked (x : bool) (s : TextBox) : TextBox := ltac:(setter TextBox_eta TextBox_is_locked s x).
Definition set_TextBox_editor_layer (x : option u32) (s : TextBox) : TextBox := ltac:(setter TextBox_eta TextBox_editor_layer s x).
Definition set_TextBox_editor_layer_name (x : option rstring) (s : TextBox) : TextBox := ltac:(setter TextBox_eta TextBox_editor_layer_name s x).
Definition set_TextBox_editor_layer_visibility (x : option bool) (s : TextBox) : TextBox := ltac:(setter TextBox_eta TextBox_editor_layer_visibility s x).
Definition set_TextBox_part_group_name (x : option rstring) (s : TextBox) : TextBox := ltac:(setter TextBox_eta TextBox_part_group_name s x).
(** gameitem/textbox.rs:224-246 *)
Definition TextBox_default : TextBox := mkTextBox
  Vertex2D_default
  Vertex2D_default
  Color_BLACK
  Color_WHITE
  (Z_to_w32 1065353216) (* 1.0 *)
  []
  []
  TextAlignment_Left
  false
  None
  FontDesc_default
  TimerData_default
  false
  None
  None
  None
  None.
(** gameitem/textbox.rs:138, the macro at gameitem/select.rs:168-207 *)
Definition TextBox_shared : HasShared TextBox := mkHasShared
  TextBox_is_locked TextBox_editor_layer TextBox_editor_layer_name TextBox_editor_layer_visibility TextBox_part_group_name
  set_TextBox_is_locked set_TextBox_editor_layer set_TextBox_editor_layer_name set_TextBox_editor_layer_visibility set_TextBox_part_group_name.
(** gameitem/textbox.rs:248-310, the arms of the record loop and its fallback *)
Definition TextBox_own_arms : list (arm TextBox) :=
  [
    ("VER1", fun s => x <- Vertex2D_read ;; rret (set_TextBox_ver1 x s)); (* 260 *)
    ("VER2", fun s => x <- Vertex2D_read ;; rret (set_TextBox_ver2 x s)); (* 263 *)
    ("CLRB", fun s => x <- Color_read ;; rret (set_TextBox_back_color x s)); (* 266 *)
    ("CLRF", fun s => x <- Color_read ;; rret (set_TextBox_font_color x s)); (* 269 *)
    ("INSC", fun s => x <- get_f32 ;; rret (set_TextBox_intensity_scale x s)); (* 272 *)
    ("TEXT", fun s => x <- get_string ;; rret (set_TextBox_text x s)); (* 275 *)
    ("NAME", fun s => x <- get_wide_string ;; rret (set_TextBox_name x s)); (* 278 *)
    ("ALGN", fun s => z <- get_u32 ;; x <- rlift (TextAlignment_of_u32 z) ;; rret (set_TextBox_align x s)); (* 281 *)
    ("TRNS", fun s => x <- get_bool ;; rret (set_TextBox_is_transparent x s)); (* 284 *)
    ("IDMD", fun s => x <- get_bool ;; rret (set_TextBox_is_dmd (Some x) s)); (* 287 *)
    ("FONT", fun s => x <- FontDesc_read ;; rret (set_TextBox_font x s)) (* 291 *) ]%string.
Definition TextBox_arms : list (arm TextBox) := TextBox_own_arms ++ lift_arms TextBox_timer set_TextBox_timer TimerData_arms ++ shared_arms TextBox_shared.
Definition TextBox_init : TextBox := TextBox_default.
Definition TextBox_read : rd_M TextBox := read_arms TextBox_arms TextBox_init.
(** gameitem/textbox.rs:312-334 *)
Definition TextBox_write (v : TextBox) : wr_M :=
  write_tagged_with "VER1" (Vertex2D_write (TextBox_ver1 v)) >>>
  write_tagged_with "VER2" (Vertex2D_write (TextBox_ver2 v)) >>>
  write_tagged_with "CLRB" (Color_write (TextBox_back_color v)) >>>
  write_tagged_with "CLRF" (Color_write (TextBox_font_color v)) >>>
  write_tagged_f32 "INSC" (TextBox_intensity_scale v) >>>
  write_tagged_string "TEXT" (TextBox_text v) >>>
  TimerData_write (TextBox_timer v) >>>
  write_tagged_wide_string "NAME" (TextBox_name v) >>>
  write_tagged_u32 "ALGN" (TextAlignment_to_u32 (TextBox_align v)) >>>
  write_tagged_bool "TRNS" (TextBox_is_transparent v) >>>
  wopt (TextBox_is_dmd v) (fun x => write_tagged_bool "IDMD" x) >>>
  write_shared_attributes TextBox_shared v >>>
  write_tagged_without_size "FONT" (FontDesc_write (TextBox_font v)) >>>
  close true.

(** Generated by tools/gen_items.py from src/vpx/gameitem/flasher.rs. *)
From Verif Require Import Base Text Biff Quantize Common Enums ItemBase.

(** gameitem/flasher.rs:365-518 *)
Record Flasher : Type := mkFlasher {
  Flasher_height : f32;
  Flasher_pos_x : f32;
  Flasher_pos_y : f32;
  Flasher_rot_x : f32;
  Flasher_rot_y : f32;
  Flasher_rot_z : f32;
  Flasher_color : Color;
  Flasher_name : rstring;
  Flasher_image_a : rstring;
  Flasher_image_b : rstring;
  Flasher_alpha : i32;
  Flasher_modulate_vs_add : f32;
  Flasher_is_visible : bool;
  Flasher_add_blend : bool;
  Flasher_is_dmd : option bool;
  Flasher_render_mode : option RenderMode;
  Flasher_render_style : option u32;
  Flasher_glass_roughness : option f32;
  Flasher_glass_ambient : option u32;
  Flasher_glass_pad_top : option f32;
  Flasher_glass_pad_bottom : option f32;
  Flasher_glass_pad_left : option f32;
  Flasher_glass_pad_right : option f32;
  Flasher_image_src_link : option rstring;
  Flasher_display_texture : bool;
  Flasher_depth_bias : f32;
  Flasher_image_alignment : RampImageAlignment;
  Flasher_filter : Filter;
  Flasher_filter_amount : u32;
  Flasher_light_map : option rstring;
  Flasher_backglass : option bool;
  Flasher_drag_points : list DragPoint;
  Flasher_timer : TimerData;
  Flasher_is_locked : bool;
  Flasher_editor_layer : option u32;
  Flasher_editor_layer_name : option rstring;
  Flasher_editor_layer_visibility : option bool;
  Flasher_part_group_name : option rstring }.
Definition Flasher_eta (s : Flasher) : Flasher := mkFlasher (Flasher_height s) (Flasher_pos_x s) (Flasher_pos_y s) (Flasher_rot_x s) (Flasher_rot_y s) (Flasher_rot_z s) (Flasher_color s) (Flasher_name s) (Flasher_image_a s) (Flasher_image_b s) (Flasher_alpha s) (Flasher_modulate_vs_add s) (Flasher_is_visible s) (Flasher_add_blend s) (Flasher_is_dmd s) (Flasher_render_mode s) (Flasher_render_style s) (Flasher_glass_roughness s) (Flasher_glass_ambient s) (Flasher_glass_pad_top s) (Flasher_glass_pad_bottom s) (Flasher_glass_pad_left s) (Flasher_glass_pad_right s) (Flasher_image_src_link s) (Flasher_display_texture s) (Flasher_depth_bias s) (Flasher_image_alignment s) (Flasher_filter s) (Flasher_filter_amount s) (Flasher_light_map s) (Flasher_backglass s) (Flasher_drag_points s) (Flasher_timer s) (Flasher_is_locked s) (Flasher_editor_layer s) (Flasher_editor_layer_name s) (Flasher_editor_layer_visibility s) (Flasher_part_group_name s).
(** Assignments to one field. *)
Definition set_Flasher_height (x : f32) (s : Flasher) : Flasher := ltac:(setter Flasher_eta Flasher_height s x).
Definition set_Flasher_pos_x (x : f32) (s : Flasher) : Flasher := ltac:(setter Flasher_eta Flasher_pos_x s x).
Definition set_Flasher_pos_y (x : f32) (s : Flasher) : Flasher := ltac:(setter Flasher_eta Flasher_pos_y s x).
Definition set_Flasher_rot_x (x : f32) (s : Flasher) : Flasher := ltac:(setter Flasher_eta Flasher_rot_x s x).
Definition set_Flasher_rot_y (x : f32) (s : Flasher) : Flasher := ltac:(setter Flasher_eta Flasher_rot_y s x).
Definition set_Flasher_rot_z (x : f32) (s : Flasher) : Flasher := ltac:(setter Flasher_eta Flasher_rot_z s x).
Definition set_Flasher_color (x : Color) (s : Flasher) : Flasher := ltac:(setter Flasher_eta Flasher_color s x).
Definition set_Flasher_name (x : rstring) (s : Flasher) : Flasher := ltac:(setter Flasher_eta Flasher_name s x).
Definition set_Flasher_image_a (x : rstring) (s : Flasher) : Flasher := ltac:(setter Flasher_eta Flasher_image_a s x).
Definition set_Flasher_image_b (x : rstring) (s : Flasher) : Flasher := ltac:(setter Flasher_eta Flasher_image_b s x).
Definition set_Flasher_alpha (x : i32) (s : Flasher) : Flasher := ltac:(setter Flasher_eta Flasher_alpha s x).
Definition set_Flasher_modulate_vs_add (x : f32) (s : Flasher) : Flasher := ltac:(setter Flasher_eta Flasher_modulate_vs_add s x).
Definition set_Flasher_is_visible (x : bool) (s : Flasher) : Flasher := ltac:(setter Flasher_eta Flasher_is_visible s x).
Definition set_Flasher_add_blend (x : bool) (s : Flasher) : Flasher := ltac:(setter Flasher_eta Flasher_add_blend s x).
Definition set_Flasher_is_dmd (x : option bool) (s : Flasher) : Flasher := ltac:(setter Flasher_eta Flasher_is_dmd s x).
Definition set_Flasher_render_mode (x : option RenderMode) (s : Flasher) : Flasher := ltac:(setter Flasher_eta Flasher_render_mode s x).
Definition set_Flasher_render_style (x : option u32) (s : Flasher) : Flasher := ltac:(setter Flasher_eta Flasher_render_style s x).
Definition set_Flasher_glass_roughness (x : option f32) (s : Flasher) : Flasher := ltac:(setter Flasher_eta Flasher_glass_roughness s x).
Definition set_Flasher_glass_ambient (x : option u32) (s : Flasher) : Flasher := ltac:(setter Flasher_eta Flasher_glass_ambient s x).
Definition set_Flasher_glass_pad_top (x : option f32) (s : Flasher) : Flasher := ltac:(setter Flasher_eta Flasher_glass_pad_top s x).
Definition set_Flasher_glass_pad_bottom (x : option f32) (s : Flasher) : Flasher := ltac:(setter Flasher_eta Flasher_glass_pad_bottom s x).
Definition set_Flasher_glass_pad_left (x : option f32) (s : Flasher) : Flasher := ltac:(setter Flasher_eta Flasher_glass_pad_left s x).
Definition set_Flasher_glass_pad_right (x : option f32) (s : Flasher) : Flasher := ltac:(setter Flasher_eta Flasher_glass_pad_right s x).
Definition set_Flasher_image_src_link (x : option rstring) (s : Flasher) : Flasher := ltac:(setter Flasher_eta Flasher_image_src_link s x).
Definition set_Flasher_display_texture (x : bool) (s : Flasher) : Flasher := ltac:(setter Flasher_eta Flasher_display_texture s x).
Definition set_Flasher_depth_bias (x : f32) (s : Flasher) : Flasher := ltac:(setter Flasher_eta Flasher_depth_bias s x).
Definition set_Flasher_image_alignment (x : RampImageAlignment) (s : Flasher) : Flasher := ltac:(setter Flasher_eta Flasher_image_alignment s x).
Definition set_Flasher_filter (x : Filter) (s : Flasher) : Flasher := ltac:(setter Flasher_eta Flasher_filter s x).
Definition set_Flasher_filter_amount (x : u32) (s : Flasher) : Flasher := ltac:(setter Flasher_eta Flasher_filter_amount s x).
Definition set_Flasher_light_map (x : option rstring) (s : Flasher) : Flasher := ltac:(setter Flasher_eta Flasher_light_map s x).
Definition set_Flasher_backglass (x : option bool) (s : Flasher) : Flasher := ltac:(setter Flasher_eta Flasher_backglass s x).
Definition set_Flasher_drag_points (x : list DragPoint) (s : Flasher) : Flasher := ltac:(setter Flasher_eta Flasher_drag_points s x).
Definition set_Flasher_timer (x : TimerData) (s : Flasher) : Flasher := ltac:(setter Flasher_eta Flasher_timer s x).
Definition set_Flasher_is_locked (x : bool) (s : Flasher) : Flasher := ltac:(setter Flasher_eta Flasher_is_locked s x).
Definition set_Flasher_editor_layer (x : option u32) (s : Flasher) : Flasher := ltac:(setter Flasher_eta Flasher_editor_layer s x).
Definition set_Flasher_editor_layer_name (x : option rstring) (s : Flasher) : Flasher := ltac:(setter Flasher_eta Flasher_editor_layer_name s x).
Definition set_Flasher_editor_layer_visibility (x : option bool) (s : Flasher) : Flasher := ltac:(setter Flasher_eta Flasher_editor_layer_visibility s x).
Definition set_Flasher_part_group_name (x : option rstring) (s : Flasher) : Flasher := ltac:(setter Flasher_eta Flasher_part_group_name s x).
(** gameitem/flasher.rs:521-565 *)
Definition Flasher_default : Flasher := mkFlasher
  (Z_to_w32 1112014848) (* 50.0 *)
  f32_0
  f32_0
  f32_0
  f32_0
  f32_0
  Color_WHITE
  []
  []
  []
  (Z_to_w32 100)
  (Z_to_w32 1063675494) (* 0.9 *)
  true
  false
  None
  None
  None
  None
  None
  None
  None
  None
  None
  None
  false
  f32_0
  RampImageAlignment_Wrap
  Filter_Overlay
  (Z_to_w32 100)
  None
  None
  []
  TimerData_default
  false
  None
  None
  None
  None.
(** gameitem/flasher.rs:519, the macro at gameitem/select.rs:168-207 *)
Definition Flasher_shared : HasShared Flasher := mkHasShared
  Flasher_is_locked Flasher_editor_layer Flasher_editor_layer_name Flasher_editor_layer_visibility Flasher_part_group_name
  set_Flasher_is_locked set_Flasher_editor_layer set_Flasher_editor_layer_name set_Flasher_editor_layer_visibility set_Flasher_part_group_name.
(** gameitem/flasher.rs:713-838, the arms of the record loop and its fallback *)
Definition Flasher_own_arms : list (arm Flasher) :=
  [
    ("FHEI", fun s => x <- get_f32 ;; rret (set_Flasher_height x s)); (* 725 *)
    ("FLAX", fun s => x <- get_f32 ;; rret (set_Flasher_pos_x x s)); (* 728 *)
    ("FLAY", fun s => x <- get_f32 ;; rret (set_Flasher_pos_y x s)); (* 731 *)
    ("FROX", fun s => x <- get_f32 ;; rret (set_Flasher_rot_x x s)); (* 734 *)
    ("FROY", fun s => x <- get_f32 ;; rret (set_Flasher_rot_y x s)); (* 737 *)
    ("FROZ", fun s => x <- get_f32 ;; rret (set_Flasher_rot_z x s)); (* 740 *)
    ("COLR", fun s => x <- Color_read ;; rret (set_Flasher_color x s)); (* 743 *)
    ("NAME", fun s => x <- get_wide_string ;; rret (set_Flasher_name x s)); (* 746 *)
    ("IMAG", fun s => x <- get_string ;; rret (set_Flasher_image_a x s)); (* 749 *)
    ("IMAB", fun s => x <- get_string ;; rret (set_Flasher_image_b x s)); (* 752 *)
    ("FALP", fun s => x <- get_i32 ;; rret (set_Flasher_alpha x s)); (* 755 *)
    ("MOVA", fun s => x <- get_f32 ;; rret (set_Flasher_modulate_vs_add x s)); (* 758 *)
    ("FVIS", fun s => x <- get_bool ;; rret (set_Flasher_is_visible x s)); (* 761 *)
    ("DSPT", fun s => x <- get_bool ;; rret (set_Flasher_display_texture x s)); (* 764 *)
    ("ADDB", fun s => x <- get_bool ;; rret (set_Flasher_add_blend x s)); (* 767 *)
    ("IDMD", fun s => x <- get_bool ;; rret (set_Flasher_is_dmd (Some x) s)); (* 770 *)
    ("RDMD", fun s => z <- get_u32 ;; x <- rlift (RenderMode_of_u32 z) ;; rret (set_Flasher_render_mode (Some x) s)); (* 773 *)
    ("RSTL", fun s => x <- get_u32 ;; rret (set_Flasher_render_style (Some x) s)); (* 776 *)
    ("GRGH", fun s => x <- get_f32 ;; rret (set_Flasher_glass_roughness (Some x) s)); (* 779 *)
    ("GAMB", fun s => x <- get_u32 ;; rret (set_Flasher_glass_ambient (Some x) s)); (* 782 *)
    ("GTOP", fun s => x <- get_f32 ;; rret (set_Flasher_glass_pad_top (Some x) s)); (* 785 *)
    ("GBOT", fun s => x <- get_f32 ;; rret (set_Flasher_glass_pad_bottom (Some x) s)); (* 788 *)
    ("GLFT", fun s => x <- get_f32 ;; rret (set_Flasher_glass_pad_left (Some x) s)); (* 791 *)
    ("GRHT", fun s => x <- get_f32 ;; rret (set_Flasher_glass_pad_right (Some x) s)); (* 794 *)
    ("LINK", fun s => x <- get_string ;; rret (set_Flasher_image_src_link (Some x) s)); (* 797 *)
    ("FLDB", fun s => x <- get_f32 ;; rret (set_Flasher_depth_bias x s)); (* 800 *)
    ("ALGN", fun s => z <- get_u32 ;; x <- rlift (RampImageAlignment_of_u32 z) ;; rret (set_Flasher_image_alignment x s)); (* 803 *)
    ("FILT", fun s => z <- get_u32 ;; x <- rlift (Filter_of_u32 z) ;; rret (set_Flasher_filter x s)); (* 806 *)
    ("FIAM", fun s => x <- get_u32 ;; rret (set_Flasher_filter_amount x s)); (* 809 *)
    ("LMAP", fun s => x <- get_string ;; rret (set_Flasher_light_map (Some x) s)); (* 812 *)
    ("BGLS", fun s => x <- get_bool ;; rret (set_Flasher_backglass (Some x) s)); (* 815 *)
    ("DPNT", fun s => x <- DragPoint_read ;; rret (set_Flasher_drag_points (Flasher_drag_points s ++ [x]) s)) (* 818 *) ]%string.
Definition Flasher_arms : list (arm Flasher) := Flasher_own_arms ++ lift_arms Flasher_timer set_Flasher_timer TimerData_arms ++ shared_arms Flasher_shared.
Definition Flasher_init : Flasher := Flasher_default.
Definition Flasher_read : rd_M Flasher := read_arms Flasher_arms Flasher_init.
(** gameitem/flasher.rs:840-908 *)
Definition Flasher_write (v : Flasher) : wr_M :=
  write_tagged_f32 "FHEI" (Flasher_height v) >>>
  write_tagged_f32 "FLAX" (Flasher_pos_x v) >>>
  write_tagged_f32 "FLAY" (Flasher_pos_y v) >>>
  write_tagged_f32 "FROX" (Flasher_rot_x v) >>>
  write_tagged_f32 "FROY" (Flasher_rot_y v) >>>
  write_tagged_f32 "FROZ" (Flasher_rot_z v) >>>
  write_tagged_with "COLR" (Color_write (Flasher_color v)) >>>
  TimerData_write (Flasher_timer v) >>>
  write_tagged_wide_string "NAME" (Flasher_name v) >>>
  write_tagged_string "IMAG" (Flasher_image_a v) >>>
  write_tagged_string "IMAB" (Flasher_image_b v) >>>
  write_tagged_i32 "FALP" (Flasher_alpha v) >>>
  write_tagged_f32 "MOVA" (Flasher_modulate_vs_add v) >>>
  write_tagged_bool "FVIS" (Flasher_is_visible v) >>>
  write_tagged_bool "DSPT" (Flasher_display_texture v) >>>
  write_tagged_bool "ADDB" (Flasher_add_blend v) >>>
  wopt (Flasher_is_dmd v) (fun x => write_tagged_bool "IDMD" x) >>>
  wopt (Flasher_render_mode v) (fun x => write_tagged_u32 "RDMD" (RenderMode_to_u32 x)) >>>
  wopt (Flasher_render_style v) (fun x => write_tagged_u32 "RSTL" x) >>>
  wopt (Flasher_glass_roughness v) (fun x => write_tagged_f32 "GRGH" x) >>>
  wopt (Flasher_glass_ambient v) (fun x => write_tagged_u32 "GAMB" x) >>>
  wopt (Flasher_glass_pad_top v) (fun x => write_tagged_f32 "GTOP" x) >>>
  wopt (Flasher_glass_pad_bottom v) (fun x => write_tagged_f32 "GBOT" x) >>>
  wopt (Flasher_glass_pad_left v) (fun x => write_tagged_f32 "GLFT" x) >>>
  wopt (Flasher_glass_pad_right v) (fun x => write_tagged_f32 "GRHT" x) >>>
  wopt (Flasher_image_src_link v) (fun x => write_tagged_string "LINK" x) >>>
  write_tagged_f32 "FLDB" (Flasher_depth_bias v) >>>
  write_tagged_u32 "ALGN" (RampImageAlignment_to_u32 (Flasher_image_alignment v)) >>>
  write_tagged_u32 "FILT" (Filter_to_u32 (Flasher_filter v)) >>>
  write_tagged_u32 "FIAM" (Flasher_filter_amount v) >>>
  wopt (Flasher_light_map v) (fun x => write_tagged_string "LMAP" x) >>>
  wopt (Flasher_backglass v) (fun x => write_tagged_bool "BGLS" x) >>>
  write_shared_attributes Flasher_shared v >>>
  wfor (Flasher_drag_points v) (fun x => write_tagged_with "DPNT" (DragPoint_write x)) >>>
  close true.

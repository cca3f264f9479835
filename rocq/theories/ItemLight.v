(** Generated by tools/gen_items.py from src/vpx/gameitem/light.rs. *)
From Verif Require Import Base Text Biff Quantize Common Enums ItemBase.

(** gameitem/light.rs:297-704 *)
Record Light : Type := mkLight {
  Light_name : rstring;
  Light_center : Vertex2D;
  Light_height : option f32;
  Light_falloff_radius : f32;
  Light_falloff_power : f32;
  Light_state_u32 : u32;
  Light_state : option f32;
  Light_color : Color;
  Light_color2 : Color;
  Light_blink_pattern : rstring;
  Light_image : rstring;
  Light_blink_interval : u32;
  Light_intensity : f32;
  Light_transmission_scale : f32;
  Light_surface : rstring;
  Light_is_backglass : bool;
  Light_depth_bias : f32;
  Light_fade_speed_up : f32;
  Light_fade_speed_down : f32;
  Light_is_bulb_light : bool;
  Light_is_image_mode : bool;
  Light_show_bulb_mesh : bool;
  Light_has_static_bulb_mesh : option bool;
  Light_show_reflection_on_ball : bool;
  Light_mesh_radius : f32;
  Light_bulb_modulate_vs_add : f32;
  Light_bulb_halo_height : f32;
  Light_shadows : option ShadowMode;
  Light_fader : option Fader;
  Light_visible : option bool;
  Light_timer : TimerData;
  Light_is_locked : bool;
  Light_editor_layer : option u32;
  Light_editor_layer_name : option rstring;
  Light_editor_layer_visibility : option bool;
  Light_part_group_name : option rstring;
  Light_drag_points : list DragPoint }.
Definition Light_eta (s : Light) : Light := mkLight (Light_name s) (Light_center s) (Light_height s) (Light_falloff_radius s) (Light_falloff_power s) (Light_state_u32 s) (Light_state s) (Light_color s) (Light_color2 s) (Light_blink_pattern s) (Light_image s) (Light_blink_interval s) (Light_intensity s) (Light_transmission_scale s) (Light_surface s) (Light_is_backglass s) (Light_depth_bias s) (Light_fade_speed_up s) (Light_fade_speed_down s) (Light_is_bulb_light s) (Light_is_image_mode s) (Light_show_bulb_mesh s) (Light_has_static_bulb_mesh s) (Light_show_reflection_on_ball s) (Light_mesh_radius s) (Light_bulb_modulate_vs_add s) (Light_bulb_halo_height s) (Light_shadows s) (Light_fader s) (Light_visible s) (Light_timer s) (Light_is_locked s) (Light_editor_layer s) (Light_editor_layer_name s) (Light_editor_layer_visibility s) (Light_part_group_name s) (Light_drag_points s).
(** Assignments to one field. *)
Definition set_Light_name (x : rstring) (s : Light) : Light := ltac:(setter Light_eta Light_name s x).
Definition set_Light_center (x : Vertex2D) (s : Light) : Light := ltac:(setter Light_eta Light_center s x).
Definition set_Light_height (x : option f32) (s : Light) : Light := ltac:(setter Light_eta Light_height s x).
Definition set_Light_falloff_radius (x : f32) (s : Light) : Light := ltac:(setter Light_eta Light_falloff_radius s x).
Definition set_Light_falloff_power (x : f32) (s : Light) : Light := ltac:(setter Light_eta Light_falloff_power s x).
Definition set_Light_state_u32 (x : u32) (s : Light) : Light := ltac:(setter Light_eta Light_state_u32 s x).
Definition set_Light_state (x : option f32) (s : Light) : Light := ltac:(setter Light_eta Light_state s x).
Definition set_Light_color (x : Color) (s : Light) : Light := ltac:(setter Light_eta Light_color s x).
Definition set_Light_color2 (x : Color) (s : Light) : Light := ltac:(setter Light_eta Light_color2 s x).
Definition set_Light_blink_pattern (x : rstring) (s : Light) : Light := ltac:(setter Light_eta Light_blink_pattern s x).
Definition set_Light_image (x : rstring) (s : Light) : Light := ltac:(setter Light_eta Light_image s x).
Definition set_Light_blink_interval (x : u32) (s : Light) : Light := ltac:(setter Light_eta Light_blink_interval s x).
Definition set_Light_intensity (x : f32) (s : Light) : Light := ltac:(setter Light_eta Light_intensity s x).
Definition set_Light_transmission_scale (x : f32) (s : Light) : Light := ltac:(setter Light_eta Light_transmission_scale s x).
Definition set_Light_surface (x : rstring) (s : Light) : Light := ltac:(setter Light_eta Light_surface s x).
Definition set_Light_is_backglass (x : bool) (s : Light) : Light := ltac:(setter Light_eta Light_is_backglass s x).
Definition set_Light_depth_bias (x : f32) (s : Light) : Light := ltac:(setter Light_eta Light_depth_bias s x).
Definition set_Light_fade_speed_up (x : f32) (s : Light) : Light := ltac:(setter Light_eta Light_fade_speed_up s x).
Definition set_Light_fade_speed_down (x : f32) (s : Light) : Light := ltac:(setter Light_eta Light_fade_speed_down s x).
Definition set_Light_is_bulb_light (x : bool) (s : Light) : Light := ltac:(setter Light_eta Light_is_bulb_light s x).
Definition set_Light_is_image_mode (x : bool) (s : Light) : Light := ltac:(setter Light_eta Light_is_image_mode s x).
Definition set_Light_show_bulb_mesh (x : bool) (s : Light) : Light := ltac:(setter Light_eta Light_show_bulb_mesh s x).
Definition set_Light_has_static_bulb_mesh (x : option bool) (s : Light) : Light := ltac:(setter Light_eta Light_has_static_bulb_mesh s x).
Definition set_Light_show_reflection_on_ball (x : bool) (s : Light) : Light := ltac:(setter Light_eta Light_show_reflection_on_ball s x).
Definition set_Light_mesh_radius (x : f32) (s : Light) : Light := ltac:(setter Light_eta Light_mesh_radius s x).
Definition set_Light_bulb_modulate_vs_add (x : f32) (s : Light) : Light := ltac:(setter Light_eta Light_bulb_modulate_vs_add s x).
Definition set_Light_bulb_halo_height (x : f32) (s : Light) : Light := ltac:(setter Light_eta Light_bulb_halo_height s x).
Definition set_Light_shadows (x : option ShadowMode) (s : Light) : Light := ltac:(setter Light_eta Light_shadows s x).
Definition set_Light_fader (x : option Fader) (s : Light) : Light := ltac:(setter Light_eta Light_fader s x).
Definition set_Light_visible (x : option bool) (s : Light) : Light := ltac:(setter Light_eta Light_visible s x).
Definition set_Light_timer (x : TimerData) (s : Light) : Light := ltac:(setter Light_eta Light_timer s x).
Definition set_Light_is_locked (x : bool) (s : Light) : Light := ltac:(setter Light_eta Light_is_locked s x).
Definition set_Light_editor_layer (x : option u32) (s : Light) : Light := ltac:(setter Light_eta Light_editor_layer s x).
Definition set_Light_editor_layer_name (x : option rstring) (s : Light) : Light := ltac:(setter Light_eta Light_editor_layer_name s x).
Definition set_Light_editor_layer_visibility (x : option bool) (s : Light) : Light := ltac:(setter Light_eta Light_editor_layer_visibility s x).
Definition set_Light_part_group_name (x : option rstring) (s : Light) : Light := ltac:(setter Light_eta Light_part_group_name s x).
Definition set_Light_drag_points (x : list DragPoint) (s : Light) : Light := ltac:(setter Light_eta Light_drag_points s x).
(** gameitem/light.rs:853-935 *)
Definition Light_default : Light := mkLight
  []
  Vertex2D_default
  None
  f32_0
  f32_0
  (Z_to_w32 0)
  None
  (Color_rgb 255 169 87)
  (Color_rgb 255 169 87)
  (lit "10")
  []
  (Z_to_w32 0)
  (Z_to_w32 1065353216) (* 1.0 *)
  (Z_to_w32 1056964608) (* 0.5 *)
  []
  false
  f32_0
  (Z_to_w32 1045220557) (* 0.2 *)
  (Z_to_w32 1045220557) (* 0.2 *)
  false
  false
  false
  None
  true
  (Z_to_w32 1101004800) (* 20.0 *)
  (Z_to_w32 1063675494) (* 0.9 *)
  (Z_to_w32 1105199104) (* 28.0 *)
  None
  None
  None
  TimerData_default
  false
  None
  None
  None
  None
  [].
(** gameitem/light.rs:705, the macro at gameitem/select.rs:168-207 *)
Definition Light_shared : HasShared Light := mkHasShared
  Light_is_locked Light_editor_layer Light_editor_layer_name Light_editor_layer_visibility Light_part_group_name
  set_Light_is_locked set_Light_editor_layer set_Light_editor_layer_name set_Light_editor_layer_visibility set_Light_part_group_name.
(** gameitem/light.rs:937-1001, the arms of the record loop and its fallback *)
Definition Light_own_arms : list (arm Light) :=
  [
    ("VCEN", fun s => x <- Vertex2D_read ;; rret (set_Light_center x s)); (* 948 *)
    ("HGHT", fun s => x <- get_f32 ;; rret (set_Light_height (Some x) s)); (* 949 *)
    ("RADI", fun s => x <- get_f32 ;; rret (set_Light_falloff_radius x s)); (* 950 *)
    ("FAPO", fun s => x <- get_f32 ;; rret (set_Light_falloff_power x s)); (* 951 *)
    ("STAT", fun s => x <- get_u32 ;; rret (set_Light_state_u32 x s)); (* 952 *)
    ("STTF", fun s => x <- get_f32 ;; rret (set_Light_state (Some x) s)); (* 953 *)
    ("COLR", fun s => x <- Color_read ;; rret (set_Light_color x s)); (* 954 *)
    ("COL2", fun s => x <- Color_read ;; rret (set_Light_color2 x s)); (* 955 *)
    ("BPAT", fun s => x <- get_string ;; rret (set_Light_blink_pattern x s)); (* 956 *)
    ("IMG1", fun s => x <- get_string ;; rret (set_Light_image x s)); (* 957 *)
    ("BINT", fun s => x <- get_u32 ;; rret (set_Light_blink_interval x s)); (* 958 *)
    ("BWTH", fun s => x <- get_f32 ;; rret (set_Light_intensity x s)); (* 959 *)
    ("TRMS", fun s => x <- get_f32 ;; rret (set_Light_transmission_scale x s)); (* 960 *)
    ("SURF", fun s => x <- get_string ;; rret (set_Light_surface x s)); (* 961 *)
    ("NAME", fun s => x <- get_wide_string ;; rret (set_Light_name x s)); (* 962 *)
    ("BGLS", fun s => x <- get_bool ;; rret (set_Light_is_backglass x s)); (* 964 *)
    ("LIDB", fun s => x <- get_f32 ;; rret (set_Light_depth_bias x s)); (* 965 *)
    ("FASP", fun s => x <- get_f32 ;; rret (set_Light_fade_speed_up x s)); (* 966 *)
    ("FASD", fun s => x <- get_f32 ;; rret (set_Light_fade_speed_down x s)); (* 967 *)
    ("BULT", fun s => x <- get_bool ;; rret (set_Light_is_bulb_light x s)); (* 968 *)
    ("IMMO", fun s => x <- get_bool ;; rret (set_Light_is_image_mode x s)); (* 969 *)
    ("SHBM", fun s => x <- get_bool ;; rret (set_Light_show_bulb_mesh x s)); (* 970 *)
    ("STBM", fun s => x <- get_bool ;; rret (set_Light_has_static_bulb_mesh (Some x) s)); (* 971 *)
    ("SHRB", fun s => x <- get_bool ;; rret (set_Light_show_reflection_on_ball x s)); (* 972 *)
    ("BMSC", fun s => x <- get_f32 ;; rret (set_Light_mesh_radius x s)); (* 973 *)
    ("BMVA", fun s => x <- get_f32 ;; rret (set_Light_bulb_modulate_vs_add x s)); (* 974 *)
    ("BHHI", fun s => x <- get_f32 ;; rret (set_Light_bulb_halo_height x s)); (* 975 *)
    ("SHDW", fun s => z <- get_u32 ;; x <- rlift (ShadowMode_of_u32 z) ;; rret (set_Light_shadows (Some x) s)); (* 976 *)
    ("FADE", fun s => z <- get_u32 ;; x <- rlift (Fader_of_u32 z) ;; rret (set_Light_fader (Some x) s)); (* 977 *)
    ("VSBL", fun s => x <- get_bool ;; rret (set_Light_visible (Some x) s)); (* 978 *)
    ("DPNT", fun s => x <- DragPoint_read ;; rret (set_Light_drag_points (Light_drag_points s ++ [x]) s)) (* 981 *) ]%string.
Definition Light_arms : list (arm Light) := Light_own_arms ++ lift_arms Light_timer set_Light_timer TimerData_arms ++ shared_arms Light_shared.
Definition Light_init : Light := Light_default.
Definition Light_read : rd_M Light := read_arms Light_arms Light_init.
(** gameitem/light.rs:1003-1060 *)
Definition Light_write (v : Light) : wr_M :=
  write_tagged_with "VCEN" (Vertex2D_write (Light_center v)) >>>
  wopt (Light_height v) (fun x => write_tagged_f32 "HGHT" x) >>>
  write_tagged_f32 "RADI" (Light_falloff_radius v) >>>
  write_tagged_f32 "FAPO" (Light_falloff_power v) >>>
  write_tagged_u32 "STAT" (Light_state_u32 v) >>>
  wopt (Light_state v) (fun x => write_tagged_f32 "STTF" x) >>>
  write_tagged_with "COLR" (Color_write (Light_color v)) >>>
  write_tagged_with "COL2" (Color_write (Light_color2 v)) >>>
  TimerData_write (Light_timer v) >>>
  write_tagged_string "BPAT" (Light_blink_pattern v) >>>
  write_tagged_string "IMG1" (Light_image v) >>>
  write_tagged_u32 "BINT" (Light_blink_interval v) >>>
  write_tagged_f32 "BWTH" (Light_intensity v) >>>
  write_tagged_f32 "TRMS" (Light_transmission_scale v) >>>
  write_tagged_string "SURF" (Light_surface v) >>>
  write_tagged_wide_string "NAME" (Light_name v) >>>
  write_tagged_bool "BGLS" (Light_is_backglass v) >>>
  write_tagged_f32 "LIDB" (Light_depth_bias v) >>>
  write_tagged_f32 "FASP" (Light_fade_speed_up v) >>>
  write_tagged_f32 "FASD" (Light_fade_speed_down v) >>>
  write_tagged_bool "BULT" (Light_is_bulb_light v) >>>
  write_tagged_bool "IMMO" (Light_is_image_mode v) >>>
  write_tagged_bool "SHBM" (Light_show_bulb_mesh v) >>>
  wopt (Light_has_static_bulb_mesh v) (fun x => write_tagged_bool "STBM" x) >>>
  write_tagged_bool "SHRB" (Light_show_reflection_on_ball v) >>>
  write_tagged_f32 "BMSC" (Light_mesh_radius v) >>>
  write_tagged_f32 "BMVA" (Light_bulb_modulate_vs_add v) >>>
  write_tagged_f32 "BHHI" (Light_bulb_halo_height v) >>>
  wopt (Light_shadows v) (fun x => write_tagged_u32 "SHDW" (ShadowMode_to_u32 x)) >>>
  wopt (Light_fader v) (fun x => write_tagged_u32 "FADE" (Fader_to_u32 x)) >>>
  wopt (Light_visible v) (fun x => write_tagged_bool "VSBL" x) >>>
  write_shared_attributes Light_shared v >>>
  wfor (Light_drag_points v) (fun x => write_tagged_with "DPNT" (DragPoint_write x)) >>>
  close true.

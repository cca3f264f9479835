(** Generated by tools/gen_structs.py from src/vpx/gamedata.rs. *)
From Verif Require Import Base Text Biff Quantize Common Enums ItemBase.

(** The fields of [GameData] (gamedata.rs:318-1041) that are written from record VSM0 to record VSM1. *)
Record GDDesktop : Type := mkGDDesktop {
  GDDesktop_bg_view_mode_desktop : option ViewLayoutMode;
  GDDesktop_bg_rotation_desktop : f32;
  GDDesktop_bg_inclination_desktop : f32;
  GDDesktop_bg_layback_desktop : f32;
  GDDesktop_bg_fov_desktop : f32;
  GDDesktop_bg_offset_x_desktop : f32;
  GDDesktop_bg_offset_y_desktop : f32;
  GDDesktop_bg_offset_z_desktop : f32;
  GDDesktop_bg_scale_x_desktop : f32;
  GDDesktop_bg_scale_y_desktop : f32;
  GDDesktop_bg_scale_z_desktop : f32;
  GDDesktop_bg_view_horizontal_offset_desktop : option f32;
  GDDesktop_bg_view_vertical_offset_desktop : option f32;
  GDDesktop_bg_window_top_x_offset_desktop : option f32;
  GDDesktop_bg_window_top_y_offset_desktop : option f32;
  GDDesktop_bg_window_top_z_offset_desktop : option f32;
  GDDesktop_bg_window_bottom_x_offset_desktop : option f32;
  GDDesktop_bg_window_bottom_y_offset_desktop : option f32;
  GDDesktop_bg_window_bottom_z_offset_desktop : option f32;
  GDDesktop_bg_view_mode_fullscreen : option ViewLayoutMode }.
Definition GDDesktop_eta (s : GDDesktop) : GDDesktop := mkGDDesktop (GDDesktop_bg_view_mode_desktop s) (GDDesktop_bg_rotation_desktop s) (GDDesktop_bg_inclination_desktop s) (GDDesktop_bg_layback_desktop s) (GDDesktop_bg_fov_desktop s) (GDDesktop_bg_offset_x_desktop s) (GDDesktop_bg_offset_y_desktop s) (GDDesktop_bg_offset_z_desktop s) (GDDesktop_bg_scale_x_desktop s) (GDDesktop_bg_scale_y_desktop s) (GDDesktop_bg_scale_z_desktop s) (GDDesktop_bg_view_horizontal_offset_desktop s) (GDDesktop_bg_view_vertical_offset_desktop s) (GDDesktop_bg_window_top_x_offset_desktop s) (GDDesktop_bg_window_top_y_offset_desktop s) (GDDesktop_bg_window_top_z_offset_desktop s) (GDDesktop_bg_window_bottom_x_offset_desktop s) (GDDesktop_bg_window_bottom_y_offset_desktop s) (GDDesktop_bg_window_bottom_z_offset_desktop s) (GDDesktop_bg_view_mode_fullscreen s).
(** Assignments to one field. *)
Definition set_GDDesktop_bg_view_mode_desktop (x : option ViewLayoutMode) (s : GDDesktop) : GDDesktop := ltac:(setter GDDesktop_eta GDDesktop_bg_view_mode_desktop s x).
Definition set_GDDesktop_bg_rotation_desktop (x : f32) (s : GDDesktop) : GDDesktop := ltac:(setter GDDesktop_eta GDDesktop_bg_rotation_desktop s x).
Definition set_GDDesktop_bg_inclination_desktop (x : f32) (s : GDDesktop) : GDDesktop := ltac:(setter GDDesktop_eta GDDesktop_bg_inclination_desktop s x).
Definition set_GDDesktop_bg_layback_desktop (x : f32) (s : GDDesktop) : GDDesktop := ltac:(setter GDDesktop_eta GDDesktop_bg_layback_desktop s x).
Definition set_GDDesktop_bg_fov_desktop (x : f32) (s : GDDesktop) : GDDesktop := ltac:(setter GDDesktop_eta GDDesktop_bg_fov_desktop s x).
Definition set_GDDesktop_bg_offset_x_desktop (x : f32) (s : GDDesktop) : GDDesktop := ltac:(setter GDDesktop_eta GDDesktop_bg_offset_x_desktop s x).
Definition set_GDDesktop_bg_offset_y_desktop (x : f32) (s : GDDesktop) : GDDesktop := ltac:(setter GDDesktop_eta GDDesktop_bg_offset_y_desktop s x).
Definition set_GDDesktop_bg_offset_z_desktop (x : f32) (s : GDDesktop) : GDDesktop := ltac:(setter GDDesktop_eta GDDesktop_bg_offset_z_desktop s x).
Definition set_GDDesktop_bg_scale_x_desktop (x : f32) (s : GDDesktop) : GDDesktop := ltac:(setter GDDesktop_eta GDDesktop_bg_scale_x_desktop s x).
Definition set_GDDesktop_bg_scale_y_desktop (x : f32) (s : GDDesktop) : GDDesktop := ltac:(setter GDDesktop_eta GDDesktop_bg_scale_y_desktop s x).
Definition set_GDDesktop_bg_scale_z_desktop (x : f32) (s : GDDesktop) : GDDesktop := ltac:(setter GDDesktop_eta GDDesktop_bg_scale_z_desktop s x).
Definition set_GDDesktop_bg_view_horizontal_offset_desktop (x : option f32) (s : GDDesktop) : GDDesktop := ltac:(setter GDDesktop_eta GDDesktop_bg_view_horizontal_offset_desktop s x).
Definition set_GDDesktop_bg_view_vertical_offset_desktop (x : option f32) (s : GDDesktop) : GDDesktop := ltac:(setter GDDesktop_eta GDDesktop_bg_view_vertical_offset_desktop s x).
Definition set_GDDesktop_bg_window_top_x_offset_desktop (x : option f32) (s : GDDesktop) : GDDesktop := ltac:(setter GDDesktop_eta GDDesktop_bg_window_top_x_offset_desktop s x).
Definition set_GDDesktop_bg_window_top_y_offset_desktop (x : option f32) (s : GDDesktop) : GDDesktop := ltac:(setter GDDesktop_eta GDDesktop_bg_window_top_y_offset_desktop s x).
Definition set_GDDesktop_bg_window_top_z_offset_desktop (x : option f32) (s : GDDesktop) : GDDesktop := ltac:(setter GDDesktop_eta GDDesktop_bg_window_top_z_offset_desktop s x).
Definition set_GDDesktop_bg_window_bottom_x_offset_desktop (x : option f32) (s : GDDesktop) : GDDesktop := ltac:(setter GDDesktop_eta GDDesktop_bg_window_bottom_x_offset_desktop s x).
Definition set_GDDesktop_bg_window_bottom_y_offset_desktop (x : option f32) (s : GDDesktop) : GDDesktop := ltac:(setter GDDesktop_eta GDDesktop_bg_window_bottom_y_offset_desktop s x).
Definition set_GDDesktop_bg_window_bottom_z_offset_desktop (x : option f32) (s : GDDesktop) : GDDesktop := ltac:(setter GDDesktop_eta GDDesktop_bg_window_bottom_z_offset_desktop s x).
Definition set_GDDesktop_bg_view_mode_fullscreen (x : option ViewLayoutMode) (s : GDDesktop) : GDDesktop := ltac:(setter GDDesktop_eta GDDesktop_bg_view_mode_fullscreen s x).
(** gamedata.rs:1568-1727 *)
Definition GDDesktop_default : GDDesktop := mkGDDesktop
  None
  f32_0
  f32_0
  f32_0
  (Z_to_w32 1110704128) (* 45.0 *)
  f32_0
  (Z_to_w32 1106247680) (* 30.0 *)
  (Z_to_w32 3276275712) (* -200.0 *)
  (Z_to_w32 1065353216) (* 1.0 *)
  (Z_to_w32 1065353216) (* 1.0 *)
  (Z_to_w32 1065353216) (* 1.0 *)
  None
  None
  None
  None
  None
  None
  None
  None
  None.
(** gamedata.rs:2087-2323, the arms of the record loop and its fallback *)
Definition GDDesktop_own_arms : list (arm GDDesktop) :=
  [
    ("VSM0", fun s => z <- get_u32 ;; x <- rlift (ViewLayoutMode_of_u32 z) ;; rret (set_GDDesktop_bg_view_mode_desktop (Some x) s)); (* 2106 *)
    ("ROTA", fun s => x <- get_f32 ;; rret (set_GDDesktop_bg_rotation_desktop x s)); (* 2107 *)
    ("INCL", fun s => x <- get_f32 ;; rret (set_GDDesktop_bg_inclination_desktop x s)); (* 2108 *)
    ("LAYB", fun s => x <- get_f32 ;; rret (set_GDDesktop_bg_layback_desktop x s)); (* 2109 *)
    ("FOVX", fun s => x <- get_f32 ;; rret (set_GDDesktop_bg_fov_desktop x s)); (* 2110 *)
    ("XLTX", fun s => x <- get_f32 ;; rret (set_GDDesktop_bg_offset_x_desktop x s)); (* 2111 *)
    ("XLTY", fun s => x <- get_f32 ;; rret (set_GDDesktop_bg_offset_y_desktop x s)); (* 2112 *)
    ("XLTZ", fun s => x <- get_f32 ;; rret (set_GDDesktop_bg_offset_z_desktop x s)); (* 2113 *)
    ("SCLX", fun s => x <- get_f32 ;; rret (set_GDDesktop_bg_scale_x_desktop x s)); (* 2114 *)
    ("SCLY", fun s => x <- get_f32 ;; rret (set_GDDesktop_bg_scale_y_desktop x s)); (* 2115 *)
    ("SCLZ", fun s => x <- get_f32 ;; rret (set_GDDesktop_bg_scale_z_desktop x s)); (* 2116 *)
    ("HOF0", fun s => x <- get_f32 ;; rret (set_GDDesktop_bg_view_horizontal_offset_desktop (Some x) s)); (* 2123 *)
    ("VOF0", fun s => x <- get_f32 ;; rret (set_GDDesktop_bg_view_vertical_offset_desktop (Some x) s)); (* 2124 *)
    ("WTX0", fun s => x <- get_f32 ;; rret (set_GDDesktop_bg_window_top_x_offset_desktop (Some x) s)); (* 2125 *)
    ("WTY0", fun s => x <- get_f32 ;; rret (set_GDDesktop_bg_window_top_y_offset_desktop (Some x) s)); (* 2126 *)
    ("WTZ0", fun s => x <- get_f32 ;; rret (set_GDDesktop_bg_window_top_z_offset_desktop (Some x) s)); (* 2127 *)
    ("WBX0", fun s => x <- get_f32 ;; rret (set_GDDesktop_bg_window_bottom_x_offset_desktop (Some x) s)); (* 2128 *)
    ("WBY0", fun s => x <- get_f32 ;; rret (set_GDDesktop_bg_window_bottom_y_offset_desktop (Some x) s)); (* 2129 *)
    ("WBZ0", fun s => x <- get_f32 ;; rret (set_GDDesktop_bg_window_bottom_z_offset_desktop (Some x) s)); (* 2130 *)
    ("VSM1", fun s => z <- get_u32 ;; x <- rlift (ViewLayoutMode_of_u32 z) ;; rret (set_GDDesktop_bg_view_mode_fullscreen (Some x) s)) (* 2131 *) ]%string.
Definition GDDesktop_arms : list (arm GDDesktop) := GDDesktop_own_arms.
(** gamedata.rs:1735-2085, the part from VSM0 to VSM1 (EFSS excepted) *)
Definition GDDesktop_write (v : GDDesktop) : wr_M :=
  wopt (GDDesktop_bg_view_mode_desktop v) (fun x => write_tagged_u32 "VSM0" (ViewLayoutMode_to_u32 x)) >>>
  write_tagged_f32 "ROTA" (GDDesktop_bg_rotation_desktop v) >>>
  write_tagged_f32 "INCL" (GDDesktop_bg_inclination_desktop v) >>>
  write_tagged_f32 "LAYB" (GDDesktop_bg_layback_desktop v) >>>
  write_tagged_f32 "FOVX" (GDDesktop_bg_fov_desktop v) >>>
  write_tagged_f32 "XLTX" (GDDesktop_bg_offset_x_desktop v) >>>
  write_tagged_f32 "XLTY" (GDDesktop_bg_offset_y_desktop v) >>>
  write_tagged_f32 "XLTZ" (GDDesktop_bg_offset_z_desktop v) >>>
  write_tagged_f32 "SCLX" (GDDesktop_bg_scale_x_desktop v) >>>
  write_tagged_f32 "SCLY" (GDDesktop_bg_scale_y_desktop v) >>>
  write_tagged_f32 "SCLZ" (GDDesktop_bg_scale_z_desktop v) >>>
  wopt (GDDesktop_bg_view_horizontal_offset_desktop v) (fun x => write_tagged_f32 "HOF0" x) >>>
  wopt (GDDesktop_bg_view_vertical_offset_desktop v) (fun x => write_tagged_f32 "VOF0" x) >>>
  wopt (GDDesktop_bg_window_top_x_offset_desktop v) (fun x => write_tagged_f32 "WTX0" x) >>>
  wopt (GDDesktop_bg_window_top_y_offset_desktop v) (fun x => write_tagged_f32 "WTY0" x) >>>
  wopt (GDDesktop_bg_window_top_z_offset_desktop v) (fun x => write_tagged_f32 "WTZ0" x) >>>
  wopt (GDDesktop_bg_window_bottom_x_offset_desktop v) (fun x => write_tagged_f32 "WBX0" x) >>>
  wopt (GDDesktop_bg_window_bottom_y_offset_desktop v) (fun x => write_tagged_f32 "WBY0" x) >>>
  wopt (GDDesktop_bg_window_bottom_z_offset_desktop v) (fun x => write_tagged_f32 "WBZ0" x) >>>
  wopt (GDDesktop_bg_view_mode_fullscreen v) (fun x => write_tagged_u32 "VSM1" (ViewLayoutMode_to_u32 x)) >>>
  wskip.

(** Generated by tools/gen_structs.py from src/vpx/gamedata.rs. *)
From Verif Require Import Base Text Biff Quantize Common Enums ItemBase.

(** The fields of [GameData] (gamedata.rs:318-1041) that are written from record ROTF to record WBZ2. *)
Record GDCabinet : Type := mkGDCabinet {
  GDCabinet_bg_rotation_fullscreen : f32;
  GDCabinet_bg_inclination_fullscreen : f32;
  GDCabinet_bg_layback_fullscreen : f32;
  GDCabinet_bg_fov_fullscreen : f32;
  GDCabinet_bg_offset_x_fullscreen : f32;
  GDCabinet_bg_offset_y_fullscreen : f32;
  GDCabinet_bg_offset_z_fullscreen : f32;
  GDCabinet_bg_scale_x_fullscreen : f32;
  GDCabinet_bg_scale_y_fullscreen : f32;
  GDCabinet_bg_scale_z_fullscreen : f32;
  GDCabinet_bg_view_horizontal_offset_fullscreen : option f32;
  GDCabinet_bg_view_vertical_offset_fullscreen : option f32;
  GDCabinet_bg_window_top_x_offset_fullscreen : option f32;
  GDCabinet_bg_window_top_y_offset_fullscreen : option f32;
  GDCabinet_bg_window_top_z_offset_fullscreen : option f32;
  GDCabinet_bg_window_bottom_x_offset_fullscreen : option f32;
  GDCabinet_bg_window_bottom_y_offset_fullscreen : option f32;
  GDCabinet_bg_window_bottom_z_offset_fullscreen : option f32;
  GDCabinet_bg_view_mode_full_single_screen : option ViewLayoutMode;
  GDCabinet_bg_rotation_full_single_screen : option f32;
  GDCabinet_bg_inclination_full_single_screen : option f32;
  GDCabinet_bg_layback_full_single_screen : option f32;
  GDCabinet_bg_fov_full_single_screen : option f32;
  GDCabinet_bg_offset_x_full_single_screen : option f32;
  GDCabinet_bg_offset_y_full_single_screen : option f32;
  GDCabinet_bg_offset_z_full_single_screen : option f32;
  GDCabinet_bg_scale_x_full_single_screen : option f32;
  GDCabinet_bg_scale_y_full_single_screen : option f32;
  GDCabinet_bg_scale_z_full_single_screen : option f32;
  GDCabinet_bg_view_horizontal_offset_full_single_screen : option f32;
  GDCabinet_bg_view_vertical_offset_full_single_screen : option f32;
  GDCabinet_bg_window_top_x_offset_full_single_screen : option f32;
  GDCabinet_bg_window_top_y_offset_full_single_screen : option f32;
  GDCabinet_bg_window_top_z_offset_full_single_screen : option f32;
  GDCabinet_bg_window_bottom_x_offset_full_single_screen : option f32;
  GDCabinet_bg_window_bottom_y_offset_full_single_screen : option f32;
  GDCabinet_bg_window_bottom_z_offset_full_single_screen : option f32 }.
Definition GDCabinet_eta (s : GDCabinet) : GDCabinet := mkGDCabinet (GDCabinet_bg_rotation_fullscreen s) (GDCabinet_bg_inclination_fullscreen s) (GDCabinet_bg_layback_fullscreen s) (GDCabinet_bg_fov_fullscreen s) (GDCabinet_bg_offset_x_fullscreen s) (GDCabinet_bg_offset_y_fullscreen s) (GDCabinet_bg_offset_z_fullscreen s) (GDCabinet_bg_scale_x_fullscreen s) (GDCabinet_bg_scale_y_fullscreen s) (GDCabinet_bg_scale_z_fullscreen s) (GDCabinet_bg_view_horizontal_offset_fullscreen s) (GDCabinet_bg_view_vertical_offset_fullscreen s) (GDCabinet_bg_window_top_x_offset_fullscreen s) (GDCabinet_bg_window_top_y_offset_fullscreen s) (GDCabinet_bg_window_top_z_offset_fullscreen s) (GDCabinet_bg_window_bottom_x_offset_fullscreen s) (GDCabinet_bg_window_bottom_y_offset_fullscreen s) (GDCabinet_bg_window_bottom_z_offset_fullscreen s) (GDCabinet_bg_view_mode_full_single_screen s) (GDCabinet_bg_rotation_full_single_screen s) (GDCabinet_bg_inclination_full_single_screen s) (GDCabinet_bg_layback_full_single_screen s) (GDCabinet_bg_fov_full_single_screen s) (GDCabinet_bg_offset_x_full_single_screen s) (GDCabinet_bg_offset_y_full_single_screen s) (GDCabinet_bg_offset_z_full_single_screen s) (GDCabinet_bg_scale_x_full_single_screen s) (GDCabinet_bg_scale_y_full_single_screen s) (GDCabinet_bg_scale_z_full_single_screen s) (GDCabinet_bg_view_horizontal_offset_full_single_screen s) (GDCabinet_bg_view_vertical_offset_full_single_screen s) (GDCabinet_bg_window_top_x_offset_full_single_screen s) (GDCabinet_bg_window_top_y_offset_full_single_screen s) (GDCabinet_bg_window_top_z_offset_full_single_screen s) (GDCabinet_bg_window_bottom_x_offset_full_single_screen s) (GDCabinet_bg_window_bottom_y_offset_full_single_screen s) (GDCabinet_bg_window_bottom_z_offset_full_single_screen s).
(** Assignments to one field. *)
Definition set_GDCabinet_bg_rotation_fullscreen (x : f32) (s : GDCabinet) : GDCabinet := ltac:(setter GDCabinet_eta GDCabinet_bg_rotation_fullscreen s x).
Definition set_GDCabinet_bg_inclination_fullscreen (x : f32) (s : GDCabinet) : GDCabinet := ltac:(setter GDCabinet_eta GDCabinet_bg_inclination_fullscreen s x).
Definition set_GDCabinet_bg_layback_fullscreen (x : f32) (s : GDCabinet) : GDCabinet := ltac:(setter GDCabinet_eta GDCabinet_bg_layback_fullscreen s x).
Definition set_GDCabinet_bg_fov_fullscreen (x : f32) (s : GDCabinet) : GDCabinet := ltac:(setter GDCabinet_eta GDCabinet_bg_fov_fullscreen s x).
Definition set_GDCabinet_bg_offset_x_fullscreen (x : f32) (s : GDCabinet) : GDCabinet := ltac:(setter GDCabinet_eta GDCabinet_bg_offset_x_fullscreen s x).
Definition set_GDCabinet_bg_offset_y_fullscreen (x : f32) (s : GDCabinet) : GDCabinet := ltac:(setter GDCabinet_eta GDCabinet_bg_offset_y_fullscreen s x).
Definition set_GDCabinet_bg_offset_z_fullscreen (x : f32) (s : GDCabinet) : GDCabinet := ltac:(setter GDCabinet_eta GDCabinet_bg_offset_z_fullscreen s x).
Definition set_GDCabinet_bg_scale_x_fullscreen (x : f32) (s : GDCabinet) : GDCabinet := ltac:(setter GDCabinet_eta GDCabinet_bg_scale_x_fullscreen s x).
Definition set_GDCabinet_bg_scale_y_fullscreen (x : f32) (s : GDCabinet) : GDCabinet := ltac:(setter GDCabinet_eta GDCabinet_bg_scale_y_fullscreen s x).
Definition set_GDCabinet_bg_scale_z_fullscreen (x : f32) (s : GDCabinet) : GDCabinet := ltac:(setter GDCabinet_eta GDCabinet_bg_scale_z_fullscreen s x).
Definition set_GDCabinet_bg_view_horizontal_offset_fullscreen (x : option f32) (s : GDCabinet) : GDCabinet := ltac:(setter GDCabinet_eta GDCabinet_bg_view_horizontal_offset_fullscreen s x).
Definition set_GDCabinet_bg_view_vertical_offset_fullscreen (x : option f32) (s : GDCabinet) : GDCabinet := ltac:(setter GDCabinet_eta GDCabinet_bg_view_vertical_offset_fullscreen s x).
Definition set_GDCabinet_bg_window_top_x_offset_fullscreen (x : option f32) (s : GDCabinet) : GDCabinet := ltac:(setter GDCabinet_eta GDCabinet_bg_window_top_x_offset_fullscreen s x).
Definition set_GDCabinet_bg_window_top_y_offset_fullscreen (x : option f32) (s : GDCabinet) : GDCabinet := ltac:(setter GDCabinet_eta GDCabinet_bg_window_top_y_offset_fullscreen s x).
Definition set_GDCabinet_bg_window_top_z_offset_fullscreen (x : option f32) (s : GDCabinet) : GDCabinet := ltac:(setter GDCabinet_eta GDCabinet_bg_window_top_z_offset_fullscreen s x).
Definition set_GDCabinet_bg_window_bottom_x_offset_fullscreen (x : option f32) (s : GDCabinet) : GDCabinet := ltac:(setter GDCabinet_eta GDCabinet_bg_window_bottom_x_offset_fullscreen s x).
Definition set_GDCabinet_bg_window_bottom_y_offset_fullscreen (x : option f32) (s : GDCabinet) : GDCabinet := ltac:(setter GDCabinet_eta GDCabinet_bg_window_bottom_y_offset_fullscreen s x).
Definition set_GDCabinet_bg_window_bottom_z_offset_fullscreen (x : option f32) (s : GDCabinet) : GDCabinet := ltac:(setter GDCabinet_eta GDCabinet_bg_window_bottom_z_offset_fullscreen s x).
Definition set_GDCabinet_bg_view_mode_full_single_screen (x : option ViewLayoutMode) (s : GDCabinet) : GDCabinet := ltac:(setter GDCabinet_eta GDCabinet_bg_view_mode_full_single_screen s x).
Definition set_GDCabinet_bg_rotation_full_single_screen (x : option f32) (s : GDCabinet) : GDCabinet := ltac:(setter GDCabinet_eta GDCabinet_bg_rotation_full_single_screen s x).
Definition set_GDCabinet_bg_inclination_full_single_screen (x : option f32) (s : GDCabinet) : GDCabinet := ltac:(setter GDCabinet_eta GDCabinet_bg_inclination_full_single_screen s x).
Definition set_GDCabinet_bg_layback_full_single_screen (x : option f32) (s : GDCabinet) : GDCabinet := ltac:(setter GDCabinet_eta GDCabinet_bg_layback_full_single_screen s x).
Definition set_GDCabinet_bg_fov_full_single_screen (x : option f32) (s : GDCabinet) : GDCabinet := ltac:(setter GDCabinet_eta GDCabinet_bg_fov_full_single_screen s x).
Definition set_GDCabinet_bg_offset_x_full_single_screen (x : option f32) (s : GDCabinet) : GDCabinet := ltac:(setter GDCabinet_eta GDCabinet_bg_offset_x_full_single_screen s x).
Definition set_GDCabinet_bg_offset_y_full_single_screen (x : option f32) (s : GDCabinet) : GDCabinet := ltac:(setter GDCabinet_eta GDCabinet_bg_offset_y_full_single_screen s x).
Definition set_GDCabinet_bg_offset_z_full_single_screen (x : option f32) (s : GDCabinet) : GDCabinet := ltac:(setter GDCabinet_eta GDCabinet_bg_offset_z_full_single_screen s x).
Definition set_GDCabinet_bg_scale_x_full_single_screen (x : option f32) (s : GDCabinet) : GDCabinet := ltac:(setter GDCabinet_eta GDCabinet_bg_scale_x_full_single_screen s x).
Definition set_GDCabinet_bg_scale_y_full_single_screen (x : option f32) (s : GDCabinet) : GDCabinet := ltac:(setter GDCabinet_eta GDCabinet_bg_scale_y_full_single_screen s x).
Definition set_GDCabinet_bg_scale_z_full_single_screen (x : option f32) (s : GDCabinet) : GDCabinet := ltac:(setter GDCabinet_eta GDCabinet_bg_scale_z_full_single_screen s x).
Definition set_GDCabinet_bg_view_horizontal_offset_full_single_screen (x : option f32) (s : GDCabinet) : GDCabinet := ltac:(setter GDCabinet_eta GDCabinet_bg_view_horizontal_offset_full_single_screen s x).
Definition set_GDCabinet_bg_view_vertical_offset_full_single_screen (x : option f32) (s : GDCabinet) : GDCabinet := ltac:(setter GDCabinet_eta GDCabinet_bg_view_vertical_offset_full_single_screen s x).
Definition set_GDCabinet_bg_window_top_x_offset_full_single_screen (x : option f32) (s : GDCabinet) : GDCabinet := ltac:(setter GDCabinet_eta GDCabinet_bg_window_top_x_offset_full_single_screen s x).
Definition set_GDCabinet_bg_window_top_y_offset_full_single_screen (x : option f32) (s : GDCabinet) : GDCabinet := ltac:(setter GDCabinet_eta GDCabinet_bg_window_top_y_offset_full_single_screen s x).
Definition set_GDCabinet_bg_window_top_z_offset_full_single_screen (x : option f32) (s : GDCabinet) : GDCabinet := ltac:(setter GDCabinet_eta GDCabinet_bg_window_top_z_offset_full_single_screen s x).
Definition set_GDCabinet_bg_window_bottom_x_offset_full_single_screen (x : option f32) (s : GDCabinet) : GDCabinet := ltac:(setter GDCabinet_eta GDCabinet_bg_window_bottom_x_offset_full_single_screen s x).
Definition set_GDCabinet_bg_window_bottom_y_offset_full_single_screen (x : option f32) (s : GDCabinet) : GDCabinet := ltac:(setter GDCabinet_eta GDCabinet_bg_window_bottom_y_offset_full_single_screen s x).
Definition set_GDCabinet_bg_window_bottom_z_offset_full_single_screen (x : option f32) (s : GDCabinet) : GDCabinet := ltac:(setter GDCabinet_eta GDCabinet_bg_window_bottom_z_offset_full_single_screen s x).
(** gamedata.rs:1568-1727 *)
Definition GDCabinet_default : GDCabinet := mkGDCabinet
  f32_0
  f32_0
  f32_0
  (Z_to_w32 1110704128) (* 45.0 *)
  (Z_to_w32 1121714176) (* 110.0 *)
  (Z_to_w32 3266052096) (* -86.0 *)
  (Z_to_w32 1137180672) (* 400.0 *)
  (Z_to_w32 1067869798) (* 1.3 *)
  (Z_to_w32 1068792545) (* 1.41 *)
  (Z_to_w32 1065353216) (* 1.0 *)
  None
  None
  None
  None
  None
  None
  None
  None
  None
  None
  None
  None
  None
  None
  None
  None
  None
  None
  None
  None
  None
  None
  None
  None
  None
  None
  None.
(** gamedata.rs:2087-2323, the arms of the record loop and its fallback *)
Definition GDCabinet_own_arms : list (arm GDCabinet) :=
  [
    ("ROTF", fun s => x <- get_f32 ;; rret (set_GDCabinet_bg_rotation_fullscreen x s)); (* 2132 *)
    ("INCF", fun s => x <- get_f32 ;; rret (set_GDCabinet_bg_inclination_fullscreen x s)); (* 2133 *)
    ("LAYF", fun s => x <- get_f32 ;; rret (set_GDCabinet_bg_layback_fullscreen x s)); (* 2134 *)
    ("FOVF", fun s => x <- get_f32 ;; rret (set_GDCabinet_bg_fov_fullscreen x s)); (* 2135 *)
    ("XLFX", fun s => x <- get_f32 ;; rret (set_GDCabinet_bg_offset_x_fullscreen x s)); (* 2136 *)
    ("XLFY", fun s => x <- get_f32 ;; rret (set_GDCabinet_bg_offset_y_fullscreen x s)); (* 2137 *)
    ("XLFZ", fun s => x <- get_f32 ;; rret (set_GDCabinet_bg_offset_z_fullscreen x s)); (* 2138 *)
    ("SCFX", fun s => x <- get_f32 ;; rret (set_GDCabinet_bg_scale_x_fullscreen x s)); (* 2139 *)
    ("SCFY", fun s => x <- get_f32 ;; rret (set_GDCabinet_bg_scale_y_fullscreen x s)); (* 2140 *)
    ("SCFZ", fun s => x <- get_f32 ;; rret (set_GDCabinet_bg_scale_z_fullscreen x s)); (* 2141 *)
    ("HOF1", fun s => x <- get_f32 ;; rret (set_GDCabinet_bg_view_horizontal_offset_fullscreen (Some x) s)); (* 2142 *)
    ("VOF1", fun s => x <- get_f32 ;; rret (set_GDCabinet_bg_view_vertical_offset_fullscreen (Some x) s)); (* 2143 *)
    ("WTX1", fun s => x <- get_f32 ;; rret (set_GDCabinet_bg_window_top_x_offset_fullscreen (Some x) s)); (* 2144 *)
    ("WTY1", fun s => x <- get_f32 ;; rret (set_GDCabinet_bg_window_top_y_offset_fullscreen (Some x) s)); (* 2145 *)
    ("WTZ1", fun s => x <- get_f32 ;; rret (set_GDCabinet_bg_window_top_z_offset_fullscreen (Some x) s)); (* 2146 *)
    ("WBX1", fun s => x <- get_f32 ;; rret (set_GDCabinet_bg_window_bottom_x_offset_fullscreen (Some x) s)); (* 2147 *)
    ("WBY1", fun s => x <- get_f32 ;; rret (set_GDCabinet_bg_window_bottom_y_offset_fullscreen (Some x) s)); (* 2148 *)
    ("WBZ1", fun s => x <- get_f32 ;; rret (set_GDCabinet_bg_window_bottom_z_offset_fullscreen (Some x) s)); (* 2149 *)
    ("VSM2", fun s => z <- get_u32 ;; x <- rlift (ViewLayoutMode_of_u32 z) ;; rret (set_GDCabinet_bg_view_mode_full_single_screen (Some x) s)); (* 2150 *)
    ("ROFS", fun s => x <- get_f32 ;; rret (set_GDCabinet_bg_rotation_full_single_screen (Some x) s)); (* 2151 *)
    ("INFS", fun s => x <- get_f32 ;; rret (set_GDCabinet_bg_inclination_full_single_screen (Some x) s)); (* 2152 *)
    ("LAFS", fun s => x <- get_f32 ;; rret (set_GDCabinet_bg_layback_full_single_screen (Some x) s)); (* 2153 *)
    ("FOFS", fun s => x <- get_f32 ;; rret (set_GDCabinet_bg_fov_full_single_screen (Some x) s)); (* 2154 *)
    ("XLXS", fun s => x <- get_f32 ;; rret (set_GDCabinet_bg_offset_x_full_single_screen (Some x) s)); (* 2155 *)
    ("XLYS", fun s => x <- get_f32 ;; rret (set_GDCabinet_bg_offset_y_full_single_screen (Some x) s)); (* 2156 *)
    ("XLZS", fun s => x <- get_f32 ;; rret (set_GDCabinet_bg_offset_z_full_single_screen (Some x) s)); (* 2157 *)
    ("SCXS", fun s => x <- get_f32 ;; rret (set_GDCabinet_bg_scale_x_full_single_screen (Some x) s)); (* 2158 *)
    ("SCYS", fun s => x <- get_f32 ;; rret (set_GDCabinet_bg_scale_y_full_single_screen (Some x) s)); (* 2159 *)
    ("SCZS", fun s => x <- get_f32 ;; rret (set_GDCabinet_bg_scale_z_full_single_screen (Some x) s)); (* 2160 *)
    ("HOF2", fun s => x <- get_f32 ;; rret (set_GDCabinet_bg_view_horizontal_offset_full_single_screen (Some x) s)); (* 2161 *)
    ("VOF2", fun s => x <- get_f32 ;; rret (set_GDCabinet_bg_view_vertical_offset_full_single_screen (Some x) s)); (* 2164 *)
    ("WTX2", fun s => x <- get_f32 ;; rret (set_GDCabinet_bg_window_top_x_offset_full_single_screen (Some x) s)); (* 2165 *)
    ("WTY2", fun s => x <- get_f32 ;; rret (set_GDCabinet_bg_window_top_y_offset_full_single_screen (Some x) s)); (* 2166 *)
    ("WTZ2", fun s => x <- get_f32 ;; rret (set_GDCabinet_bg_window_top_z_offset_full_single_screen (Some x) s)); (* 2167 *)
    ("WBX2", fun s => x <- get_f32 ;; rret (set_GDCabinet_bg_window_bottom_x_offset_full_single_screen (Some x) s)); (* 2168 *)
    ("WBY2", fun s => x <- get_f32 ;; rret (set_GDCabinet_bg_window_bottom_y_offset_full_single_screen (Some x) s)); (* 2171 *)
    ("WBZ2", fun s => x <- get_f32 ;; rret (set_GDCabinet_bg_window_bottom_z_offset_full_single_screen (Some x) s)) (* 2174 *) ]%string.
Definition GDCabinet_arms : list (arm GDCabinet) := GDCabinet_own_arms.
(** gamedata.rs:1735-2085, the part from ROTF to WBZ2 (EFSS excepted) *)
Definition GDCabinet_write (v : GDCabinet) : wr_M :=
  write_tagged_f32 "ROTF" (GDCabinet_bg_rotation_fullscreen v) >>>
  write_tagged_f32 "INCF" (GDCabinet_bg_inclination_fullscreen v) >>>
  write_tagged_f32 "LAYF" (GDCabinet_bg_layback_fullscreen v) >>>
  write_tagged_f32 "FOVF" (GDCabinet_bg_fov_fullscreen v) >>>
  write_tagged_f32 "XLFX" (GDCabinet_bg_offset_x_fullscreen v) >>>
  write_tagged_f32 "XLFY" (GDCabinet_bg_offset_y_fullscreen v) >>>
  write_tagged_f32 "XLFZ" (GDCabinet_bg_offset_z_fullscreen v) >>>
  write_tagged_f32 "SCFX" (GDCabinet_bg_scale_x_fullscreen v) >>>
  write_tagged_f32 "SCFY" (GDCabinet_bg_scale_y_fullscreen v) >>>
  write_tagged_f32 "SCFZ" (GDCabinet_bg_scale_z_fullscreen v) >>>
  wopt (GDCabinet_bg_view_horizontal_offset_fullscreen v) (fun x => write_tagged_f32 "HOF1" x) >>>
  wopt (GDCabinet_bg_view_vertical_offset_fullscreen v) (fun x => write_tagged_f32 "VOF1" x) >>>
  wopt (GDCabinet_bg_window_top_x_offset_fullscreen v) (fun x => write_tagged_f32 "WTX1" x) >>>
  wopt (GDCabinet_bg_window_top_y_offset_fullscreen v) (fun x => write_tagged_f32 "WTY1" x) >>>
  wopt (GDCabinet_bg_window_top_z_offset_fullscreen v) (fun x => write_tagged_f32 "WTZ1" x) >>>
  wopt (GDCabinet_bg_window_bottom_x_offset_fullscreen v) (fun x => write_tagged_f32 "WBX1" x) >>>
  wopt (GDCabinet_bg_window_bottom_y_offset_fullscreen v) (fun x => write_tagged_f32 "WBY1" x) >>>
  wopt (GDCabinet_bg_window_bottom_z_offset_fullscreen v) (fun x => write_tagged_f32 "WBZ1" x) >>>
  wopt (GDCabinet_bg_view_mode_full_single_screen v) (fun x => write_tagged_u32 "VSM2" (ViewLayoutMode_to_u32 x)) >>>
  wopt (GDCabinet_bg_rotation_full_single_screen v) (fun x => write_tagged_f32 "ROFS" x) >>>
  wopt (GDCabinet_bg_inclination_full_single_screen v) (fun x => write_tagged_f32 "INFS" x) >>>
  wopt (GDCabinet_bg_layback_full_single_screen v) (fun x => write_tagged_f32 "LAFS" x) >>>
  wopt (GDCabinet_bg_fov_full_single_screen v) (fun x => write_tagged_f32 "FOFS" x) >>>
  wopt (GDCabinet_bg_offset_x_full_single_screen v) (fun x => write_tagged_f32 "XLXS" x) >>>
  wopt (GDCabinet_bg_offset_y_full_single_screen v) (fun x => write_tagged_f32 "XLYS" x) >>>
  wopt (GDCabinet_bg_offset_z_full_single_screen v) (fun x => write_tagged_f32 "XLZS" x) >>>
  wopt (GDCabinet_bg_scale_x_full_single_screen v) (fun x => write_tagged_f32 "SCXS" x) >>>
  wopt (GDCabinet_bg_scale_y_full_single_screen v) (fun x => write_tagged_f32 "SCYS" x) >>>
  wopt (GDCabinet_bg_scale_z_full_single_screen v) (fun x => write_tagged_f32 "SCZS" x) >>>
  wopt (GDCabinet_bg_view_horizontal_offset_full_single_screen v) (fun x => write_tagged_f32 "HOF2" x) >>>
  wopt (GDCabinet_bg_view_vertical_offset_full_single_screen v) (fun x => write_tagged_f32 "VOF2" x) >>>
  wopt (GDCabinet_bg_window_top_x_offset_full_single_screen v) (fun x => write_tagged_f32 "WTX2" x) >>>
  wopt (GDCabinet_bg_window_top_y_offset_full_single_screen v) (fun x => write_tagged_f32 "WTY2" x) >>>
  wopt (GDCabinet_bg_window_top_z_offset_full_single_screen v) (fun x => write_tagged_f32 "WTZ2" x) >>>
  wopt (GDCabinet_bg_window_bottom_x_offset_full_single_screen v) (fun x => write_tagged_f32 "WBX2" x) >>>
  wopt (GDCabinet_bg_window_bottom_y_offset_full_single_screen v) (fun x => write_tagged_f32 "WBY2" x) >>>
  wopt (GDCabinet_bg_window_bottom_z_offset_full_single_screen v) (fun x => write_tagged_f32 "WBZ2" x) >>>
  wskip.

(** Generated by tools/gen_structs.py from src/vpx/gamedata.rs. *)
From Verif Require Import Base Text Biff Quantize Common Enums ItemBase.

(** The fields of [GameData] (gamedata.rs:318-1041) that are written from record ORRP to record FBCK. *)
Record GDPhysics : Type := mkGDPhysics {
  GDPhysics_override_physics : u32;
  GDPhysics_override_physics_flipper : option bool;
  GDPhysics_gravity : f32;
  GDPhysics_friction : f32;
  GDPhysics_elasticity : f32;
  GDPhysics_elastic_falloff : f32;
  GDPhysics_scatter : f32;
  GDPhysics_default_scatter : f32;
  GDPhysics_nudge_time : f32;
  GDPhysics_plunger_normalize : option u32;
  GDPhysics_plunger_filter : option bool;
  GDPhysics_physics_max_loops : u32;
  GDPhysics_render_em_reels : bool;
  GDPhysics_render_decals : bool;
  GDPhysics_offset_x : f32;
  GDPhysics_offset_y : f32;
  GDPhysics_zoom : f32;
  GDPhysics_angle_tilt_max : f32;
  GDPhysics_angle_tilt_min : f32;
  GDPhysics_stereo_max_separation : option f32;
  GDPhysics_stereo_zero_parallax_displacement : option f32;
  GDPhysics_stereo_offset : option f32;
  GDPhysics_overwrite_global_stereo3d : option bool;
  GDPhysics_image : rstring;
  GDPhysics_backglass_image_full_desktop : rstring;
  GDPhysics_backglass_image_full_fullscreen : rstring;
  GDPhysics_backglass_image_full_single_screen : option rstring;
  GDPhysics_image_backdrop_night_day : bool;
  GDPhysics_image_color_grade : rstring;
  GDPhysics_ball_image : rstring;
  GDPhysics_ball_spherical_mapping : option bool;
  GDPhysics_ball_image_front : rstring;
  GDPhysics_env_image : option rstring;
  GDPhysics_notes : option rstring;
  GDPhysics_screen_shot : rstring;
  GDPhysics_display_backdrop : bool }.
Definition GDPhysics_eta (s : GDPhysics) : GDPhysics := mkGDPhysics (GDPhysics_override_physics s) (GDPhysics_override_physics_flipper s) (GDPhysics_gravity s) (GDPhysics_friction s) (GDPhysics_elasticity s) (GDPhysics_elastic_falloff s) (GDPhysics_scatter s) (GDPhysics_default_scatter s) (GDPhysics_nudge_time s) (GDPhysics_plunger_normalize s) (GDPhysics_plunger_filter s) (GDPhysics_physics_max_loops s) (GDPhysics_render_em_reels s) (GDPhysics_render_decals s) (GDPhysics_offset_x s) (GDPhysics_offset_y s) (GDPhysics_zoom s) (GDPhysics_angle_tilt_max s) (GDPhysics_angle_tilt_min s) (GDPhysics_stereo_max_separation s) (GDPhysics_stereo_zero_parallax_displacement s) (GDPhysics_stereo_offset s) (GDPhysics_overwrite_global_stereo3d s) (GDPhysics_image s) (GDPhysics_backglass_image_full_desktop s) (GDPhysics_backglass_image_full_fullscreen s) (GDPhysics_backglass_image_full_single_screen s) (GDPhysics_image_backdrop_night_day s) (GDPhysics_image_color_grade s) (GDPhysics_ball_image s) (GDPhysics_ball_spherical_mapping s) (GDPhysics_ball_image_front s) (GDPhysics_env_image s) (GDPhysics_notes s) (GDPhysics_screen_shot s) (GDPhysics_display_backdrop s).
(** Assignments to one field. *)
Definition set_GDPhysics_override_physics (x : u32) (s : GDPhysics) : GDPhysics := ltac:(setter GDPhysics_eta GDPhysics_override_physics s x).
Definition set_GDPhysics_override_physics_flipper (x : option bool) (s : GDPhysics) : GDPhysics := ltac:(setter GDPhysics_eta GDPhysics_override_physics_flipper s x).
Definition set_GDPhysics_gravity (x : f32) (s : GDPhysics) : GDPhysics := ltac:(setter GDPhysics_eta GDPhysics_gravity s x).
Definition set_GDPhysics_friction (x : f32) (s : GDPhysics) : GDPhysics := ltac:(setter GDPhysics_eta GDPhysics_friction s x).
Definition set_GDPhysics_elasticity (x : f32) (s : GDPhysics) : GDPhysics := ltac:(setter GDPhysics_eta GDPhysics_elasticity s x).
Definition set_GDPhysics_elastic_falloff (x : f32) (s : GDPhysics) : GDPhysics := ltac:(setter GDPhysics_eta GDPhysics_elastic_falloff s x).
Definition set_GDPhysics_scatter (x : f32) (s : GDPhysics) : GDPhysics := ltac:(setter GDPhysics_eta GDPhysics_scatter s x).
Definition set_GDPhysics_default_scatter (x : f32) (s : GDPhysics) : GDPhysics := ltac:(setter GDPhysics_eta GDPhysics_default_scatter s x).
Definition set_GDPhysics_nudge_time (x : f32) (s : GDPhysics) : GDPhysics := ltac:(setter GDPhysics_eta GDPhysics_nudge_time s x).
Definition set_GDPhysics_plunger_normalize (x : option u32) (s : GDPhysics) : GDPhysics := ltac:(setter GDPhysics_eta GDPhysics_plunger_normalize s x).
Definition set_GDPhysics_plunger_filter (x : option bool) (s : GDPhysics) : GDPhysics := ltac:(setter GDPhysics_eta GDPhysics_plunger_filter s x).
Definition set_GDPhysics_physics_max_loops (x : u32) (s : GDPhysics) : GDPhysics := ltac:(setter GDPhysics_eta GDPhysics_physics_max_loops s x).
Definition set_GDPhysics_render_em_reels (x : bool) (s : GDPhysics) : GDPhysics := ltac:(setter GDPhysics_eta GDPhysics_render_em_reels s x).
Definition set_GDPhysics_render_decals (x : bool) (s : GDPhysics) : GDPhysics := ltac:(setter GDPhysics_eta GDPhysics_render_decals s x).
Definition set_GDPhysics_offset_x (x : f32) (s : GDPhysics) : GDPhysics := ltac:(setter GDPhysics_eta GDPhysics_offset_x s x).
Definition set_GDPhysics_offset_y (x : f32) (s : GDPhysics) : GDPhysics := ltac:(setter GDPhysics_eta GDPhysics_offset_y s x).
Definition set_GDPhysics_zoom (x : f32) (s : GDPhysics) : GDPhysics := ltac:(setter GDPhysics_eta GDPhysics_zoom s x).
Definition set_GDPhysics_angle_tilt_max (x : f32) (s : GDPhysics) : GDPhysics := ltac:(setter GDPhysics_eta GDPhysics_angle_tilt_max s x).
Definition set_GDPhysics_angle_tilt_min (x : f32) (s : GDPhysics) : GDPhysics := ltac:(setter GDPhysics_eta GDPhysics_angle_tilt_min s x).
Definition set_GDPhysics_stereo_max_separation (x : option f32) (s : GDPhysics) : GDPhysics := ltac:(setter GDPhysics_eta GDPhysics_stereo_max_separation s x).
Definition set_GDPhysics_stereo_zero_parallax_displacement (x : option f32) (s : GDPhysics) : GDPhysics := ltac:(setter GDPhysics_eta GDPhysics_stereo_zero_parallax_displacement s x).
Definition set_GDPhysics_stereo_offset (x : option f32) (s : GDPhysics) : GDPhysics := ltac:(setter GDPhysics_eta GDPhysics_stereo_offset s x).
Definition set_GDPhysics_overwrite_global_stereo3d (x : option bool) (s : GDPhysics) : GDPhysics := ltac:(setter GDPhysics_eta GDPhysics_overwrite_global_stereo3d s x).
Definition set_GDPhysics_image (x : rstring) (s : GDPhysics) : GDPhysics := ltac:(setter GDPhysics_eta GDPhysics_image s x).
Definition set_GDPhysics_backglass_image_full_desktop (x : rstring) (s : GDPhysics) : GDPhysics := ltac:(setter GDPhysics_eta GDPhysics_backglass_image_full_desktop s x).
Definition set_GDPhysics_backglass_image_full_fullscreen (x : rstring) (s : GDPhysics) : GDPhysics := ltac:(setter GDPhysics_eta GDPhysics_backglass_image_full_fullscreen s x).
Definition set_GDPhysics_backglass_image_full_single_screen (x : option rstring) (s : GDPhysics) : GDPhysics := ltac:(setter GDPhysics_eta GDPhysics_backglass_image_full_single_screen s x).
Definition set_GDPhysics_image_backdrop_night_day (x : bool) (s : GDPhysics) : GDPhysics := ltac:(setter GDPhysics_eta GDPhysics_image_backdrop_night_day s x).
Definition set_GDPhysics_image_color_grade (x : rstring) (s : GDPhysics) : GDPhysics := ltac:(setter GDPhysics_eta GDPhysics_image_color_grade s x).
Definition set_GDPhysics_ball_image (x : rstring) (s : GDPhysics) : GDPhysics := ltac:(setter GDPhysics_eta GDPhysics_ball_image s x).
Definition set_GDPhysics_ball_spherical_mapping (x : option bool) (s : GDPhysics) : GDPhysics := ltac:(setter GDPhysics_eta GDPhysics_ball_spherical_mapping s x).
Definition set_GDPhysics_ball_image_front (x : rstring) (s : GDPhysics) : GDPhysics := ltac:(setter GDPhysics_eta GDPhysics_ball_image_front s x).
Definition set_GDPhysics_env_image (x : option rstring) (s : GDPhysics) : GDPhysics := ltac:(setter GDPhysics_eta GDPhysics_env_image s x).
Definition set_GDPhysics_notes (x : option rstring) (s : GDPhysics) : GDPhysics := ltac:(setter GDPhysics_eta GDPhysics_notes s x).
Definition set_GDPhysics_screen_shot (x : rstring) (s : GDPhysics) : GDPhysics := ltac:(setter GDPhysics_eta GDPhysics_screen_shot s x).
Definition set_GDPhysics_display_backdrop (x : bool) (s : GDPhysics) : GDPhysics := ltac:(setter GDPhysics_eta GDPhysics_display_backdrop s x).
(** gamedata.rs:1568-1727 *)
Definition GDPhysics_default : GDPhysics := mkGDPhysics
  (Z_to_w32 0)
  None
  (Z_to_w32 1071753598) (* 1.762985 *)
  (Z_to_w32 1033476506) (* 0.075 *)
  (Z_to_w32 1048576000) (* 0.25 *)
  f32_0
  f32_0
  f32_0
  (Z_to_w32 1084227584) (* 5.0 *)
  None
  None
  (Z_to_w32 0)
  false
  false
  (Z_to_w32 1139671040) (* 476.0 *)
  (Z_to_w32 1149706240) (* 1081.0 *)
  (Z_to_w32 1056964608) (* 0.5 *)
  (Z_to_w32 1086324736) (* 6.0 *)
  (Z_to_w32 1086324736) (* 6.0 *)
  None
  None
  None
  None
  []
  []
  []
  None
  false
  []
  []
  None
  []
  None
  None
  []
  false.
(** gamedata.rs:2087-2323, the arms of the record loop and its fallback *)
Definition GDPhysics_own_arms : list (arm GDPhysics) :=
  [
    ("ORRP", fun s => x <- get_u32 ;; rret (set_GDPhysics_override_physics x s)); (* 2177 *)
    ("ORPF", fun s => x <- get_bool ;; rret (set_GDPhysics_override_physics_flipper (Some x) s)); (* 2178 *)
    ("GAVT", fun s => x <- get_f32 ;; rret (set_GDPhysics_gravity x s)); (* 2179 *)
    ("FRCT", fun s => x <- get_f32 ;; rret (set_GDPhysics_friction x s)); (* 2180 *)
    ("ELAS", fun s => x <- get_f32 ;; rret (set_GDPhysics_elasticity x s)); (* 2181 *)
    ("ELFA", fun s => x <- get_f32 ;; rret (set_GDPhysics_elastic_falloff x s)); (* 2182 *)
    ("PFSC", fun s => x <- get_f32 ;; rret (set_GDPhysics_scatter x s)); (* 2183 *)
    ("SCAT", fun s => x <- get_f32 ;; rret (set_GDPhysics_default_scatter x s)); (* 2184 *)
    ("NDGT", fun s => x <- get_f32 ;; rret (set_GDPhysics_nudge_time x s)); (* 2185 *)
    ("MPGC", fun s => x <- get_u32 ;; rret (set_GDPhysics_plunger_normalize (Some x) s)); (* 2186 *)
    ("MPDF", fun s => x <- get_bool ;; rret (set_GDPhysics_plunger_filter (Some x) s)); (* 2187 *)
    ("PHML", fun s => x <- get_u32 ;; rret (set_GDPhysics_physics_max_loops x s)); (* 2188 *)
    ("REEL", fun s => x <- get_bool ;; rret (set_GDPhysics_render_em_reels x s)); (* 2189 *)
    ("DECL", fun s => x <- get_bool ;; rret (set_GDPhysics_render_decals x s)); (* 2190 *)
    ("OFFX", fun s => x <- get_f32 ;; rret (set_GDPhysics_offset_x x s)); (* 2191 *)
    ("OFFY", fun s => x <- get_f32 ;; rret (set_GDPhysics_offset_y x s)); (* 2192 *)
    ("ZOOM", fun s => x <- get_f32 ;; rret (set_GDPhysics_zoom x s)); (* 2193 *)
    ("SLPX", fun s => x <- get_f32 ;; rret (set_GDPhysics_angle_tilt_max x s)); (* 2194 *)
    ("SLOP", fun s => x <- get_f32 ;; rret (set_GDPhysics_angle_tilt_min x s)); (* 2195 *)
    ("MAXS", fun s => x <- get_f32 ;; rret (set_GDPhysics_stereo_max_separation (Some x) s)); (* 2196 *)
    ("ZPD", fun s => x <- get_f32 ;; rret (set_GDPhysics_stereo_zero_parallax_displacement (Some x) s)); (* 2197 *)
    ("STO", fun s => x <- get_f32 ;; rret (set_GDPhysics_stereo_offset (Some x) s)); (* 2198 *)
    ("OGST", fun s => x <- get_bool ;; rret (set_GDPhysics_overwrite_global_stereo3d (Some x) s)); (* 2199 *)
    ("IMAG", fun s => x <- get_string ;; rret (set_GDPhysics_image x s)); (* 2200 *)
    ("BIMG", fun s => x <- get_string ;; rret (set_GDPhysics_backglass_image_full_desktop x s)); (* 2201 *)
    ("BIMF", fun s => x <- get_string ;; rret (set_GDPhysics_backglass_image_full_fullscreen x s)); (* 2202 *)
    ("BIMS", fun s => x <- get_string ;; rret (set_GDPhysics_backglass_image_full_single_screen (Some x) s)); (* 2203 *)
    ("BIMN", fun s => x <- get_bool ;; rret (set_GDPhysics_image_backdrop_night_day x s)); (* 2204 *)
    ("IMCG", fun s => x <- get_string ;; rret (set_GDPhysics_image_color_grade x s)); (* 2205 *)
    ("BLIM", fun s => x <- get_string ;; rret (set_GDPhysics_ball_image x s)); (* 2206 *)
    ("BLSM", fun s => x <- get_bool ;; rret (set_GDPhysics_ball_spherical_mapping (Some x) s)); (* 2207 *)
    ("BLIF", fun s => x <- get_string ;; rret (set_GDPhysics_ball_image_front x s)); (* 2208 *)
    ("EIMG", fun s => x <- get_string ;; rret (set_GDPhysics_env_image (Some x) s)); (* 2209 *)
    ("NOTX", fun s => x <- get_string ;; rret (set_GDPhysics_notes (Some x) s)); (* 2210 *)
    ("SSHT", fun s => x <- get_string ;; rret (set_GDPhysics_screen_shot x s)); (* 2211 *)
    ("FBCK", fun s => x <- get_bool ;; rret (set_GDPhysics_display_backdrop x s)) (* 2212 *) ]%string.
Definition GDPhysics_arms : list (arm GDPhysics) := GDPhysics_own_arms.
(** gamedata.rs:1735-2085, the part from ORRP to FBCK (EFSS excepted) *)
Definition GDPhysics_write (v : GDPhysics) : wr_M :=
  write_tagged_u32 "ORRP" (GDPhysics_override_physics v) >>>
  wopt (GDPhysics_override_physics_flipper v) (fun x => write_tagged_bool "ORPF" x) >>>
  write_tagged_f32 "GAVT" (GDPhysics_gravity v) >>>
  write_tagged_f32 "FRCT" (GDPhysics_friction v) >>>
  write_tagged_f32 "ELAS" (GDPhysics_elasticity v) >>>
  write_tagged_f32 "ELFA" (GDPhysics_elastic_falloff v) >>>
  write_tagged_f32 "PFSC" (GDPhysics_scatter v) >>>
  write_tagged_f32 "SCAT" (GDPhysics_default_scatter v) >>>
  write_tagged_f32 "NDGT" (GDPhysics_nudge_time v) >>>
  wopt (GDPhysics_plunger_normalize v) (fun x => write_tagged_u32 "MPGC" x) >>>
  wopt (GDPhysics_plunger_filter v) (fun x => write_tagged_bool "MPDF" x) >>>
  write_tagged_u32 "PHML" (GDPhysics_physics_max_loops v) >>>
  write_tagged_bool "REEL" (GDPhysics_render_em_reels v) >>>
  write_tagged_bool "DECL" (GDPhysics_render_decals v) >>>
  write_tagged_f32 "OFFX" (GDPhysics_offset_x v) >>>
  write_tagged_f32 "OFFY" (GDPhysics_offset_y v) >>>
  write_tagged_f32 "ZOOM" (GDPhysics_zoom v) >>>
  write_tagged_f32 "SLPX" (GDPhysics_angle_tilt_max v) >>>
  write_tagged_f32 "SLOP" (GDPhysics_angle_tilt_min v) >>>
  wopt (GDPhysics_stereo_max_separation v) (fun x => write_tagged_f32 "MAXS" x) >>>
  wopt (GDPhysics_stereo_zero_parallax_displacement v) (fun x => write_tagged_f32 "ZPD" x) >>>
  wopt (GDPhysics_stereo_offset v) (fun x => write_tagged_f32 "STO" x) >>>
  wopt (GDPhysics_overwrite_global_stereo3d v) (fun x => write_tagged_bool "OGST" x) >>>
  write_tagged_string "IMAG" (GDPhysics_image v) >>>
  write_tagged_string "BIMG" (GDPhysics_backglass_image_full_desktop v) >>>
  write_tagged_string "BIMF" (GDPhysics_backglass_image_full_fullscreen v) >>>
  wopt (GDPhysics_backglass_image_full_single_screen v) (fun x => write_tagged_string "BIMS" x) >>>
  write_tagged_bool "BIMN" (GDPhysics_image_backdrop_night_day v) >>>
  write_tagged_string "IMCG" (GDPhysics_image_color_grade v) >>>
  write_tagged_string "BLIM" (GDPhysics_ball_image v) >>>
  wopt (GDPhysics_ball_spherical_mapping v) (fun x => write_tagged_bool "BLSM" x) >>>
  write_tagged_string "BLIF" (GDPhysics_ball_image_front v) >>>
  wopt (GDPhysics_env_image v) (fun x => write_tagged_string "EIMG" x) >>>
  wopt (GDPhysics_notes v) (fun x => write_tagged_string "NOTX" x) >>>
  write_tagged_string "SSHT" (GDPhysics_screen_shot v) >>>
  write_tagged_bool "FBCK" (GDPhysics_display_backdrop v) >>>
  wskip.

(** Generated by tools/gen_structs.py from src/vpx/gamedata.rs. *)
From Verif Require Import Base Text Biff Quantize Common Enums ItemBase.

(** The fields of [GameData] (gamedata.rs:318-1041) that are written from record GLAS to record BLST. *)
Record GDScene : Type := mkGDScene {
  GDScene_glass_top_height : f32;
  GDScene_glass_bottom_height : option f32;
  GDScene_table_height : option f32;
  GDScene_playfield_material : rstring;
  GDScene_backdrop_color : Color;
  GDScene_global_difficulty : f32;
  GDScene_light_ambient : Color;
  GDScene_light0_emission : Color;
  GDScene_light_height : f32;
  GDScene_light_range : f32;
  GDScene_light_emission_scale : f32;
  GDScene_env_emission_scale : f32;
  GDScene_global_emission_scale : f32;
  GDScene_ao_scale : f32;
  GDScene_ssr_scale : option f32;
  GDScene_ground_to_lockbar_height : option f32;
  GDScene_table_sound_volume : f32;
  GDScene_table_music_volume : f32;
  GDScene_table_adaptive_vsync : option i32;
  GDScene_use_reflection_for_balls : option i32;
  GDScene_brst : option i32;
  GDScene_playfield_reflection_strength : f32;
  GDScene_use_trail_for_balls : option i32;
  GDScene_ball_decal_mode : bool;
  GDScene_ball_playfield_reflection_strength : option f32;
  GDScene_default_bulb_intensity_scale_on_ball : option f32;
  GDScene_ball_trail_strength : option u32;
  GDScene_user_detail_level : option u32;
  GDScene_overwrite_global_detail_level : option bool;
  GDScene_overwrite_global_day_night : option bool;
  GDScene_show_grid : bool;
  GDScene_reflect_elements_on_playfield : option bool;
  GDScene_use_aal : option i32;
  GDScene_use_fxaa : option i32;
  GDScene_use_ao : option i32;
  GDScene_use_ssr : option i32;
  GDScene_tone_mapper : option ToneMapper;
  GDScene_exposure : option f32;
  GDScene_bloom_strength : f32 }.
Definition GDScene_eta (s : GDScene) : GDScene := mkGDScene (GDScene_glass_top_height s) (GDScene_glass_bottom_height s) (GDScene_table_height s) (GDScene_playfield_material s) (GDScene_backdrop_color s) (GDScene_global_difficulty s) (GDScene_light_ambient s) (GDScene_light0_emission s) (GDScene_light_height s) (GDScene_light_range s) (GDScene_light_emission_scale s) (GDScene_env_emission_scale s) (GDScene_global_emission_scale s) (GDScene_ao_scale s) (GDScene_ssr_scale s) (GDScene_ground_to_lockbar_height s) (GDScene_table_sound_volume s) (GDScene_table_music_volume s) (GDScene_table_adaptive_vsync s) (GDScene_use_reflection_for_balls s) (GDScene_brst s) (GDScene_playfield_reflection_strength s) (GDScene_use_trail_for_balls s) (GDScene_ball_decal_mode s) (GDScene_ball_playfield_reflection_strength s) (GDScene_default_bulb_intensity_scale_on_ball s) (GDScene_ball_trail_strength s) (GDScene_user_detail_level s) (GDScene_overwrite_global_detail_level s) (GDScene_overwrite_global_day_night s) (GDScene_show_grid s) (GDScene_reflect_elements_on_playfield s) (GDScene_use_aal s) (GDScene_use_fxaa s) (GDScene_use_ao s) (GDScene_use_ssr s) (GDScene_tone_mapper s) (GDScene_exposure s) (GDScene_bloom_strength s).
(** Assignments to one field. *)
Definition set_GDScene_glass_top_height (x : f32) (s : GDScene) : GDScene := ltac:(setter GDScene_eta GDScene_glass_top_height s x).
Definition set_GDScene_glass_bottom_height (x : option f32) (s : GDScene) : GDScene := ltac:(setter GDScene_eta GDScene_glass_bottom_height s x).
Definition set_GDScene_table_height (x : option f32) (s : GDScene) : GDScene := ltac:(setter GDScene_eta GDScene_table_height s x).
Definition set_GDScene_playfield_material (x : rstring) (s : GDScene) : GDScene := ltac:(setter GDScene_eta GDScene_playfield_material s x).
Definition set_GDScene_backdrop_color (x : Color) (s : GDScene) : GDScene := ltac:(setter GDScene_eta GDScene_backdrop_color s x).
Definition set_GDScene_global_difficulty (x : f32) (s : GDScene) : GDScene := ltac:(setter GDScene_eta GDScene_global_difficulty s x).
Definition set_GDScene_light_ambient (x : Color) (s : GDScene) : GDScene := ltac:(setter GDScene_eta GDScene_light_ambient s x).
Definition set_GDScene_light0_emission (x : Color) (s : GDScene) : GDScene := ltac:(setter GDScene_eta GDScene_light0_emission s x).
Definition set_GDScene_light_height (x : f32) (s : GDScene) : GDScene := ltac:(setter GDScene_eta GDScene_light_height s x).
Definition set_GDScene_light_range (x : f32) (s : GDScene) : GDScene := ltac:(setter GDScene_eta GDScene_light_range s x).
Definition set_GDScene_light_emission_scale (x : f32) (s : GDScene) : GDScene := ltac:(setter GDScene_eta GDScene_light_emission_scale s x).
Definition set_GDScene_env_emission_scale (x : f32) (s : GDScene) : GDScene := ltac:(setter GDScene_eta GDScene_env_emission_scale s x).
Definition set_GDScene_global_emission_scale (x : f32) (s : GDScene) : GDScene := ltac:(setter GDScene_eta GDScene_global_emission_scale s x).
Definition set_GDScene_ao_scale (x : f32) (s : GDScene) : GDScene := ltac:(setter GDScene_eta GDScene_ao_scale s x).
Definition set_GDScene_ssr_scale (x : option f32) (s : GDScene) : GDScene := ltac:(setter GDScene_eta GDScene_ssr_scale s x).
Definition set_GDScene_ground_to_lockbar_height (x : option f32) (s : GDScene) : GDScene := ltac:(setter GDScene_eta GDScene_ground_to_lockbar_height s x).
Definition set_GDScene_table_sound_volume (x : f32) (s : GDScene) : GDScene := ltac:(setter GDScene_eta GDScene_table_sound_volume s x).
Definition set_GDScene_table_music_volume (x : f32) (s : GDScene) : GDScene := ltac:(setter GDScene_eta GDScene_table_music_volume s x).
Definition set_GDScene_table_adaptive_vsync (x : option i32) (s : GDScene) : GDScene := ltac:(setter GDScene_eta GDScene_table_adaptive_vsync s x).
Definition set_GDScene_use_reflection_for_balls (x : option i32) (s : GDScene) : GDScene := ltac:(setter GDScene_eta GDScene_use_reflection_for_balls s x).
Definition set_GDScene_brst (x : option i32) (s : GDScene) : GDScene := ltac:(setter GDScene_eta GDScene_brst s x).
Definition set_GDScene_playfield_reflection_strength (x : f32) (s : GDScene) : GDScene := ltac:(setter GDScene_eta GDScene_playfield_reflection_strength s x).
Definition set_GDScene_use_trail_for_balls (x : option i32) (s : GDScene) : GDScene := ltac:(setter GDScene_eta GDScene_use_trail_for_balls s x).
Definition set_GDScene_ball_decal_mode (x : bool) (s : GDScene) : GDScene := ltac:(setter GDScene_eta GDScene_ball_decal_mode s x).
Definition set_GDScene_ball_playfield_reflection_strength (x : option f32) (s : GDScene) : GDScene := ltac:(setter GDScene_eta GDScene_ball_playfield_reflection_strength s x).
Definition set_GDScene_default_bulb_intensity_scale_on_ball (x : option f32) (s : GDScene) : GDScene := ltac:(setter GDScene_eta GDScene_default_bulb_intensity_scale_on_ball s x).
Definition set_GDScene_ball_trail_strength (x : option u32) (s : GDScene) : GDScene := ltac:(setter GDScene_eta GDScene_ball_trail_strength s x).
Definition set_GDScene_user_detail_level (x : option u32) (s : GDScene) : GDScene := ltac:(setter GDScene_eta GDScene_user_detail_level s x).
Definition set_GDScene_overwrite_global_detail_level (x : option bool) (s : GDScene) : GDScene := ltac:(setter GDScene_eta GDScene_overwrite_global_detail_level s x).
Definition set_GDScene_overwrite_global_day_night (x : option bool) (s : GDScene) : GDScene := ltac:(setter GDScene_eta GDScene_overwrite_global_day_night s x).
Definition set_GDScene_show_grid (x : bool) (s : GDScene) : GDScene := ltac:(setter GDScene_eta GDScene_show_grid s x).
Definition set_GDScene_reflect_elements_on_playfield (x : option bool) (s : GDScene) : GDScene := ltac:(setter GDScene_eta GDScene_reflect_elements_on_playfield s x).
Definition set_GDScene_use_aal (x : option i32) (s : GDScene) : GDScene := ltac:(setter GDScene_eta GDScene_use_aal s x).
Definition set_GDScene_use_fxaa (x : option i32) (s : GDScene) : GDScene := ltac:(setter GDScene_eta GDScene_use_fxaa s x).
Definition set_GDScene_use_ao (x : option i32) (s : GDScene) : GDScene := ltac:(setter GDScene_eta GDScene_use_ao s x).
Definition set_GDScene_use_ssr (x : option i32) (s : GDScene) : GDScene := ltac:(setter GDScene_eta GDScene_use_ssr s x).
Definition set_GDScene_tone_mapper (x : option ToneMapper) (s : GDScene) : GDScene := ltac:(setter GDScene_eta GDScene_tone_mapper s x).
Definition set_GDScene_exposure (x : option f32) (s : GDScene) : GDScene := ltac:(setter GDScene_eta GDScene_exposure s x).
Definition set_GDScene_bloom_strength (x : f32) (s : GDScene) : GDScene := ltac:(setter GDScene_eta GDScene_bloom_strength s x).
(** gamedata.rs:1568-1727 *)
Definition GDScene_default : GDScene := mkGDScene
  (Z_to_w32 1137180672) (* 400.0 *)
  None
  None
  []
  (Color_from_rgb 6450830)
  (Z_to_w32 1045220557) (* 0.2 *)
  (Color_rgb 25 25 25)
  (Color_rgb 102 102 102)
  (Z_to_w32 1167867904) (* 5000.0 *)
  (Z_to_w32 1249125376) (* 4000000.0 *)
  (Z_to_w32 1249125376) (* 4000000.0 *)
  (Z_to_w32 1073741824) (* 2.0 *)
  (Z_to_w32 1057300152) (* 0.52 *)
  (Z_to_w32 1071644672) (* 1.75 *)
  None
  None
  (Z_to_w32 1065353216) (* 1.0 *)
  (Z_to_w32 1065353216) (* 1.0 *)
  None
  None
  None
  (Z_to_w32 1065353216) (* 1.0 *)
  None
  false
  None
  None
  None
  None
  None
  None
  true
  None
  None
  None
  None
  None
  None
  None
  (Z_to_w32 1072064102) (* 1.8 *).
(** gamedata.rs:2087-2323, the arms of the record loop and its fallback *)
Definition GDScene_own_arms : list (arm GDScene) :=
  [
    ("GLAS", fun s => x <- get_f32 ;; rret (set_GDScene_glass_top_height x s)); (* 2213 *)
    ("GLAB", fun s => x <- get_f32 ;; rret (set_GDScene_glass_bottom_height (Some x) s)); (* 2214 *)
    ("TBLH", fun s => x <- get_f32 ;; rret (set_GDScene_table_height (Some x) s)); (* 2215 *)
    ("PLMA", fun s => x <- get_string ;; rret (set_GDScene_playfield_material x s)); (* 2216 *)
    ("BCLR", fun s => x <- Color_read ;; rret (set_GDScene_backdrop_color x s)); (* 2217 *)
    ("TDFT", fun s => x <- get_f32 ;; rret (set_GDScene_global_difficulty x s)); (* 2218 *)
    ("LZAM", fun s => x <- Color_read ;; rret (set_GDScene_light_ambient x s)); (* 2219 *)
    ("LZDI", fun s => x <- Color_read ;; rret (set_GDScene_light0_emission x s)); (* 2220 *)
    ("LZHI", fun s => x <- get_f32 ;; rret (set_GDScene_light_height x s)); (* 2221 *)
    ("LZRA", fun s => x <- get_f32 ;; rret (set_GDScene_light_range x s)); (* 2222 *)
    ("LIES", fun s => x <- get_f32 ;; rret (set_GDScene_light_emission_scale x s)); (* 2223 *)
    ("ENES", fun s => x <- get_f32 ;; rret (set_GDScene_env_emission_scale x s)); (* 2224 *)
    ("GLES", fun s => x <- get_f32 ;; rret (set_GDScene_global_emission_scale x s)); (* 2225 *)
    ("AOSC", fun s => x <- get_f32 ;; rret (set_GDScene_ao_scale x s)); (* 2226 *)
    ("SSSC", fun s => x <- get_f32 ;; rret (set_GDScene_ssr_scale (Some x) s)); (* 2227 *)
    ("CLBH", fun s => x <- get_f32 ;; rret (set_GDScene_ground_to_lockbar_height (Some x) s)); (* 2228 *)
    ("SVOL", fun s => x <- get_f32 ;; rret (set_GDScene_table_sound_volume x s)); (* 2229 *)
    ("MVOL", fun s => x <- get_f32 ;; rret (set_GDScene_table_music_volume x s)); (* 2230 *)
    ("AVSY", fun s => x <- get_i32 ;; rret (set_GDScene_table_adaptive_vsync (Some x) s)); (* 2231 *)
    ("BREF", fun s => x <- get_i32 ;; rret (set_GDScene_use_reflection_for_balls (Some x) s)); (* 2232 *)
    ("BRST", fun s => x <- get_i32 ;; rret (set_GDScene_brst (Some x) s)); (* 2233 *)
    ("PLST", fun s => x <- get_dequantized8 ;; rret (set_GDScene_playfield_reflection_strength x s)); (* 2234 *)
    ("BTRA", fun s => x <- get_i32 ;; rret (set_GDScene_use_trail_for_balls (Some x) s)); (* 2237 *)
    ("BDMO", fun s => x <- get_bool ;; rret (set_GDScene_ball_decal_mode x s)); (* 2238 *)
    ("BPRS", fun s => x <- get_f32 ;; rret (set_GDScene_ball_playfield_reflection_strength (Some x) s)); (* 2239 *)
    ("DBIS", fun s => x <- get_f32 ;; rret (set_GDScene_default_bulb_intensity_scale_on_ball (Some x) s)); (* 2240 *)
    ("BTST", fun s => x <- get_u32 ;; rret (set_GDScene_ball_trail_strength (Some x) s)); (* 2241 *)
    ("ARAC", fun s => x <- get_u32 ;; rret (set_GDScene_user_detail_level (Some x) s)); (* 2245 *)
    ("OGAC", fun s => x <- get_bool ;; rret (set_GDScene_overwrite_global_detail_level (Some x) s)); (* 2246 *)
    ("OGDN", fun s => x <- get_bool ;; rret (set_GDScene_overwrite_global_day_night (Some x) s)); (* 2247 *)
    ("GDAC", fun s => x <- get_bool ;; rret (set_GDScene_show_grid x s)); (* 2248 *)
    ("REOP", fun s => x <- get_bool ;; rret (set_GDScene_reflect_elements_on_playfield (Some x) s)); (* 2249 *)
    ("UAAL", fun s => x <- get_i32 ;; rret (set_GDScene_use_aal (Some x) s)); (* 2250 *)
    ("UFXA", fun s => x <- get_i32 ;; rret (set_GDScene_use_fxaa (Some x) s)); (* 2251 *)
    ("UAOC", fun s => x <- get_i32 ;; rret (set_GDScene_use_ao (Some x) s)); (* 2252 *)
    ("USSR", fun s => x <- get_i32 ;; rret (set_GDScene_use_ssr (Some x) s)); (* 2253 *)
    ("TMAP", fun s => z <- get_u32 ;; x <- rlift (ToneMapper_of_u32 z) ;; rret (set_GDScene_tone_mapper (Some x) s)); (* 2254 *)
    ("EXPO", fun s => x <- get_f32 ;; rret (set_GDScene_exposure (Some x) s)); (* 2255 *)
    ("BLST", fun s => x <- get_f32 ;; rret (set_GDScene_bloom_strength x s)) (* 2256 *) ]%string.
Definition GDScene_arms : list (arm GDScene) := GDScene_own_arms.
(** gamedata.rs:1735-2085, the part from GLAS to BLST (EFSS excepted) *)
Definition GDScene_write (v : GDScene) : wr_M :=
  write_tagged_f32 "GLAS" (GDScene_glass_top_height v) >>>
  wopt (GDScene_glass_bottom_height v) (fun x => write_tagged_f32 "GLAB" x) >>>
  wopt (GDScene_table_height v) (fun x => write_tagged_f32 "TBLH" x) >>>
  write_tagged_string "PLMA" (GDScene_playfield_material v) >>>
  write_tagged_with "BCLR" (Color_write (GDScene_backdrop_color v)) >>>
  write_tagged_f32 "TDFT" (GDScene_global_difficulty v) >>>
  write_tagged_with "LZAM" (Color_write (GDScene_light_ambient v)) >>>
  write_tagged_with "LZDI" (Color_write (GDScene_light0_emission v)) >>>
  write_tagged_f32 "LZHI" (GDScene_light_height v) >>>
  write_tagged_f32 "LZRA" (GDScene_light_range v) >>>
  write_tagged_f32 "LIES" (GDScene_light_emission_scale v) >>>
  write_tagged_f32 "ENES" (GDScene_env_emission_scale v) >>>
  write_tagged_f32 "GLES" (GDScene_global_emission_scale v) >>>
  write_tagged_f32 "AOSC" (GDScene_ao_scale v) >>>
  wopt (GDScene_ssr_scale v) (fun x => write_tagged_f32 "SSSC" x) >>>
  wopt (GDScene_ground_to_lockbar_height v) (fun x => write_tagged_f32 "CLBH" x) >>>
  write_tagged_f32 "SVOL" (GDScene_table_sound_volume v) >>>
  write_tagged_f32 "MVOL" (GDScene_table_music_volume v) >>>
  wopt (GDScene_table_adaptive_vsync v) (fun x => write_tagged_i32 "AVSY" x) >>>
  wopt (GDScene_use_reflection_for_balls v) (fun x => write_tagged_i32 "BREF" x) >>>
  wopt (GDScene_brst v) (fun x => write_tagged_i32 "BRST" x) >>>
  write_tagged_quantized8 "PLST" (GDScene_playfield_reflection_strength v) >>>
  wopt (GDScene_use_trail_for_balls v) (fun x => write_tagged_i32 "BTRA" x) >>>
  write_tagged_bool "BDMO" (GDScene_ball_decal_mode v) >>>
  wopt (GDScene_ball_playfield_reflection_strength v) (fun x => write_tagged_f32 "BPRS" x) >>>
  wopt (GDScene_default_bulb_intensity_scale_on_ball v) (fun x => write_tagged_f32 "DBIS" x) >>>
  wopt (GDScene_ball_trail_strength v) (fun x => write_tagged_u32 "BTST" x) >>>
  wopt (GDScene_user_detail_level v) (fun x => write_tagged_u32 "ARAC" x) >>>
  wopt (GDScene_overwrite_global_detail_level v) (fun x => write_tagged_bool "OGAC" x) >>>
  wopt (GDScene_overwrite_global_day_night v) (fun x => write_tagged_bool "OGDN" x) >>>
  write_tagged_bool "GDAC" (GDScene_show_grid v) >>>
  wopt (GDScene_reflect_elements_on_playfield v) (fun x => write_tagged_bool "REOP" x) >>>
  wopt (GDScene_use_aal v) (fun x => write_tagged_i32 "UAAL" x) >>>
  wopt (GDScene_use_fxaa v) (fun x => write_tagged_i32 "UFXA" x) >>>
  wopt (GDScene_use_ao v) (fun x => write_tagged_i32 "UAOC" x) >>>
  wopt (GDScene_use_ssr v) (fun x => write_tagged_i32 "USSR" x) >>>
  wopt (GDScene_tone_mapper v) (fun x => write_tagged_u32 "TMAP" (ToneMapper_to_u32 x)) >>>
  wopt (GDScene_exposure v) (fun x => write_tagged_f32 "EXPO" x) >>>
  write_tagged_f32 "BLST" (GDScene_bloom_strength v) >>>
  wskip.

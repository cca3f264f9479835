(** The JSON form of the game data.  Generated by tools/gen_json.py from the Rust sources. *)
From Verif Require Import Base Text Biff Common Enums GDBounds GDDesktop GDCabinet GDPhysics GDScene Structs GameData Json JsonItems.

(** gamedata.rs:1044-1192 [GameDataJson]; 1373-1533 [from_game_data]; 1196-1369 [to_game_data] *)
Definition jc_GameData {L : json_lib} : jcodec GameData :=
  jc_record (fun x => object
      [put "left" jc_f32 (GDBounds_left (gd_bounds x)); put "top" jc_f32 (GDBounds_top (gd_bounds x)); put "right" jc_f32 (GDBounds_right (gd_bounds x));
       put "bottom" jc_f32 (GDBounds_bottom (gd_bounds x)); put_some "camera_layout_mode" jc_u32 (GDBounds_camera_layout_mode (gd_bounds x));
       put "bg_view_mode_desktop" (jc_option jc_ViewLayoutMode) (GDDesktop_bg_view_mode_desktop (gd_desktop x));
       put "bg_rotation_desktop" jc_f32 (GDDesktop_bg_rotation_desktop (gd_desktop x));
       put "bg_inclination_desktop" jc_f32 (GDDesktop_bg_inclination_desktop (gd_desktop x));
       put "bg_layback_desktop" jc_f32 (GDDesktop_bg_layback_desktop (gd_desktop x)); put "bg_fov_desktop" jc_f32 (GDDesktop_bg_fov_desktop (gd_desktop x));
       put "bg_offset_x_desktop" jc_f32 (GDDesktop_bg_offset_x_desktop (gd_desktop x));
       put "bg_offset_y_desktop" jc_f32 (GDDesktop_bg_offset_y_desktop (gd_desktop x));
       put "bg_offset_z_desktop" jc_f32 (GDDesktop_bg_offset_z_desktop (gd_desktop x));
       put "bg_scale_x_desktop" jc_f32 (GDDesktop_bg_scale_x_desktop (gd_desktop x));
       put "bg_scale_y_desktop" jc_f32 (GDDesktop_bg_scale_y_desktop (gd_desktop x));
       put "bg_scale_z_desktop" jc_f32 (GDDesktop_bg_scale_z_desktop (gd_desktop x)); put "bg_enable_fss" (jc_option jc_bool) (gd_bg_enable_fss x);
       put "bg_view_horizontal_offset_desktop" (jc_option jc_f32) (GDDesktop_bg_view_horizontal_offset_desktop (gd_desktop x));
       put "bg_view_vertical_offset_desktop" (jc_option jc_f32) (GDDesktop_bg_view_vertical_offset_desktop (gd_desktop x));
       put "bg_window_top_x_offset_desktop" (jc_option jc_f32) (GDDesktop_bg_window_top_x_offset_desktop (gd_desktop x));
       put "bg_window_top_y_offset_desktop" (jc_option jc_f32) (GDDesktop_bg_window_top_y_offset_desktop (gd_desktop x));
       put "bg_window_top_z_offset_desktop" (jc_option jc_f32) (GDDesktop_bg_window_top_z_offset_desktop (gd_desktop x));
       put "bg_window_bottom_x_offset_desktop" (jc_option jc_f32) (GDDesktop_bg_window_bottom_x_offset_desktop (gd_desktop x));
       put "bg_window_bottom_y_offset_desktop" (jc_option jc_f32) (GDDesktop_bg_window_bottom_y_offset_desktop (gd_desktop x));
       put "bg_window_bottom_z_offset_desktop" (jc_option jc_f32) (GDDesktop_bg_window_bottom_z_offset_desktop (gd_desktop x));
       put "bg_view_mode_fullscreen" (jc_option jc_ViewLayoutMode) (GDDesktop_bg_view_mode_fullscreen (gd_desktop x));
       put "bg_rotation_fullscreen" jc_f32 (GDCabinet_bg_rotation_fullscreen (gd_cabinet x));
       put "bg_inclination_fullscreen" jc_f32 (GDCabinet_bg_inclination_fullscreen (gd_cabinet x));
       put "bg_layback_fullscreen" jc_f32 (GDCabinet_bg_layback_fullscreen (gd_cabinet x));
       put "bg_fov_fullscreen" jc_f32 (GDCabinet_bg_fov_fullscreen (gd_cabinet x));
       put "bg_offset_x_fullscreen" jc_f32 (GDCabinet_bg_offset_x_fullscreen (gd_cabinet x));
       put "bg_offset_y_fullscreen" jc_f32 (GDCabinet_bg_offset_y_fullscreen (gd_cabinet x));
       put "bg_offset_z_fullscreen" jc_f32 (GDCabinet_bg_offset_z_fullscreen (gd_cabinet x));
       put "bg_scale_x_fullscreen" jc_f32 (GDCabinet_bg_scale_x_fullscreen (gd_cabinet x));
       put "bg_scale_y_fullscreen" jc_f32 (GDCabinet_bg_scale_y_fullscreen (gd_cabinet x));
       put "bg_scale_z_fullscreen" jc_f32 (GDCabinet_bg_scale_z_fullscreen (gd_cabinet x));
       put "bg_view_horizontal_offset_fullscreen" (jc_option jc_f32) (GDCabinet_bg_view_horizontal_offset_fullscreen (gd_cabinet x));
       put "bg_view_vertical_offset_fullscreen" (jc_option jc_f32) (GDCabinet_bg_view_vertical_offset_fullscreen (gd_cabinet x));
       put "bg_window_top_x_offset_fullscreen" (jc_option jc_f32) (GDCabinet_bg_window_top_x_offset_fullscreen (gd_cabinet x));
       put "bg_window_top_y_offset_fullscreen" (jc_option jc_f32) (GDCabinet_bg_window_top_y_offset_fullscreen (gd_cabinet x));
       put "bg_window_top_z_offset_fullscreen" (jc_option jc_f32) (GDCabinet_bg_window_top_z_offset_fullscreen (gd_cabinet x));
       put "bg_window_bottom_x_offset_fullscreen" (jc_option jc_f32) (GDCabinet_bg_window_bottom_x_offset_fullscreen (gd_cabinet x));
       put "bg_window_bottom_y_offset_fullscreen" (jc_option jc_f32) (GDCabinet_bg_window_bottom_y_offset_fullscreen (gd_cabinet x));
       put "bg_window_bottom_z_offset_fullscreen" (jc_option jc_f32) (GDCabinet_bg_window_bottom_z_offset_fullscreen (gd_cabinet x));
       put "bg_view_mode_full_single_screen" (jc_option jc_ViewLayoutMode) (GDCabinet_bg_view_mode_full_single_screen (gd_cabinet x));
       put "bg_rotation_full_single_screen" (jc_option jc_f32) (GDCabinet_bg_rotation_full_single_screen (gd_cabinet x));
       put "bg_inclination_full_single_screen" (jc_option jc_f32) (GDCabinet_bg_inclination_full_single_screen (gd_cabinet x));
       put "bg_layback_full_single_screen" (jc_option jc_f32) (GDCabinet_bg_layback_full_single_screen (gd_cabinet x));
       put "bg_fov_full_single_screen" (jc_option jc_f32) (GDCabinet_bg_fov_full_single_screen (gd_cabinet x));
       put "bg_offset_x_full_single_screen" (jc_option jc_f32) (GDCabinet_bg_offset_x_full_single_screen (gd_cabinet x));
       put "bg_offset_y_full_single_screen" (jc_option jc_f32_nan_inf) (GDCabinet_bg_offset_y_full_single_screen (gd_cabinet x));
       put "bg_offset_z_full_single_screen" (jc_option jc_f32) (GDCabinet_bg_offset_z_full_single_screen (gd_cabinet x));
       put "bg_scale_x_full_single_screen" (jc_option jc_f32) (GDCabinet_bg_scale_x_full_single_screen (gd_cabinet x));
       put "bg_scale_y_full_single_screen" (jc_option jc_f32_nan_inf) (GDCabinet_bg_scale_y_full_single_screen (gd_cabinet x));
       put "bg_scale_z_full_single_screen" (jc_option jc_f32) (GDCabinet_bg_scale_z_full_single_screen (gd_cabinet x));
       put "bg_view_horizontal_offset_full_single_screen" (jc_option jc_f32) (GDCabinet_bg_view_horizontal_offset_full_single_screen (gd_cabinet x));
       put "bg_view_vertical_offset_full_single_screen" (jc_option jc_f32) (GDCabinet_bg_view_vertical_offset_full_single_screen (gd_cabinet x));
       put "bg_window_top_x_offset_full_single_screen" (jc_option jc_f32) (GDCabinet_bg_window_top_x_offset_full_single_screen (gd_cabinet x));
       put "bg_window_top_y_offset_full_single_screen" (jc_option jc_f32) (GDCabinet_bg_window_top_y_offset_full_single_screen (gd_cabinet x));
       put "bg_window_top_z_offset_full_single_screen" (jc_option jc_f32) (GDCabinet_bg_window_top_z_offset_full_single_screen (gd_cabinet x));
       put "bg_window_bottom_x_offset_full_single_screen" (jc_option jc_f32) (GDCabinet_bg_window_bottom_x_offset_full_single_screen (gd_cabinet x));
       put "bg_window_bottom_y_offset_full_single_screen" (jc_option jc_f32) (GDCabinet_bg_window_bottom_y_offset_full_single_screen (gd_cabinet x));
       put "bg_window_bottom_z_offset_full_single_screen" (jc_option jc_f32) (GDCabinet_bg_window_bottom_z_offset_full_single_screen (gd_cabinet x));
       put "override_physics" jc_u32 (GDPhysics_override_physics (gd_physics x));
       put "override_physics_flipper" (jc_option jc_bool) (GDPhysics_override_physics_flipper (gd_physics x));
       put "gravity" jc_f32 (GDPhysics_gravity (gd_physics x)); put "friction" jc_f32 (GDPhysics_friction (gd_physics x));
       put "elasticity" jc_f32 (GDPhysics_elasticity (gd_physics x)); put "elastic_falloff" jc_f32 (GDPhysics_elastic_falloff (gd_physics x));
       put "scatter" jc_f32 (GDPhysics_scatter (gd_physics x)); put "default_scatter" jc_f32 (GDPhysics_default_scatter (gd_physics x));
       put "nudge_time" jc_f32 (GDPhysics_nudge_time (gd_physics x));
       put "plunger_normalize" (jc_option jc_u32) (GDPhysics_plunger_normalize (gd_physics x));
       put "plunger_filter" (jc_option jc_bool) (GDPhysics_plunger_filter (gd_physics x));
       put "physics_max_loops" jc_u32 (GDPhysics_physics_max_loops (gd_physics x)); put "render_em_reels" jc_bool (GDPhysics_render_em_reels (gd_physics x));
       put "render_decals" jc_bool (GDPhysics_render_decals (gd_physics x)); put "offset_x" jc_f32 (GDPhysics_offset_x (gd_physics x));
       put "offset_y" jc_f32 (GDPhysics_offset_y (gd_physics x)); put "zoom" jc_f32 (GDPhysics_zoom (gd_physics x));
       put "angle_tilt_max" jc_f32 (GDPhysics_angle_tilt_max (gd_physics x)); put "angle_tilt_min" jc_f32 (GDPhysics_angle_tilt_min (gd_physics x));
       put "stereo_max_separation" (jc_option jc_f32) (GDPhysics_stereo_max_separation (gd_physics x));
       put "stereo_zero_parallax_displacement" (jc_option jc_f32) (GDPhysics_stereo_zero_parallax_displacement (gd_physics x));
       put "stereo_offset" (jc_option jc_f32) (GDPhysics_stereo_offset (gd_physics x));
       put "overwrite_global_stereo3d" (jc_option jc_bool) (GDPhysics_overwrite_global_stereo3d (gd_physics x));
       put "image" jc_string (GDPhysics_image (gd_physics x));
       put "backglass_image_full_desktop" jc_string (GDPhysics_backglass_image_full_desktop (gd_physics x));
       put "backglass_image_full_fullscreen" jc_string (GDPhysics_backglass_image_full_fullscreen (gd_physics x));
       put "backglass_image_full_single_screen" (jc_option jc_string) (GDPhysics_backglass_image_full_single_screen (gd_physics x));
       put "image_backdrop_night_day" jc_bool (GDPhysics_image_backdrop_night_day (gd_physics x));
       put "image_color_grade" jc_string (GDPhysics_image_color_grade (gd_physics x)); put "ball_image" jc_string (GDPhysics_ball_image (gd_physics x));
       put "ball_spherical_mapping" (jc_option jc_bool) (GDPhysics_ball_spherical_mapping (gd_physics x));
       put "ball_image_front" jc_string (GDPhysics_ball_image_front (gd_physics x));
       put "env_image" (jc_option jc_string) (GDPhysics_env_image (gd_physics x)); put "notes" (jc_option jc_string) (GDPhysics_notes (gd_physics x));
       put "screen_shot" jc_string (GDPhysics_screen_shot (gd_physics x)); put "display_backdrop" jc_bool (GDPhysics_display_backdrop (gd_physics x));
       put "glass_top_height" jc_f32 (GDScene_glass_top_height (gd_scene x));
       put "glass_bottom_height" (jc_option jc_f32) (GDScene_glass_bottom_height (gd_scene x));
       put "table_height" (jc_option jc_f32) (GDScene_table_height (gd_scene x));
       put "playfield_material" jc_string (GDScene_playfield_material (gd_scene x)); put "backdrop_color" jc_Color (GDScene_backdrop_color (gd_scene x));
       put "global_difficulty" jc_f32 (GDScene_global_difficulty (gd_scene x)); put "light_ambient" jc_Color (GDScene_light_ambient (gd_scene x));
       put "light0_emission" jc_Color (GDScene_light0_emission (gd_scene x)); put "light_height" jc_f32 (GDScene_light_height (gd_scene x));
       put "light_range" jc_f32 (GDScene_light_range (gd_scene x)); put "light_emission_scale" jc_f32 (GDScene_light_emission_scale (gd_scene x));
       put "env_emission_scale" jc_f32 (GDScene_env_emission_scale (gd_scene x));
       put "global_emission_scale" jc_f32 (GDScene_global_emission_scale (gd_scene x)); put "ao_scale" jc_f32 (GDScene_ao_scale (gd_scene x));
       put "ssr_scale" (jc_option jc_f32) (GDScene_ssr_scale (gd_scene x));
       put "ground_to_lockbar_height" (jc_option jc_f32) (GDScene_ground_to_lockbar_height (gd_scene x));
       put "table_sound_volume" jc_f32 (GDScene_table_sound_volume (gd_scene x)); put "table_music_volume" jc_f32 (GDScene_table_music_volume (gd_scene x));
       put "table_adaptive_vsync" (jc_option jc_i32) (GDScene_table_adaptive_vsync (gd_scene x));
       put "use_reflection_for_balls" (jc_option jc_i32) (GDScene_use_reflection_for_balls (gd_scene x));
       put "brst" (jc_option jc_i32) (GDScene_brst (gd_scene x));
       put "playfield_reflection_strength" jc_f32 (GDScene_playfield_reflection_strength (gd_scene x));
       put "use_trail_for_balls" (jc_option jc_i32) (GDScene_use_trail_for_balls (gd_scene x));
       put "ball_decal_mode" jc_bool (GDScene_ball_decal_mode (gd_scene x));
       put "ball_playfield_reflection_strength" (jc_option jc_f32) (GDScene_ball_playfield_reflection_strength (gd_scene x));
       put "default_bulb_intensity_scale_on_ball" (jc_option jc_f32) (GDScene_default_bulb_intensity_scale_on_ball (gd_scene x));
       put "ball_trail_strength" (jc_option jc_u32) (GDScene_ball_trail_strength (gd_scene x));
       put "user_detail_level" (jc_option jc_u32) (GDScene_user_detail_level (gd_scene x));
       put "overwrite_global_detail_level" (jc_option jc_bool) (GDScene_overwrite_global_detail_level (gd_scene x));
       put "overwrite_global_day_night" (jc_option jc_bool) (GDScene_overwrite_global_day_night (gd_scene x));
       put "show_grid" jc_bool (GDScene_show_grid (gd_scene x));
       put "reflect_elements_on_playfield" (jc_option jc_bool) (GDScene_reflect_elements_on_playfield (gd_scene x));
       put "use_aal" (jc_option jc_i32) (GDScene_use_aal (gd_scene x)); put "use_fxaa" (jc_option jc_i32) (GDScene_use_fxaa (gd_scene x));
       put "use_ao" (jc_option jc_i32) (GDScene_use_ao (gd_scene x)); put "use_ssr" (jc_option jc_i32) (GDScene_use_ssr (gd_scene x));
       put "tone_mapper" (jc_option jc_ToneMapper) (GDScene_tone_mapper (gd_scene x)); put "bloom_strength" jc_f32 (GDScene_bloom_strength (gd_scene x));
       put "name" jc_string (gt_name (gd_tail x)); put "custom_colors" (jc_array 16 jc_Color) (gt_custom_colors (gd_tail x));
       put "protection_data" (jc_option (jc_list jc_u8)) (gt_protection_data (gd_tail x)); put "locked" (jc_option jc_u32) (gt_locked (gd_tail x));
       put_some "exposure" jc_f32 (GDScene_exposure (gd_scene x)); put_some "is_10_8_0_beta1_to_beta4" jc_bool (if gd_beta x then Some true else None)])
    (fun o =>
      j_left <~ get o ["left"%string] jc_f32 ;; j_top <~ get o ["top"%string] jc_f32 ;; j_right <~ get o ["right"%string] jc_f32 ;;
      j_bottom <~ get o ["bottom"%string] jc_f32 ;; j_camera_layout_mode <~ get o ["camera_layout_mode"%string] (jc_option jc_u32) ;;
      j_bg_view_mode_desktop <~ get o ["bg_view_mode_desktop"%string] (jc_option jc_ViewLayoutMode) ;;
      j_bg_rotation_desktop <~ get o ["bg_rotation_desktop"%string] jc_f32 ;; j_bg_inclination_desktop <~ get o ["bg_inclination_desktop"%string] jc_f32 ;;
      j_bg_layback_desktop <~ get o ["bg_layback_desktop"%string] jc_f32 ;; j_bg_fov_desktop <~ get o ["bg_fov_desktop"%string] jc_f32 ;;
      j_bg_offset_x_desktop <~ get o ["bg_offset_x_desktop"%string] jc_f32 ;; j_bg_offset_y_desktop <~ get o ["bg_offset_y_desktop"%string] jc_f32 ;;
      j_bg_offset_z_desktop <~ get o ["bg_offset_z_desktop"%string] jc_f32 ;; j_bg_scale_x_desktop <~ get o ["bg_scale_x_desktop"%string] jc_f32 ;;
      j_bg_scale_y_desktop <~ get o ["bg_scale_y_desktop"%string] jc_f32 ;; j_bg_scale_z_desktop <~ get o ["bg_scale_z_desktop"%string] jc_f32 ;;
      j_bg_enable_fss <~ get o ["bg_enable_fss"%string] (jc_option jc_bool) ;;
      j_bg_view_horizontal_offset_desktop <~ get o ["bg_view_horizontal_offset_desktop"%string] (jc_option jc_f32) ;;
      j_bg_view_vertical_offset_desktop <~ get o ["bg_view_vertical_offset_desktop"%string] (jc_option jc_f32) ;;
      j_bg_window_top_x_offset_desktop <~ get o ["bg_window_top_x_offset_desktop"%string] (jc_option jc_f32) ;;
      j_bg_window_top_y_offset_desktop <~ get o ["bg_window_top_y_offset_desktop"%string] (jc_option jc_f32) ;;
      j_bg_window_top_z_offset_desktop <~ get o ["bg_window_top_z_offset_desktop"%string] (jc_option jc_f32) ;;
      j_bg_window_bottom_x_offset_desktop <~ get o ["bg_window_bottom_x_offset_desktop"%string] (jc_option jc_f32) ;;
      j_bg_window_bottom_y_offset_desktop <~ get o ["bg_window_bottom_y_offset_desktop"%string] (jc_option jc_f32) ;;
      j_bg_window_bottom_z_offset_desktop <~ get o ["bg_window_bottom_z_offset_desktop"%string] (jc_option jc_f32) ;;
      j_bg_view_mode_fullscreen <~ get o ["bg_view_mode_fullscreen"%string] (jc_option jc_ViewLayoutMode) ;;
      j_bg_rotation_fullscreen <~ get o ["bg_rotation_fullscreen"%string] jc_f32 ;;
      j_bg_inclination_fullscreen <~ get o ["bg_inclination_fullscreen"%string] jc_f32 ;;
      j_bg_layback_fullscreen <~ get o ["bg_layback_fullscreen"%string] jc_f32 ;; j_bg_fov_fullscreen <~ get o ["bg_fov_fullscreen"%string] jc_f32 ;;
      j_bg_offset_x_fullscreen <~ get o ["bg_offset_x_fullscreen"%string] jc_f32 ;;
      j_bg_offset_y_fullscreen <~ get o ["bg_offset_y_fullscreen"%string] jc_f32 ;;
      j_bg_offset_z_fullscreen <~ get o ["bg_offset_z_fullscreen"%string] jc_f32 ;;
      j_bg_scale_x_fullscreen <~ get o ["bg_scale_x_fullscreen"%string] jc_f32 ;;
      j_bg_scale_y_fullscreen <~ get o ["bg_scale_y_fullscreen"%string] jc_f32 ;;
      j_bg_scale_z_fullscreen <~ get o ["bg_scale_z_fullscreen"%string] jc_f32 ;;
      j_bg_view_horizontal_offset_fullscreen <~ get o ["bg_view_horizontal_offset_fullscreen"%string] (jc_option jc_f32) ;;
      j_bg_view_vertical_offset_fullscreen <~ get o ["bg_view_vertical_offset_fullscreen"%string] (jc_option jc_f32) ;;
      j_bg_window_top_x_offset_fullscreen <~ get o ["bg_window_top_x_offset_fullscreen"%string] (jc_option jc_f32) ;;
      j_bg_window_top_y_offset_fullscreen <~ get o ["bg_window_top_y_offset_fullscreen"%string] (jc_option jc_f32) ;;
      j_bg_window_top_z_offset_fullscreen <~ get o ["bg_window_top_z_offset_fullscreen"%string] (jc_option jc_f32) ;;
      j_bg_window_bottom_x_offset_fullscreen <~ get o ["bg_window_bottom_x_offset_fullscreen"%string] (jc_option jc_f32) ;;
      j_bg_window_bottom_y_offset_fullscreen <~ get o ["bg_window_bottom_y_offset_fullscreen"%string] (jc_option jc_f32) ;;
      j_bg_window_bottom_z_offset_fullscreen <~ get o ["bg_window_bottom_z_offset_fullscreen"%string] (jc_option jc_f32) ;;
      j_bg_view_mode_full_single_screen <~ get o ["bg_view_mode_full_single_screen"%string] (jc_option jc_ViewLayoutMode) ;;
      j_bg_rotation_full_single_screen <~ get o ["bg_rotation_full_single_screen"%string] (jc_option jc_f32) ;;
      j_bg_inclination_full_single_screen <~ get o ["bg_inclination_full_single_screen"%string] (jc_option jc_f32) ;;
      j_bg_layback_full_single_screen <~ get o ["bg_layback_full_single_screen"%string] (jc_option jc_f32) ;;
      j_bg_fov_full_single_screen <~ get o ["bg_fov_full_single_screen"%string] (jc_option jc_f32) ;;
      j_bg_offset_x_full_single_screen <~ get o ["bg_offset_x_full_single_screen"%string] (jc_option jc_f32) ;;
      j_bg_offset_y_full_single_screen <~ get o ["bg_offset_y_full_single_screen"%string] (jc_option jc_f32_nan_inf) ;;
      j_bg_offset_z_full_single_screen <~ get o ["bg_offset_z_full_single_screen"%string] (jc_option jc_f32) ;;
      j_bg_scale_x_full_single_screen <~ get o ["bg_scale_x_full_single_screen"%string] (jc_option jc_f32) ;;
      j_bg_scale_y_full_single_screen <~ get o ["bg_scale_y_full_single_screen"%string] (jc_option jc_f32_nan_inf) ;;
      j_bg_scale_z_full_single_screen <~ get o ["bg_scale_z_full_single_screen"%string] (jc_option jc_f32) ;;
      j_bg_view_horizontal_offset_full_single_screen <~ get o ["bg_view_horizontal_offset_full_single_screen"%string] (jc_option jc_f32) ;;
      j_bg_view_vertical_offset_full_single_screen <~ get o ["bg_view_vertical_offset_full_single_screen"%string] (jc_option jc_f32) ;;
      j_bg_window_top_x_offset_full_single_screen <~ get o ["bg_window_top_x_offset_full_single_screen"%string] (jc_option jc_f32) ;;
      j_bg_window_top_y_offset_full_single_screen <~ get o ["bg_window_top_y_offset_full_single_screen"%string] (jc_option jc_f32) ;;
      j_bg_window_top_z_offset_full_single_screen <~ get o ["bg_window_top_z_offset_full_single_screen"%string] (jc_option jc_f32) ;;
      j_bg_window_bottom_x_offset_full_single_screen <~ get o ["bg_window_bottom_x_offset_full_single_screen"%string] (jc_option jc_f32) ;;
      j_bg_window_bottom_y_offset_full_single_screen <~ get o ["bg_window_bottom_y_offset_full_single_screen"%string] (jc_option jc_f32) ;;
      j_bg_window_bottom_z_offset_full_single_screen <~ get o ["bg_window_bottom_z_offset_full_single_screen"%string] (jc_option jc_f32) ;;
      j_override_physics <~ get o ["override_physics"%string] jc_u32 ;;
      j_override_physics_flipper <~ get o ["override_physics_flipper"%string] (jc_option jc_bool) ;; j_gravity <~ get o ["gravity"%string] jc_f32 ;;
      j_friction <~ get o ["friction"%string] jc_f32 ;; j_elasticity <~ get o ["elasticity"%string] jc_f32 ;;
      j_elastic_falloff <~ get o ["elastic_falloff"%string] jc_f32 ;; j_scatter <~ get o ["scatter"%string] jc_f32 ;;
      j_default_scatter <~ get o ["default_scatter"%string] jc_f32 ;; j_nudge_time <~ get o ["nudge_time"%string] jc_f32 ;;
      j_plunger_normalize <~ get o ["plunger_normalize"%string] (jc_option jc_u32) ;;
      j_plunger_filter <~ get o ["plunger_filter"%string] (jc_option jc_bool) ;; j_physics_max_loops <~ get o ["physics_max_loops"%string] jc_u32 ;;
      j_render_em_reels <~ get o ["render_em_reels"%string] jc_bool ;; j_render_decals <~ get o ["render_decals"%string] jc_bool ;;
      j_offset_x <~ get o ["offset_x"%string] jc_f32 ;; j_offset_y <~ get o ["offset_y"%string] jc_f32 ;; j_zoom <~ get o ["zoom"%string] jc_f32 ;;
      j_angle_tilt_max <~ get o ["angle_tilt_max"%string] jc_f32 ;; j_angle_tilt_min <~ get o ["angle_tilt_min"%string] jc_f32 ;;
      j_stereo_max_separation <~ get o ["stereo_max_separation"%string] (jc_option jc_f32) ;;
      j_stereo_zero_parallax_displacement <~ get o ["stereo_zero_parallax_displacement"%string] (jc_option jc_f32) ;;
      j_stereo_offset <~ get o ["stereo_offset"%string] (jc_option jc_f32) ;;
      j_overwrite_global_stereo3d <~ get o ["overwrite_global_stereo3d"%string] (jc_option jc_bool) ;; j_image <~ get o ["image"%string] jc_string ;;
      j_backglass_image_full_desktop <~ get o ["backglass_image_full_desktop"%string] jc_string ;;
      j_backglass_image_full_fullscreen <~ get o ["backglass_image_full_fullscreen"%string] jc_string ;;
      j_backglass_image_full_single_screen <~ get o ["backglass_image_full_single_screen"%string] (jc_option jc_string) ;;
      j_image_backdrop_night_day <~ get o ["image_backdrop_night_day"%string] jc_bool ;;
      j_image_color_grade <~ get o ["image_color_grade"%string] jc_string ;; j_ball_image <~ get o ["ball_image"%string] jc_string ;;
      j_ball_spherical_mapping <~ get o ["ball_spherical_mapping"%string] (jc_option jc_bool) ;;
      j_ball_image_front <~ get o ["ball_image_front"%string] jc_string ;; j_env_image <~ get o ["env_image"%string] (jc_option jc_string) ;;
      j_notes <~ get o ["notes"%string] (jc_option jc_string) ;; j_screen_shot <~ get o ["screen_shot"%string] jc_string ;;
      j_display_backdrop <~ get o ["display_backdrop"%string] jc_bool ;; j_glass_top_height <~ get o ["glass_top_height"%string] jc_f32 ;;
      j_glass_bottom_height <~ get o ["glass_bottom_height"%string] (jc_option jc_f32) ;;
      j_table_height <~ get o ["table_height"%string] (jc_option jc_f32) ;; j_playfield_material <~ get o ["playfield_material"%string] jc_string ;;
      j_backdrop_color <~ get o ["backdrop_color"%string] jc_Color ;; j_global_difficulty <~ get o ["global_difficulty"%string] jc_f32 ;;
      j_light_ambient <~ get o ["light_ambient"%string] jc_Color ;; j_light0_emission <~ get o ["light0_emission"%string] jc_Color ;;
      j_light_height <~ get o ["light_height"%string] jc_f32 ;; j_light_range <~ get o ["light_range"%string] jc_f32 ;;
      j_light_emission_scale <~ get o ["light_emission_scale"%string] jc_f32 ;; j_env_emission_scale <~ get o ["env_emission_scale"%string] jc_f32 ;;
      j_global_emission_scale <~ get o ["global_emission_scale"%string] jc_f32 ;; j_ao_scale <~ get o ["ao_scale"%string] jc_f32 ;;
      j_ssr_scale <~ get o ["ssr_scale"%string] (jc_option jc_f32) ;;
      j_ground_to_lockbar_height <~ get o ["ground_to_lockbar_height"%string] (jc_option jc_f32) ;;
      j_table_sound_volume <~ get o ["table_sound_volume"%string] jc_f32 ;; j_table_music_volume <~ get o ["table_music_volume"%string] jc_f32 ;;
      j_table_adaptive_vsync <~ get o ["table_adaptive_vsync"%string] (jc_option jc_i32) ;;
      j_use_reflection_for_balls <~ get o ["use_reflection_for_balls"%string] (jc_option jc_i32) ;; j_brst <~ get o ["brst"%string] (jc_option jc_i32) ;;
      j_playfield_reflection_strength <~ get o ["playfield_reflection_strength"%string] jc_f32 ;;
      j_use_trail_for_balls <~ get o ["use_trail_for_balls"%string] (jc_option jc_i32) ;; j_ball_decal_mode <~ get o ["ball_decal_mode"%string] jc_bool ;;
      j_ball_playfield_reflection_strength <~ get o ["ball_playfield_reflection_strength"%string] (jc_option jc_f32) ;;
      j_default_bulb_intensity_scale_on_ball <~ get o ["default_bulb_intensity_scale_on_ball"%string] (jc_option jc_f32) ;;
      j_ball_trail_strength <~ get o ["ball_trail_strength"%string] (jc_option jc_u32) ;;
      j_user_detail_level <~ get o ["user_detail_level"%string] (jc_option jc_u32) ;;
      j_overwrite_global_detail_level <~ get o ["overwrite_global_detail_level"%string] (jc_option jc_bool) ;;
      j_overwrite_global_day_night <~ get o ["overwrite_global_day_night"%string] (jc_option jc_bool) ;;
      j_show_grid <~ get o ["show_grid"%string] jc_bool ;;
      j_reflect_elements_on_playfield <~ get o ["reflect_elements_on_playfield"%string] (jc_option jc_bool) ;;
      j_use_aal <~ get o ["use_aal"%string] (jc_option jc_i32) ;; j_use_fxaa <~ get o ["use_fxaa"%string] (jc_option jc_i32) ;;
      j_use_ao <~ get o ["use_ao"%string] (jc_option jc_i32) ;; j_use_ssr <~ get o ["use_ssr"%string] (jc_option jc_i32) ;;
      j_tone_mapper <~ get o ["tone_mapper"%string] (jc_option jc_ToneMapper) ;; j_bloom_strength <~ get o ["bloom_strength"%string] jc_f32 ;;
      j_name <~ get o ["name"%string] jc_string ;; j_custom_colors <~ get o ["custom_colors"%string] (jc_array 16 jc_Color) ;;
      j_protection_data <~ get o ["protection_data"%string] (jc_option (jc_list jc_u8)) ;; j_locked <~ get o ["locked"%string] (jc_option jc_u32) ;;
      j_exposure <~ get o ["exposure"%string] (jc_option jc_f32) ;;
      j_is_10_8_0_beta1_to_beta4 <~ get o ["is_10_8_0_beta1_to_beta4"%string] (jc_option jc_bool) ;;
      Ok (mkGameData
         (mkGDBounds j_left j_top j_right j_bottom j_camera_layout_mode)
         (mkGDDesktop j_bg_view_mode_desktop j_bg_rotation_desktop j_bg_inclination_desktop j_bg_layback_desktop j_bg_fov_desktop j_bg_offset_x_desktop
           j_bg_offset_y_desktop j_bg_offset_z_desktop j_bg_scale_x_desktop j_bg_scale_y_desktop j_bg_scale_z_desktop j_bg_view_horizontal_offset_desktop
           j_bg_view_vertical_offset_desktop j_bg_window_top_x_offset_desktop j_bg_window_top_y_offset_desktop j_bg_window_top_z_offset_desktop
           j_bg_window_bottom_x_offset_desktop j_bg_window_bottom_y_offset_desktop j_bg_window_bottom_z_offset_desktop j_bg_view_mode_fullscreen)
         (mkGDCabinet j_bg_rotation_fullscreen j_bg_inclination_fullscreen j_bg_layback_fullscreen j_bg_fov_fullscreen j_bg_offset_x_fullscreen j_bg_offset_y_fullscreen
           j_bg_offset_z_fullscreen j_bg_scale_x_fullscreen j_bg_scale_y_fullscreen j_bg_scale_z_fullscreen j_bg_view_horizontal_offset_fullscreen
           j_bg_view_vertical_offset_fullscreen j_bg_window_top_x_offset_fullscreen j_bg_window_top_y_offset_fullscreen j_bg_window_top_z_offset_fullscreen
           j_bg_window_bottom_x_offset_fullscreen j_bg_window_bottom_y_offset_fullscreen j_bg_window_bottom_z_offset_fullscreen j_bg_view_mode_full_single_screen
           j_bg_rotation_full_single_screen j_bg_inclination_full_single_screen j_bg_layback_full_single_screen j_bg_fov_full_single_screen
           j_bg_offset_x_full_single_screen j_bg_offset_y_full_single_screen j_bg_offset_z_full_single_screen j_bg_scale_x_full_single_screen
           j_bg_scale_y_full_single_screen j_bg_scale_z_full_single_screen j_bg_view_horizontal_offset_full_single_screen
           j_bg_view_vertical_offset_full_single_screen j_bg_window_top_x_offset_full_single_screen j_bg_window_top_y_offset_full_single_screen
           j_bg_window_top_z_offset_full_single_screen j_bg_window_bottom_x_offset_full_single_screen j_bg_window_bottom_y_offset_full_single_screen
           j_bg_window_bottom_z_offset_full_single_screen)
         (mkGDPhysics j_override_physics j_override_physics_flipper j_gravity j_friction j_elasticity j_elastic_falloff j_scatter j_default_scatter j_nudge_time
           j_plunger_normalize j_plunger_filter j_physics_max_loops j_render_em_reels j_render_decals j_offset_x j_offset_y j_zoom j_angle_tilt_max
           j_angle_tilt_min j_stereo_max_separation j_stereo_zero_parallax_displacement j_stereo_offset j_overwrite_global_stereo3d j_image
           j_backglass_image_full_desktop j_backglass_image_full_fullscreen j_backglass_image_full_single_screen j_image_backdrop_night_day j_image_color_grade
           j_ball_image j_ball_spherical_mapping j_ball_image_front j_env_image j_notes j_screen_shot j_display_backdrop)
         (mkGDScene j_glass_top_height j_glass_bottom_height j_table_height j_playfield_material j_backdrop_color j_global_difficulty j_light_ambient j_light0_emission
           j_light_height j_light_range j_light_emission_scale j_env_emission_scale j_global_emission_scale j_ao_scale j_ssr_scale j_ground_to_lockbar_height
           j_table_sound_volume j_table_music_volume j_table_adaptive_vsync j_use_reflection_for_balls j_brst j_playfield_reflection_strength
           j_use_trail_for_balls j_ball_decal_mode j_ball_playfield_reflection_strength j_default_bulb_intensity_scale_on_ball j_ball_trail_strength
           j_user_detail_level j_overwrite_global_detail_level j_overwrite_global_day_night j_show_grid j_reflect_elements_on_playfield j_use_aal j_use_fxaa
           j_use_ao j_use_ssr j_tone_mapper j_exposure j_bloom_strength)
         (mkGDTail (Z_to_w32 0) [] None None None (Z_to_w32 0) (Z_to_w32 0) (Z_to_w32 0) (Z_to_w32 0) (Z_to_w32 0) j_name j_custom_colors j_protection_data swe_empty
           j_locked)
         j_bg_enable_fss
         (match j_is_10_8_0_beta1_to_beta4 with Some b => b | None => false end))).

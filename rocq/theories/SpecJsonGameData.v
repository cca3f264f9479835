(** What the JSON form of the game data must keep.  Generated by tools/gen_json.py. *)
From Verif Require Import Base Text Biff Common Enums GDBounds GDDesktop GDCabinet GDPhysics GDScene Structs GameData EnumsFacts SpecJson SpecJsonRecords.

(** As for the items; the custom colours are sixteen. *)
Definition GameData_finite (x : GameData) : Prop :=
  finite (GDBounds_left (gd_bounds x)) /\ finite (GDBounds_top (gd_bounds x)) /\ finite (GDBounds_right (gd_bounds x)) /\
  finite (GDBounds_bottom (gd_bounds x)) /\ finite (GDDesktop_bg_rotation_desktop (gd_desktop x)) /\
  finite (GDDesktop_bg_inclination_desktop (gd_desktop x)) /\ finite (GDDesktop_bg_layback_desktop (gd_desktop x)) /\
  finite (GDDesktop_bg_fov_desktop (gd_desktop x)) /\ finite (GDDesktop_bg_offset_x_desktop (gd_desktop x)) /\
  finite (GDDesktop_bg_offset_y_desktop (gd_desktop x)) /\ finite (GDDesktop_bg_offset_z_desktop (gd_desktop x)) /\
  finite (GDDesktop_bg_scale_x_desktop (gd_desktop x)) /\ finite (GDDesktop_bg_scale_y_desktop (gd_desktop x)) /\
  finite (GDDesktop_bg_scale_z_desktop (gd_desktop x)) /\ for_some finite (GDDesktop_bg_view_horizontal_offset_desktop (gd_desktop x)) /\
  for_some finite (GDDesktop_bg_view_vertical_offset_desktop (gd_desktop x)) /\
  for_some finite (GDDesktop_bg_window_top_x_offset_desktop (gd_desktop x)) /\
  for_some finite (GDDesktop_bg_window_top_y_offset_desktop (gd_desktop x)) /\
  for_some finite (GDDesktop_bg_window_top_z_offset_desktop (gd_desktop x)) /\
  for_some finite (GDDesktop_bg_window_bottom_x_offset_desktop (gd_desktop x)) /\
  for_some finite (GDDesktop_bg_window_bottom_y_offset_desktop (gd_desktop x)) /\
  for_some finite (GDDesktop_bg_window_bottom_z_offset_desktop (gd_desktop x)) /\ finite (GDCabinet_bg_rotation_fullscreen (gd_cabinet x)) /\
  finite (GDCabinet_bg_inclination_fullscreen (gd_cabinet x)) /\ finite (GDCabinet_bg_layback_fullscreen (gd_cabinet x)) /\
  finite (GDCabinet_bg_fov_fullscreen (gd_cabinet x)) /\ finite (GDCabinet_bg_offset_x_fullscreen (gd_cabinet x)) /\
  finite (GDCabinet_bg_offset_y_fullscreen (gd_cabinet x)) /\ finite (GDCabinet_bg_offset_z_fullscreen (gd_cabinet x)) /\
  finite (GDCabinet_bg_scale_x_fullscreen (gd_cabinet x)) /\ finite (GDCabinet_bg_scale_y_fullscreen (gd_cabinet x)) /\
  finite (GDCabinet_bg_scale_z_fullscreen (gd_cabinet x)) /\ for_some finite (GDCabinet_bg_view_horizontal_offset_fullscreen (gd_cabinet x)) /\
  for_some finite (GDCabinet_bg_view_vertical_offset_fullscreen (gd_cabinet x)) /\
  for_some finite (GDCabinet_bg_window_top_x_offset_fullscreen (gd_cabinet x)) /\
  for_some finite (GDCabinet_bg_window_top_y_offset_fullscreen (gd_cabinet x)) /\
  for_some finite (GDCabinet_bg_window_top_z_offset_fullscreen (gd_cabinet x)) /\
  for_some finite (GDCabinet_bg_window_bottom_x_offset_fullscreen (gd_cabinet x)) /\
  for_some finite (GDCabinet_bg_window_bottom_y_offset_fullscreen (gd_cabinet x)) /\
  for_some finite (GDCabinet_bg_window_bottom_z_offset_fullscreen (gd_cabinet x)) /\
  for_some finite (GDCabinet_bg_rotation_full_single_screen (gd_cabinet x)) /\
  for_some finite (GDCabinet_bg_inclination_full_single_screen (gd_cabinet x)) /\
  for_some finite (GDCabinet_bg_layback_full_single_screen (gd_cabinet x)) /\ for_some finite (GDCabinet_bg_fov_full_single_screen (gd_cabinet x)) /\
  for_some finite (GDCabinet_bg_offset_x_full_single_screen (gd_cabinet x)) /\
  for_some finite (GDCabinet_bg_offset_z_full_single_screen (gd_cabinet x)) /\
  for_some finite (GDCabinet_bg_scale_x_full_single_screen (gd_cabinet x)) /\
  for_some finite (GDCabinet_bg_scale_z_full_single_screen (gd_cabinet x)) /\
  for_some finite (GDCabinet_bg_view_horizontal_offset_full_single_screen (gd_cabinet x)) /\
  for_some finite (GDCabinet_bg_view_vertical_offset_full_single_screen (gd_cabinet x)) /\
  for_some finite (GDCabinet_bg_window_top_x_offset_full_single_screen (gd_cabinet x)) /\
  for_some finite (GDCabinet_bg_window_top_y_offset_full_single_screen (gd_cabinet x)) /\
  for_some finite (GDCabinet_bg_window_top_z_offset_full_single_screen (gd_cabinet x)) /\
  for_some finite (GDCabinet_bg_window_bottom_x_offset_full_single_screen (gd_cabinet x)) /\
  for_some finite (GDCabinet_bg_window_bottom_y_offset_full_single_screen (gd_cabinet x)) /\
  for_some finite (GDCabinet_bg_window_bottom_z_offset_full_single_screen (gd_cabinet x)) /\ finite (GDPhysics_gravity (gd_physics x)) /\
  finite (GDPhysics_friction (gd_physics x)) /\ finite (GDPhysics_elasticity (gd_physics x)) /\ finite (GDPhysics_elastic_falloff (gd_physics x)) /\
  finite (GDPhysics_scatter (gd_physics x)) /\ finite (GDPhysics_default_scatter (gd_physics x)) /\ finite (GDPhysics_nudge_time (gd_physics x)) /\
  finite (GDPhysics_offset_x (gd_physics x)) /\ finite (GDPhysics_offset_y (gd_physics x)) /\ finite (GDPhysics_zoom (gd_physics x)) /\
  finite (GDPhysics_angle_tilt_max (gd_physics x)) /\ finite (GDPhysics_angle_tilt_min (gd_physics x)) /\
  for_some finite (GDPhysics_stereo_max_separation (gd_physics x)) /\ for_some finite (GDPhysics_stereo_zero_parallax_displacement (gd_physics x)) /\
  for_some finite (GDPhysics_stereo_offset (gd_physics x)) /\ finite (GDScene_glass_top_height (gd_scene x)) /\
  for_some finite (GDScene_glass_bottom_height (gd_scene x)) /\ for_some finite (GDScene_table_height (gd_scene x)) /\
  finite (GDScene_global_difficulty (gd_scene x)) /\ finite (GDScene_light_height (gd_scene x)) /\ finite (GDScene_light_range (gd_scene x)) /\
  finite (GDScene_light_emission_scale (gd_scene x)) /\ finite (GDScene_env_emission_scale (gd_scene x)) /\
  finite (GDScene_global_emission_scale (gd_scene x)) /\ finite (GDScene_ao_scale (gd_scene x)) /\ for_some finite (GDScene_ssr_scale (gd_scene x)) /\
  for_some finite (GDScene_ground_to_lockbar_height (gd_scene x)) /\ finite (GDScene_table_sound_volume (gd_scene x)) /\
  finite (GDScene_table_music_volume (gd_scene x)) /\ finite (GDScene_playfield_reflection_strength (gd_scene x)) /\
  for_some finite (GDScene_ball_playfield_reflection_strength (gd_scene x)) /\
  for_some finite (GDScene_default_bulb_intensity_scale_on_ball (gd_scene x)) /\
  for_some (fun e => ToneMapper_ok e = true) (GDScene_tone_mapper (gd_scene x)) /\ finite (GDScene_bloom_strength (gd_scene x)) /\
  List.length (gt_custom_colors (gd_tail x)) = 16%nat /\ for_some finite (GDScene_exposure (gd_scene x)).
(** The game data without what other files hold *)
Definition GameData_json_part (x : GameData) : GameData :=
  set_gd_tail (set_gt_code swe_empty (set_gt_collections_size (Z_to_w32 0) (set_gt_fonts_size (Z_to_w32 0) (set_gt_images_size (Z_to_w32 0) (set_gt_sounds_size (Z_to_w32 0) (set_gt_gameitems_size (Z_to_w32 0) (set_gt_render_probes None (set_gt_materials None (set_gt_materials_physics_old None (set_gt_materials_old [] (set_gt_materials_size (Z_to_w32 0) (gd_tail x)))))))))))) x.
Definition game_data_keys : list string := [
  "left"; "top"; "right"; "bottom"; "camera_layout_mode"; "bg_view_mode_desktop"; "bg_rotation_desktop"; "bg_inclination_desktop"; "bg_layback_desktop";
  "bg_fov_desktop"; "bg_offset_x_desktop"; "bg_offset_y_desktop"; "bg_offset_z_desktop"; "bg_scale_x_desktop"; "bg_scale_y_desktop";
  "bg_scale_z_desktop"; "bg_enable_fss"; "bg_view_horizontal_offset_desktop"; "bg_view_vertical_offset_desktop"; "bg_window_top_x_offset_desktop";
  "bg_window_top_y_offset_desktop"; "bg_window_top_z_offset_desktop"; "bg_window_bottom_x_offset_desktop"; "bg_window_bottom_y_offset_desktop";
  "bg_window_bottom_z_offset_desktop"; "bg_view_mode_fullscreen"; "bg_rotation_fullscreen"; "bg_inclination_fullscreen"; "bg_layback_fullscreen";
  "bg_fov_fullscreen"; "bg_offset_x_fullscreen"; "bg_offset_y_fullscreen"; "bg_offset_z_fullscreen"; "bg_scale_x_fullscreen"; "bg_scale_y_fullscreen";
  "bg_scale_z_fullscreen"; "bg_view_horizontal_offset_fullscreen"; "bg_view_vertical_offset_fullscreen"; "bg_window_top_x_offset_fullscreen";
  "bg_window_top_y_offset_fullscreen"; "bg_window_top_z_offset_fullscreen"; "bg_window_bottom_x_offset_fullscreen";
  "bg_window_bottom_y_offset_fullscreen"; "bg_window_bottom_z_offset_fullscreen"; "bg_view_mode_full_single_screen"; "bg_rotation_full_single_screen";
  "bg_inclination_full_single_screen"; "bg_layback_full_single_screen"; "bg_fov_full_single_screen"; "bg_offset_x_full_single_screen";
  "bg_offset_y_full_single_screen"; "bg_offset_z_full_single_screen"; "bg_scale_x_full_single_screen"; "bg_scale_y_full_single_screen";
  "bg_scale_z_full_single_screen"; "bg_view_horizontal_offset_full_single_screen"; "bg_view_vertical_offset_full_single_screen";
  "bg_window_top_x_offset_full_single_screen"; "bg_window_top_y_offset_full_single_screen"; "bg_window_top_z_offset_full_single_screen";
  "bg_window_bottom_x_offset_full_single_screen"; "bg_window_bottom_y_offset_full_single_screen"; "bg_window_bottom_z_offset_full_single_screen";
  "override_physics"; "override_physics_flipper"; "gravity"; "friction"; "elasticity"; "elastic_falloff"; "scatter"; "default_scatter"; "nudge_time";
  "plunger_normalize"; "plunger_filter"; "physics_max_loops"; "render_em_reels"; "render_decals"; "offset_x"; "offset_y"; "zoom"; "angle_tilt_max";
  "angle_tilt_min"; "stereo_max_separation"; "stereo_zero_parallax_displacement"; "stereo_offset"; "overwrite_global_stereo3d"; "image";
  "backglass_image_full_desktop"; "backglass_image_full_fullscreen"; "backglass_image_full_single_screen"; "image_backdrop_night_day";
  "image_color_grade"; "ball_image"; "ball_spherical_mapping"; "ball_image_front"; "env_image"; "notes"; "screen_shot"; "display_backdrop";
  "glass_top_height"; "glass_bottom_height"; "table_height"; "playfield_material"; "backdrop_color"; "global_difficulty"; "light_ambient";
  "light0_emission"; "light_height"; "light_range"; "light_emission_scale"; "env_emission_scale"; "global_emission_scale"; "ao_scale"; "ssr_scale";
  "ground_to_lockbar_height"; "table_sound_volume"; "table_music_volume"; "table_adaptive_vsync"; "use_reflection_for_balls"; "brst";
  "playfield_reflection_strength"; "use_trail_for_balls"; "ball_decal_mode"; "ball_playfield_reflection_strength";
  "default_bulb_intensity_scale_on_ball"; "ball_trail_strength"; "user_detail_level"; "overwrite_global_detail_level"; "overwrite_global_day_night";
  "show_grid"; "reflect_elements_on_playfield"; "use_aal"; "use_fxaa"; "use_ao"; "use_ssr"; "tone_mapper"; "bloom_strength"; "name"; "custom_colors";
  "protection_data"; "locked"; "exposure"; "is_10_8_0_beta1_to_beta4"]%string.

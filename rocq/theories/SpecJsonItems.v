(** What the JSON form of a game item must keep.  Generated by tools/gen_json.py. *)
From Verif Require Import Base Biff Common Enums ItemBall ItemBumper ItemDecal ItemFlasher ItemFlipper ItemGate ItemHitTarget ItemKicker ItemLight ItemLightSequencer ItemPartGroup ItemPlunger ItemPrimitive ItemRamp ItemReel ItemRubber ItemSpinner ItemTextBox ItemTimer ItemTrigger ItemWall GameItem EnumsFacts SpecJson SpecJsonRecords.

(** The floats for which JSON has no form unless they are finite, and the codes of enumerations with a case for unknown codes,
    which must not be those of known ones *)
Definition Ball_finite (x : Ball) : Prop :=
  Vertex3D_finite (Ball_pos x) /\ finite (Ball_radius x) /\ finite (Ball_mass x) /\ finite (Ball_bulb_intensity_scale x) /\
  finite (Ball_playfield_reflection_strength x).
Definition Bumper_finite (x : Bumper) : Prop :=
  Vertex2D_finite (Bumper_center x) /\ finite (Bumper_radius x) /\ finite (Bumper_threshold x) /\ finite (Bumper_force x) /\
  for_some finite (Bumper_scatter x) /\ finite (Bumper_height_scale x) /\ finite (Bumper_ring_speed x) /\ finite (Bumper_orientation x).
Definition Decal_finite (x : Decal) : Prop :=
  Vertex2D_finite (Decal_center x) /\ finite (Decal_width x) /\ finite (Decal_height x) /\ finite (Decal_rotation x).
Definition Flasher_finite (x : Flasher) : Prop :=
  finite (Flasher_height x) /\ finite (Flasher_pos_x x) /\ finite (Flasher_pos_y x) /\ finite (Flasher_rot_x x) /\ finite (Flasher_rot_y x) /\
  finite (Flasher_rot_z x) /\ finite (Flasher_modulate_vs_add x) /\ for_some finite (Flasher_glass_roughness x) /\
  for_some finite (Flasher_glass_pad_top x) /\ for_some finite (Flasher_glass_pad_bottom x) /\ for_some finite (Flasher_glass_pad_left x) /\
  for_some finite (Flasher_glass_pad_right x) /\ finite (Flasher_depth_bias x) /\ Forall DragPoint_finite (Flasher_drag_points x).
Definition Flipper_finite (x : Flipper) : Prop :=
  Vertex2D_finite (Flipper_center x) /\ finite (Flipper_base_radius x) /\ finite (Flipper_end_radius x) /\ finite (Flipper_flipper_radius_max x) /\
  finite (Flipper_return_ x) /\ finite (Flipper_start_angle x) /\ finite (Flipper_end_angle x) /\ finite (Flipper_mass x) /\
  for_some finite (Flipper_rubber_thickness x) /\ for_some finite (Flipper_rubber_height x) /\ for_some finite (Flipper_rubber_width x) /\
  finite (Flipper_strength x) /\ finite (Flipper_elasticity x) /\ finite (Flipper_elasticity_falloff x) /\ finite (Flipper_friction x) /\
  finite (Flipper_ramp_up x) /\ for_some finite (Flipper_scatter x) /\ for_some finite (Flipper_torque_damping x) /\
  for_some finite (Flipper_torque_damping_angle x) /\ finite (Flipper_flipper_radius_min x) /\ finite (Flipper_height x).
Definition Gate_finite (x : Gate) : Prop :=
  Vertex2D_finite (Gate_center x) /\ finite (Gate_length x) /\ finite (Gate_height x) /\ finite (Gate_rotation x) /\ finite (Gate_elasticity x) /\
  finite (Gate_angle_max x) /\ finite (Gate_angle_min x) /\ finite (Gate_friction x) /\ for_some finite (Gate_damping x) /\
  for_some finite (Gate_gravity_factor x) /\ for_some (fun e => GateType_ok e = true) (Gate_gate_type x).
Definition HitTarget_finite (x : HitTarget) : Prop :=
  Vertex3D_finite (HitTarget_position x) /\ Vertex3D_finite (HitTarget_size x) /\ finite (HitTarget_rot_z x) /\ finite (HitTarget_threshold x) /\
  finite (HitTarget_elasticity x) /\ finite (HitTarget_elasticity_falloff x) /\ finite (HitTarget_friction x) /\ finite (HitTarget_scatter x) /\
  for_some finite (HitTarget_disable_lighting_top_old x) /\ for_some finite (HitTarget_disable_lighting_top x) /\
  for_some finite (HitTarget_disable_lighting_below x) /\ finite (HitTarget_depth_bias x) /\ finite (HitTarget_drop_speed x).
Definition Kicker_finite (x : Kicker) : Prop :=
  Vertex2D_finite (Kicker_center x) /\ finite (Kicker_radius x) /\ finite (Kicker_scatter x) /\ finite (Kicker_hit_accuracy x) /\
  for_some finite (Kicker_hit_height x) /\ finite (Kicker_orientation x).
Definition Light_finite (x : Light) : Prop :=
  Vertex2D_finite (Light_center x) /\ for_some finite (Light_height x) /\ finite (Light_falloff_radius x) /\ finite (Light_falloff_power x) /\
  for_some finite (Light_state x) /\ finite (Light_intensity x) /\ finite (Light_transmission_scale x) /\ finite (Light_depth_bias x) /\
  finite (Light_mesh_radius x) /\ finite (Light_bulb_modulate_vs_add x) /\ finite (Light_bulb_halo_height x) /\
  Forall DragPoint_finite (Light_drag_points x).
Definition LightSequencer_finite (x : LightSequencer) : Prop :=
  Vertex2D_finite (LightSequencer_center x) /\ finite (LightSequencer_pos_x x) /\ finite (LightSequencer_pos_y x).
Definition PartGroup_finite (x : PartGroup) : Prop :=
  Vertex2D_finite (PartGroup_center x).
Definition Plunger_finite (x : Plunger) : Prop :=
  Vertex2D_finite (Plunger_center x) /\ finite (Plunger_width x) /\ finite (Plunger_height x) /\ finite (Plunger_z_adjust x) /\
  finite (Plunger_stroke x) /\ finite (Plunger_speed_pull x) /\ finite (Plunger_speed_fire x) /\ finite (Plunger_mech_strength x) /\
  finite (Plunger_park_position x) /\ finite (Plunger_scatter_velocity x) /\ finite (Plunger_momentum_xfer x) /\ finite (Plunger_rod_diam x) /\
  finite (Plunger_ring_gap x) /\ finite (Plunger_ring_diam x) /\ finite (Plunger_ring_width x) /\ finite (Plunger_spring_diam x) /\
  finite (Plunger_spring_gauge x) /\ finite (Plunger_spring_loops x) /\ finite (Plunger_spring_end_loops x).
Definition Primitive_finite (x : Primitive) : Prop :=
  Vertex3D_finite (Primitive_position x) /\ Vertex3D_finite (Primitive_size x) /\ finite (Primitive_rot_and_tra_0 x) /\
  finite (Primitive_rot_and_tra_1 x) /\ finite (Primitive_rot_and_tra_2 x) /\ finite (Primitive_rot_and_tra_3 x) /\
  finite (Primitive_rot_and_tra_4 x) /\ finite (Primitive_rot_and_tra_5 x) /\ finite (Primitive_rot_and_tra_6 x) /\
  finite (Primitive_rot_and_tra_7 x) /\ finite (Primitive_rot_and_tra_8 x) /\ finite (Primitive_threshold x) /\ finite (Primitive_elasticity x) /\
  finite (Primitive_elasticity_falloff x) /\ finite (Primitive_friction x) /\ finite (Primitive_scatter x) /\ finite (Primitive_edge_factor_ui x) /\
  for_some finite (Primitive_collision_reduction_factor x) /\ for_some finite (Primitive_disable_lighting_top_old x) /\
  for_some finite (Primitive_disable_lighting_top x) /\ for_some finite (Primitive_disable_lighting_below x) /\
  for_some Vertex3D_finite (Primitive_min_aa_bound x) /\ for_some Vertex3D_finite (Primitive_max_aa_bound x) /\ finite (Primitive_depth_bias x) /\
  for_some finite (Primitive_alpha x) /\ for_some finite (Primitive_reflection_strength x) /\ for_some finite (Primitive_refraction_thickness x).
Definition Ramp_finite (x : Ramp) : Prop :=
  finite (Ramp_height_bottom x) /\ finite (Ramp_height_top x) /\ finite (Ramp_width_bottom x) /\ finite (Ramp_width_top x) /\
  finite (Ramp_left_wall_height x) /\ finite (Ramp_right_wall_height x) /\ finite (Ramp_left_wall_height_visible x) /\
  finite (Ramp_right_wall_height_visible x) /\ for_some finite (Ramp_threshold x) /\ finite (Ramp_elasticity x) /\ finite (Ramp_friction x) /\
  finite (Ramp_scatter x) /\ finite (Ramp_depth_bias x) /\ finite (Ramp_wire_diameter x) /\ finite (Ramp_wire_distance_x x) /\
  finite (Ramp_wire_distance_y x) /\ Forall DragPoint_finite (Ramp_drag_points x).
Definition Reel_finite (x : Reel) : Prop :=
  Vertex2D_finite (Reel_ver1 x) /\ Vertex2D_finite (Reel_ver2 x) /\ finite (Reel_width x) /\ finite (Reel_height x) /\ finite (Reel_reel_count x) /\
  finite (Reel_reel_spacing x) /\ finite (Reel_motor_steps x) /\ finite (Reel_digit_range x).
Definition Rubber_finite (x : Rubber) : Prop :=
  finite (Rubber_height x) /\ for_some finite (Rubber_hit_height x) /\ finite (Rubber_elasticity x) /\ finite (Rubber_elasticity_falloff x) /\
  finite (Rubber_friction x) /\ finite (Rubber_scatter x) /\ for_some finite (Rubber_radb x) /\ finite (Rubber_rot_x x) /\ finite (Rubber_rot_y x) /\
  finite (Rubber_rot_z x) /\ Forall DragPoint_finite (Rubber_drag_points x).
Definition Spinner_finite (x : Spinner) : Prop :=
  Vertex2D_finite (Spinner_center x) /\ finite (Spinner_rotation x) /\ finite (Spinner_height x) /\ finite (Spinner_length x) /\
  finite (Spinner_damping x) /\ finite (Spinner_angle_max x) /\ finite (Spinner_angle_min x) /\ finite (Spinner_elasticity x).
Definition TextBox_finite (x : TextBox) : Prop :=
  Vertex2D_finite (TextBox_ver1 x) /\ Vertex2D_finite (TextBox_ver2 x) /\ finite (TextBox_intensity_scale x).
Definition Timer_finite (x : Timer) : Prop :=
  Vertex2D_finite (Timer_center x).
Definition Trigger_finite (x : Trigger) : Prop :=
  Vertex2D_finite (Trigger_center x) /\ finite (Trigger_radius x) /\ finite (Trigger_rotation x) /\ for_some finite (Trigger_wire_thickness x) /\
  finite (Trigger_scale_x x) /\ finite (Trigger_scale_y x) /\ finite (Trigger_hit_height x) /\ finite (Trigger_anim_speed x) /\
  Forall DragPoint_finite (Trigger_drag_points x).
Definition Wall_finite (x : Wall) : Prop :=
  finite (Wall_threshold x) /\ finite (Wall_height_bottom x) /\ finite (Wall_height_top x) /\ finite (Wall_slingshot_force x) /\
  finite (Wall_slingshot_threshold x) /\ finite (Wall_elasticity x) /\ for_some finite (Wall_elasticity_falloff x) /\ finite (Wall_friction x) /\
  finite (Wall_scatter x) /\ for_some finite (Wall_disable_lighting_top_old x) /\ for_some finite (Wall_disable_lighting_top x) /\
  for_some finite (Wall_disable_lighting_below x) /\ Forall DragPoint_finite (Wall_drag_points x).

(** The item without what other files hold *)
Definition Ball_json_part (x : Ball) : Ball := set_Ball_editor_layer_visibility None (set_Ball_editor_layer_name None (set_Ball_editor_layer None (set_Ball_is_locked false x))).
Definition Bumper_json_part (x : Bumper) : Bumper := set_Bumper_editor_layer_visibility None (set_Bumper_editor_layer_name None (set_Bumper_editor_layer None (set_Bumper_is_locked false x))).
Definition Decal_json_part (x : Decal) : Decal := set_Decal_editor_layer_visibility None (set_Decal_editor_layer_name None (set_Decal_editor_layer None (set_Decal_is_locked false x))).
Definition Flasher_json_part (x : Flasher) : Flasher := set_Flasher_editor_layer_visibility None (set_Flasher_editor_layer_name None (set_Flasher_editor_layer None (set_Flasher_is_locked false x))).
Definition Flipper_json_part (x : Flipper) : Flipper := set_Flipper_editor_layer_visibility None (set_Flipper_editor_layer_name None (set_Flipper_editor_layer None (set_Flipper_is_locked false x))).
Definition Gate_json_part (x : Gate) : Gate := set_Gate_editor_layer_visibility None (set_Gate_editor_layer_name None (set_Gate_editor_layer None (set_Gate_is_locked false x))).
Definition HitTarget_json_part (x : HitTarget) : HitTarget := set_HitTarget_editor_layer_visibility None (set_HitTarget_editor_layer_name None (set_HitTarget_editor_layer None (set_HitTarget_is_locked false x))).
Definition Kicker_json_part (x : Kicker) : Kicker := set_Kicker_editor_layer_visibility None (set_Kicker_editor_layer_name None (set_Kicker_editor_layer None (set_Kicker_is_locked false x))).
Definition Light_json_part (x : Light) : Light := set_Light_editor_layer_visibility None (set_Light_editor_layer_name None (set_Light_editor_layer None (set_Light_is_locked false x))).
Definition LightSequencer_json_part (x : LightSequencer) : LightSequencer := set_LightSequencer_editor_layer_visibility None (set_LightSequencer_editor_layer_name None (set_LightSequencer_editor_layer None (set_LightSequencer_is_locked None x))).
Definition PartGroup_json_part (x : PartGroup) : PartGroup := x.
Definition Plunger_json_part (x : Plunger) : Plunger := set_Plunger_editor_layer_visibility None (set_Plunger_editor_layer_name None (set_Plunger_editor_layer None (set_Plunger_is_locked false x))).
Definition Primitive_json_part (x : Primitive) : Primitive := set_Primitive_compressed_animation_vertices_data None (set_Primitive_compressed_animation_vertices_len None (set_Primitive_compressed_indices_data None (set_Primitive_compressed_indices_len None (set_Primitive_num_indices None (set_Primitive_compressed_vertices_data None (set_Primitive_compressed_vertices_len None (set_Primitive_num_vertices None (set_Primitive_editor_layer_visibility None (set_Primitive_editor_layer_name None (set_Primitive_editor_layer None (set_Primitive_is_locked false x))))))))))).
Definition Ramp_json_part (x : Ramp) : Ramp := set_Ramp_editor_layer_visibility None (set_Ramp_editor_layer_name None (set_Ramp_editor_layer None (set_Ramp_is_locked false x))).
Definition Reel_json_part (x : Reel) : Reel := set_Reel_editor_layer_visibility None (set_Reel_editor_layer_name None (set_Reel_editor_layer None (set_Reel_is_locked false x))).
Definition Rubber_json_part (x : Rubber) : Rubber := set_Rubber_editor_layer_visibility None (set_Rubber_editor_layer_name None (set_Rubber_editor_layer None (set_Rubber_is_locked false x))).
Definition Spinner_json_part (x : Spinner) : Spinner := set_Spinner_editor_layer_visibility None (set_Spinner_editor_layer_name None (set_Spinner_editor_layer None (set_Spinner_is_locked false x))).
Definition TextBox_json_part (x : TextBox) : TextBox := set_TextBox_editor_layer_visibility None (set_TextBox_editor_layer_name None (set_TextBox_editor_layer None (set_TextBox_is_locked false x))).
Definition Timer_json_part (x : Timer) : Timer := set_Timer_editor_layer_visibility None (set_Timer_editor_layer_name None (set_Timer_editor_layer None (set_Timer_is_locked false x))).
Definition Trigger_json_part (x : Trigger) : Trigger := set_Trigger_editor_layer_visibility None (set_Trigger_editor_layer_name None (set_Trigger_editor_layer None (set_Trigger_is_locked false x))).
Definition Wall_json_part (x : Wall) : Wall := set_Wall_editor_layer_visibility None (set_Wall_editor_layer_name None (set_Wall_editor_layer None (set_Wall_is_locked false x))).

(** All keys that mean something in the JSON form of some item *)
Definition item_keys : list string := [
  "pos"; "radius"; "mass"; "force_reflection"; "decal_mode"; "image"; "image_decal"; "bulb_intensity_scale"; "playfield_reflection_strength"; "color";
  "spherical_mapping"; "is_reflection_enabled"; "is_timer_enabled"; "timer_interval"; "name"; "part_group_name"; "center"; "threshold"; "force";
  "scatter"; "height_scale"; "ring_speed"; "orientation"; "ring_drop_offset"; "cap_material"; "base_material"; "socket_material"; "ring_material";
  "surface"; "is_cap_visible"; "is_base_visible"; "is_ring_visible"; "is_socket_visible"; "hit_event"; "is_collidable"; "width"; "height"; "rotation";
  "text"; "decal_type"; "material"; "sizing_type"; "vertical_text"; "backglass"; "font"; "pos_x"; "pos_y"; "rot_x"; "rot_y"; "rot_z"; "image_a";
  "image_b"; "alpha"; "modulate_vs_add"; "is_visible"; "add_blend"; "is_dmd"; "render_mode"; "render_style"; "glass_roughness"; "glass_ambient";
  "glass_pad_top"; "glass_pad_bottom"; "glass_pad_left"; "glass_pad_right"; "image_src_link"; "display_texture"; "depth_bias"; "image_alignment";
  "filter"; "filter_amount"; "light_map"; "drag_points"; "base_radius"; "end_radius"; "flipper_radius_max"; "return"; "return_"; "start_angle";
  "end_angle"; "override_physics"; "rubber_material"; "rubber_thickness_int"; "rubber_thickness"; "rubber_height_int"; "rubber_height";
  "rubber_width_int"; "rubber_width"; "strength"; "elasticity"; "elasticity_falloff"; "friction"; "ramp_up"; "torque_damping"; "torque_damping_angle";
  "flipper_radius_min"; "is_enabled"; "length"; "show_bracket"; "imgf"; "imgb"; "angle_max"; "angle_min"; "damping"; "gravity_factor"; "two_way";
  "gate_type"; "position"; "size"; "target_type"; "is_legacy"; "use_hit_event"; "disable_lighting_top_old"; "disable_lighting_top";
  "disable_lighting_below"; "is_dropped"; "drop_speed"; "raise_delay"; "physics_material"; "overwrite_physics"; "kicker_type"; "hit_accuracy";
  "hit_height"; "fall_through"; "legacy_mode"; "falloff_radius"; "falloff_power"; "state_u32"; "state"; "color2"; "blink_pattern"; "off_image";
  "blink_interval"; "intensity"; "transmission_scale"; "is_backglass"; "fade_speed_up"; "fade_speed_down"; "is_bulb_light"; "is_image_mode";
  "show_bulb_mesh"; "has_static_bulb_mesh"; "show_reflection_on_ball"; "mesh_radius"; "bulb_modulate_vs_add"; "bulb_halo_height"; "shadows"; "fader";
  "visible"; "collection"; "update_interval"; "visibility_mask"; "space_reference"; "player_mode_visibility_mask"; "is_locked"; "editor_layer_name";
  "editor_layer_visibility"; "z_adjust"; "stroke"; "speed_pull"; "speed_fire"; "plunger_type"; "anim_frames"; "mech_strength"; "is_mech_plunger";
  "auto_plunger"; "park_position"; "scatter_velocity"; "momentum_xfer"; "tip_shape"; "rod_diam"; "ring_gap"; "ring_diam"; "ring_width"; "spring_diam";
  "spring_gauge"; "spring_loops"; "spring_end_loops"; "rot_and_tra"; "normal_map"; "sides"; "side_color"; "draw_textures_inside"; "edge_factor_ui";
  "collision_reduction_factor"; "is_toy"; "use_3d_mesh"; "static_rendering"; "backfaces_enabled"; "object_space_normal_map"; "min_aa_bound";
  "max_aa_bound"; "mesh_file_name"; "use_depth_mask"; "reflection_probe"; "reflection_strength"; "refraction_probe"; "refraction_thickness";
  "height_bottom"; "height_top"; "width_bottom"; "width_top"; "ramp_type"; "image_walls"; "left_wall_height"; "right_wall_height";
  "left_wall_height_visible"; "right_wall_height_visible"; "wire_diameter"; "wire_distance_x"; "wire_distance_y"; "ver1"; "ver2"; "back_color";
  "is_transparent"; "sound"; "reel_count"; "reel_spacing"; "motor_steps"; "digit_range"; "use_image_grid"; "images_per_grid_row"; "thickness"; "radb";
  "show_in_editor"; "font_color"; "intensity_scale"; "align"; "wire_thickness"; "scale_x"; "scale_y"; "shape"; "anim_speed"; "is_droppable";
  "is_flipbook"; "is_bottom_solid"; "side_image"; "side_material"; "top_material"; "slingshot_material"; "slingshot_force"; "slingshot_threshold";
  "is_top_bottom_visible"; "slingshot_animation"; "is_side_visible"]%string.

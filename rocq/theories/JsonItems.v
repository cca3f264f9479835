(** The JSON forms of the game items.  Generated by tools/gen_json.py from the Rust sources. *)
From Verif Require Import Base Biff Common Enums ItemBall ItemBumper ItemDecal ItemFlasher ItemFlipper ItemGate ItemHitTarget ItemKicker ItemLight ItemLightSequencer ItemPartGroup ItemPlunger ItemPrimitive ItemRamp ItemReel ItemRubber ItemSpinner ItemTextBox ItemTimer ItemTrigger ItemWall GameItem Json.

Section Items.
Context {L : json_lib}.

(** The enumerations, as in Enums.v *)
Definition jc_DecalType : jcodec DecalType := jc_enum DecalType_to_json DecalType_of_json.
Definition jc_SizingType : jcodec SizingType := jc_enum SizingType_to_json SizingType_of_json.
Definition jc_Filter : jcodec Filter := jc_enum Filter_to_json Filter_of_json.
Definition jc_RenderMode : jcodec RenderMode := jc_enum RenderMode_to_json RenderMode_of_json.
Definition jc_GateType : jcodec GateType := jc_enum GateType_to_json GateType_of_json.
Definition jc_TargetType : jcodec TargetType := jc_enum TargetType_to_json TargetType_of_json.
Definition jc_KickerType : jcodec KickerType := jc_enum KickerType_to_json KickerType_of_json.
Definition jc_ShadowMode : jcodec ShadowMode := jc_enum ShadowMode_to_json ShadowMode_of_json.
Definition jc_Fader : jcodec Fader := jc_enum Fader_to_json Fader_of_json.
Definition jc_SpaceReference : jcodec SpaceReference := jc_enum SpaceReference_to_json SpaceReference_of_json.
Definition jc_PlungerType : jcodec PlungerType := jc_enum PlungerType_to_json PlungerType_of_json.
Definition jc_RampType : jcodec RampType := jc_enum RampType_to_json RampType_of_json.
Definition jc_RampImageAlignment : jcodec RampImageAlignment := jc_enum RampImageAlignment_to_json RampImageAlignment_of_json.
Definition jc_TextAlignment : jcodec TextAlignment := jc_enum TextAlignment_to_json TextAlignment_of_json.
Definition jc_TriggerShape : jcodec TriggerShape := jc_enum TriggerShape_to_json TriggerShape_of_json.
Definition jc_MaterialType : jcodec MaterialType := jc_enum MaterialType_to_json MaterialType_of_json.
Definition jc_RenderProbeType : jcodec RenderProbeType := jc_enum RenderProbeType_to_json RenderProbeType_of_json.
Definition jc_ReflectionMode : jcodec ReflectionMode := jc_enum ReflectionMode_to_json ReflectionMode_of_json.
Definition jc_ViewLayoutMode : jcodec ViewLayoutMode := jc_enum ViewLayoutMode_to_json ViewLayoutMode_of_json.
Definition jc_ToneMapper : jcodec ToneMapper := jc_enum ToneMapper_to_json ToneMapper_of_json.
Definition jc_OutputTarget : jcodec OutputTarget := jc_enum OutputTarget_to_json OutputTarget_of_json.

(** gameitem/ball.rs:170-188 [BallJson]; 192-208 the item as JSON; 254-278 back *)
Definition jc_Ball : jcodec Ball :=
  jc_record (fun x => object (
      [put "pos" jc_Vertex3D (Ball_pos x); put "radius" jc_f32 (Ball_radius x); put "mass" jc_f32 (Ball_mass x);
       put "force_reflection" jc_bool (Ball_force_reflection x); put "decal_mode" jc_bool (Ball_decal_mode x); put "image" jc_string (Ball_image x);
       put "image_decal" jc_string (Ball_image_decal x); put "bulb_intensity_scale" jc_f32 (Ball_bulb_intensity_scale x);
       put "playfield_reflection_strength" jc_f32 (Ball_playfield_reflection_strength x); put "color" jc_Color (Ball_color x);
       put "spherical_mapping" jc_bool (Ball_spherical_mapping x); put "is_reflection_enabled" jc_bool (Ball_is_reflection_enabled x)] ++
      put_TimerData (Ball_timer x) ++
      [put "name" jc_string (Ball_name x); put_some "part_group_name" jc_string (Ball_part_group_name x)]))
    (fun o =>
      j_pos <~ get o ["pos"%string] jc_Vertex3D ;; j_radius <~ get o ["radius"%string] jc_f32 ;; j_mass <~ get o ["mass"%string] jc_f32 ;;
      j_force_reflection <~ get o ["force_reflection"%string] jc_bool ;; j_decal_mode <~ get o ["decal_mode"%string] jc_bool ;;
      j_image <~ get o ["image"%string] jc_string ;; j_image_decal <~ get o ["image_decal"%string] jc_string ;;
      j_bulb_intensity_scale <~ get o ["bulb_intensity_scale"%string] jc_f32 ;;
      j_playfield_reflection_strength <~ get o ["playfield_reflection_strength"%string] jc_f32 ;; j_color <~ get o ["color"%string] jc_Color ;;
      j_spherical_mapping <~ get o ["spherical_mapping"%string] jc_bool ;; j_is_reflection_enabled <~ get o ["is_reflection_enabled"%string] jc_bool ;;
      j_timer <~ get_TimerData o ;; j_name <~ get o ["name"%string] jc_string ;; j_part_group_name <~ get o ["part_group_name"%string] (jc_option jc_string) ;;
      Ok (mkBall j_name j_pos j_radius j_mass j_force_reflection j_decal_mode j_image j_image_decal j_bulb_intensity_scale j_playfield_reflection_strength j_color
        j_spherical_mapping j_is_reflection_enabled j_timer false None None None j_part_group_name)).

(** gameitem/bumper.rs:67-97 [BumperJson]; 101-126 the item as JSON; 181-214 back *)
Definition jc_Bumper : jcodec Bumper :=
  jc_record (fun x => object (
      [put "center" jc_Vertex2D (Bumper_center x); put "radius" jc_f32 (Bumper_radius x)] ++
      put_TimerData (Bumper_timer x) ++
      [put "threshold" jc_f32 (Bumper_threshold x); put "force" jc_f32 (Bumper_force x); put "scatter" (jc_option jc_f32) (Bumper_scatter x);
       put "height_scale" jc_f32 (Bumper_height_scale x); put "ring_speed" jc_f32 (Bumper_ring_speed x); put "orientation" jc_f32 (Bumper_orientation x);
       put "ring_drop_offset" (jc_option jc_f32_nan_inf) (Bumper_ring_drop_offset x); put "cap_material" jc_string (Bumper_cap_material x);
       put "base_material" jc_string (Bumper_base_material x); put "socket_material" jc_string (Bumper_socket_material x);
       put "ring_material" (jc_option jc_string) (Bumper_ring_material x); put "surface" jc_string (Bumper_surface x); put "name" jc_string (Bumper_name x);
       put "is_cap_visible" jc_bool (Bumper_is_cap_visible x); put "is_base_visible" jc_bool (Bumper_is_base_visible x);
       put "is_ring_visible" (jc_option jc_bool) (Bumper_is_ring_visible x); put "is_socket_visible" (jc_option jc_bool) (Bumper_is_socket_visible x);
       put "hit_event" (jc_option jc_bool) (Bumper_hit_event x); put "is_collidable" (jc_option jc_bool) (Bumper_is_collidable x);
       put "is_reflection_enabled" (jc_option jc_bool) (Bumper_is_reflection_enabled x); put_some "part_group_name" jc_string (Bumper_part_group_name x)]))
    (fun o =>
      j_center <~ get o ["center"%string] jc_Vertex2D ;; j_radius <~ get o ["radius"%string] jc_f32 ;; j_timer <~ get_TimerData o ;;
      j_threshold <~ get o ["threshold"%string] jc_f32 ;; j_force <~ get o ["force"%string] jc_f32 ;;
      j_scatter <~ get o ["scatter"%string] (jc_option jc_f32) ;; j_height_scale <~ get o ["height_scale"%string] jc_f32 ;;
      j_ring_speed <~ get o ["ring_speed"%string] jc_f32 ;; j_orientation <~ get o ["orientation"%string] jc_f32 ;;
      j_ring_drop_offset <~ get o ["ring_drop_offset"%string] (jc_option jc_f32_nan_inf) ;; j_cap_material <~ get o ["cap_material"%string] jc_string ;;
      j_base_material <~ get o ["base_material"%string] jc_string ;; j_socket_material <~ get o ["socket_material"%string] jc_string ;;
      j_ring_material <~ get o ["ring_material"%string] (jc_option jc_string) ;; j_surface <~ get o ["surface"%string] jc_string ;;
      j_name <~ get o ["name"%string] jc_string ;; j_is_cap_visible <~ get o ["is_cap_visible"%string] jc_bool ;;
      j_is_base_visible <~ get o ["is_base_visible"%string] jc_bool ;; j_is_ring_visible <~ get o ["is_ring_visible"%string] (jc_option jc_bool) ;;
      j_is_socket_visible <~ get o ["is_socket_visible"%string] (jc_option jc_bool) ;; j_hit_event <~ get o ["hit_event"%string] (jc_option jc_bool) ;;
      j_is_collidable <~ get o ["is_collidable"%string] (jc_option jc_bool) ;;
      j_is_reflection_enabled <~ get o ["is_reflection_enabled"%string] (jc_option jc_bool) ;;
      j_part_group_name <~ get o ["part_group_name"%string] (jc_option jc_string) ;;
      Ok (mkBumper j_name j_center j_radius j_threshold j_force j_scatter j_height_scale j_ring_speed j_orientation j_ring_drop_offset j_cap_material j_base_material
        j_socket_material j_ring_material j_surface j_is_cap_visible j_is_base_visible j_is_ring_visible j_is_socket_visible j_hit_event j_is_collidable
        j_is_reflection_enabled j_timer false None None None j_part_group_name)).

(** gameitem/decal.rs:201-219 [DecalJson]; 223-240 the item as JSON; 244-269 back *)
Definition jc_Decal : jcodec Decal :=
  jc_record (fun x => object (
      [put "center" jc_Vertex2D (Decal_center x); put "width" jc_f32 (Decal_width x); put "height" jc_f32 (Decal_height x);
       put "rotation" jc_f32 (Decal_rotation x); put "image" jc_string (Decal_image x); put "surface" jc_string (Decal_surface x);
       put "name" jc_string (Decal_name x); put "text" jc_string (Decal_text x); put "decal_type" jc_DecalType (Decal_decal_type x);
       put "material" jc_string (Decal_material x); put "color" jc_Color (Decal_color x); put "sizing_type" jc_SizingType (Decal_sizing_type x);
       put "vertical_text" jc_bool (Decal_vertical_text x); put "backglass" jc_bool (Decal_backglass x);
       put_some "part_group_name" jc_string (Decal_part_group_name x); put "font" jc_FontDesc (Decal_font x)]))
    (fun o =>
      j_center <~ get o ["center"%string] jc_Vertex2D ;; j_width <~ get o ["width"%string] jc_f32 ;; j_height <~ get o ["height"%string] jc_f32 ;;
      j_rotation <~ get o ["rotation"%string] jc_f32 ;; j_image <~ get o ["image"%string] jc_string ;; j_surface <~ get o ["surface"%string] jc_string ;;
      j_name <~ get o ["name"%string] jc_string ;; j_text <~ get o ["text"%string] jc_string ;; j_decal_type <~ get o ["decal_type"%string] jc_DecalType ;;
      j_material <~ get o ["material"%string] jc_string ;; j_color <~ get o ["color"%string] jc_Color ;;
      j_sizing_type <~ get o ["sizing_type"%string] jc_SizingType ;; j_vertical_text <~ get o ["vertical_text"%string] jc_bool ;;
      j_backglass <~ get o ["backglass"%string] jc_bool ;; j_part_group_name <~ get o ["part_group_name"%string] (jc_option jc_string) ;;
      j_font <~ get o ["font"%string] jc_FontDesc ;;
      Ok (mkDecal j_center j_width j_height j_rotation j_image j_surface j_name j_text j_decal_type j_material j_color j_sizing_type j_vertical_text j_backglass j_font
        false None None None j_part_group_name)).

(** gameitem/flasher.rs:568-605 [FlasherJson]; 609-644 the item as JSON; 647-690 back *)
Definition jc_Flasher : jcodec Flasher :=
  jc_record (fun x => object (
      [put "height" jc_f32 (Flasher_height x); put "pos_x" jc_f32 (Flasher_pos_x x); put "pos_y" jc_f32 (Flasher_pos_y x);
       put "rot_x" jc_f32 (Flasher_rot_x x); put "rot_y" jc_f32 (Flasher_rot_y x); put "rot_z" jc_f32 (Flasher_rot_z x);
       put "color" jc_Color (Flasher_color x)] ++
      put_TimerData (Flasher_timer x) ++
      [put "name" jc_string (Flasher_name x); put "image_a" jc_string (Flasher_image_a x); put "image_b" jc_string (Flasher_image_b x);
       put "alpha" jc_i32 (Flasher_alpha x); put "modulate_vs_add" jc_f32 (Flasher_modulate_vs_add x); put "is_visible" jc_bool (Flasher_is_visible x);
       put "add_blend" jc_bool (Flasher_add_blend x); put "is_dmd" (jc_option jc_bool) (Flasher_is_dmd x);
       put "render_mode" (jc_option jc_RenderMode) (Flasher_render_mode x); put "render_style" (jc_option jc_u32) (Flasher_render_style x);
       put "glass_roughness" (jc_option jc_f32) (Flasher_glass_roughness x); put "glass_ambient" (jc_option jc_u32) (Flasher_glass_ambient x);
       put "glass_pad_top" (jc_option jc_f32) (Flasher_glass_pad_top x); put "glass_pad_bottom" (jc_option jc_f32) (Flasher_glass_pad_bottom x);
       put "glass_pad_left" (jc_option jc_f32) (Flasher_glass_pad_left x); put "glass_pad_right" (jc_option jc_f32) (Flasher_glass_pad_right x);
       put "image_src_link" (jc_option jc_string) (Flasher_image_src_link x); put "display_texture" jc_bool (Flasher_display_texture x);
       put "depth_bias" jc_f32 (Flasher_depth_bias x); put "image_alignment" jc_RampImageAlignment (Flasher_image_alignment x);
       put "filter" jc_Filter (Flasher_filter x); put "filter_amount" jc_u32 (Flasher_filter_amount x);
       put "light_map" (jc_option jc_string) (Flasher_light_map x); put "backglass" (jc_option jc_bool) (Flasher_backglass x);
       put_some "part_group_name" jc_string (Flasher_part_group_name x); put "drag_points" (jc_list jc_DragPoint) (Flasher_drag_points x)]))
    (fun o =>
      j_height <~ get o ["height"%string] jc_f32 ;; j_pos_x <~ get o ["pos_x"%string] jc_f32 ;; j_pos_y <~ get o ["pos_y"%string] jc_f32 ;;
      j_rot_x <~ get o ["rot_x"%string] jc_f32 ;; j_rot_y <~ get o ["rot_y"%string] jc_f32 ;; j_rot_z <~ get o ["rot_z"%string] jc_f32 ;;
      j_color <~ get o ["color"%string] jc_Color ;; j_timer <~ get_TimerData o ;; j_name <~ get o ["name"%string] jc_string ;;
      j_image_a <~ get o ["image_a"%string] jc_string ;; j_image_b <~ get o ["image_b"%string] jc_string ;; j_alpha <~ get o ["alpha"%string] jc_i32 ;;
      j_modulate_vs_add <~ get o ["modulate_vs_add"%string] jc_f32 ;; j_is_visible <~ get o ["is_visible"%string] jc_bool ;;
      j_add_blend <~ get o ["add_blend"%string] jc_bool ;; j_is_dmd <~ get o ["is_dmd"%string] (jc_option jc_bool) ;;
      j_render_mode <~ get o ["render_mode"%string] (jc_option jc_RenderMode) ;; j_render_style <~ get o ["render_style"%string] (jc_option jc_u32) ;;
      j_glass_roughness <~ get o ["glass_roughness"%string] (jc_option jc_f32) ;; j_glass_ambient <~ get o ["glass_ambient"%string] (jc_option jc_u32) ;;
      j_glass_pad_top <~ get o ["glass_pad_top"%string] (jc_option jc_f32) ;; j_glass_pad_bottom <~ get o ["glass_pad_bottom"%string] (jc_option jc_f32) ;;
      j_glass_pad_left <~ get o ["glass_pad_left"%string] (jc_option jc_f32) ;; j_glass_pad_right <~ get o ["glass_pad_right"%string] (jc_option jc_f32) ;;
      j_image_src_link <~ get o ["image_src_link"%string] (jc_option jc_string) ;; j_display_texture <~ get o ["display_texture"%string] jc_bool ;;
      j_depth_bias <~ get o ["depth_bias"%string] jc_f32 ;; j_image_alignment <~ get o ["image_alignment"%string] jc_RampImageAlignment ;;
      j_filter <~ get o ["filter"%string] jc_Filter ;; j_filter_amount <~ get o ["filter_amount"%string] jc_u32 ;;
      j_light_map <~ get o ["light_map"%string] (jc_option jc_string) ;; j_backglass <~ get o ["backglass"%string] (jc_option jc_bool) ;;
      j_part_group_name <~ get o ["part_group_name"%string] (jc_option jc_string) ;; j_drag_points <~ get o ["drag_points"%string] (jc_list jc_DragPoint) ;;
      Ok (mkFlasher j_height j_pos_x j_pos_y j_rot_x j_rot_y j_rot_z j_color j_name j_image_a j_image_b j_alpha j_modulate_vs_add j_is_visible j_add_blend j_is_dmd
        j_render_mode j_render_style j_glass_roughness j_glass_ambient j_glass_pad_top j_glass_pad_bottom j_glass_pad_left j_glass_pad_right j_image_src_link
        j_display_texture j_depth_bias j_image_alignment j_filter j_filter_amount j_light_map j_backglass j_drag_points j_timer false None None None
        j_part_group_name)).

(** gameitem/flipper.rs:335-374 [FlipperJson]; 378-414 the item as JSON; 418-462 back *)
Definition jc_Flipper : jcodec Flipper :=
  jc_record (fun x => object (
      [put "center" jc_Vertex2D (Flipper_center x); put "base_radius" jc_f32 (Flipper_base_radius x); put "end_radius" jc_f32 (Flipper_end_radius x);
       put "flipper_radius_max" jc_f32 (Flipper_flipper_radius_max x); put "return" jc_f32 (Flipper_return_ x);
       put "start_angle" jc_f32 (Flipper_start_angle x); put "end_angle" jc_f32 (Flipper_end_angle x);
       put "override_physics" jc_u32 (Flipper_override_physics x); put "mass" jc_f32 (Flipper_mass x)] ++
      put_TimerData (Flipper_timer x) ++
      [put "surface" jc_string (Flipper_surface x); put "material" jc_string (Flipper_material x); put "name" jc_string (Flipper_name x);
       put "rubber_material" jc_string (Flipper_rubber_material x); put "rubber_thickness_int" jc_u32 (Flipper_rubber_thickness_int x);
       put "rubber_thickness" (jc_option jc_f32) (Flipper_rubber_thickness x); put "rubber_height_int" jc_u32 (Flipper_rubber_height_int x);
       put "rubber_height" (jc_option jc_f32) (Flipper_rubber_height x); put "rubber_width_int" jc_u32 (Flipper_rubber_width_int x);
       put "rubber_width" (jc_option jc_f32) (Flipper_rubber_width x); put "strength" jc_f32 (Flipper_strength x);
       put "elasticity" jc_f32 (Flipper_elasticity x); put "elasticity_falloff" jc_f32 (Flipper_elasticity_falloff x);
       put "friction" jc_f32 (Flipper_friction x); put "ramp_up" jc_f32 (Flipper_ramp_up x); put "scatter" (jc_option jc_f32) (Flipper_scatter x);
       put "torque_damping" (jc_option jc_f32) (Flipper_torque_damping x); put "torque_damping_angle" (jc_option jc_f32) (Flipper_torque_damping_angle x);
       put "flipper_radius_min" jc_f32 (Flipper_flipper_radius_min x); put "is_visible" jc_bool (Flipper_is_visible x);
       put "is_enabled" jc_bool (Flipper_is_enabled x); put "height" jc_f32 (Flipper_height x); put "image" (jc_option jc_string) (Flipper_image x);
       put "is_reflection_enabled" (jc_option jc_bool) (Flipper_is_reflection_enabled x); put_some "part_group_name" jc_string (Flipper_part_group_name x)]))
    (fun o =>
      j_center <~ get o ["center"%string] jc_Vertex2D ;; j_base_radius <~ get o ["base_radius"%string] jc_f32 ;;
      j_end_radius <~ get o ["end_radius"%string] jc_f32 ;; j_flipper_radius_max <~ get o ["flipper_radius_max"%string] jc_f32 ;;
      j_return_ <~ get o ["return"%string; "return_"%string] jc_f32 ;; j_start_angle <~ get o ["start_angle"%string] jc_f32 ;;
      j_end_angle <~ get o ["end_angle"%string] jc_f32 ;; j_override_physics <~ get o ["override_physics"%string] jc_u32 ;;
      j_mass <~ get o ["mass"%string] jc_f32 ;; j_timer <~ get_TimerData o ;; j_surface <~ get o ["surface"%string] jc_string ;;
      j_material <~ get o ["material"%string] jc_string ;; j_name <~ get o ["name"%string] jc_string ;;
      j_rubber_material <~ get o ["rubber_material"%string] jc_string ;; j_rubber_thickness_int <~ get o ["rubber_thickness_int"%string] jc_u32 ;;
      j_rubber_thickness <~ get o ["rubber_thickness"%string] (jc_option jc_f32) ;; j_rubber_height_int <~ get o ["rubber_height_int"%string] jc_u32 ;;
      j_rubber_height <~ get o ["rubber_height"%string] (jc_option jc_f32) ;; j_rubber_width_int <~ get o ["rubber_width_int"%string] jc_u32 ;;
      j_rubber_width <~ get o ["rubber_width"%string] (jc_option jc_f32) ;; j_strength <~ get o ["strength"%string] jc_f32 ;;
      j_elasticity <~ get o ["elasticity"%string] jc_f32 ;; j_elasticity_falloff <~ get o ["elasticity_falloff"%string] jc_f32 ;;
      j_friction <~ get o ["friction"%string] jc_f32 ;; j_ramp_up <~ get o ["ramp_up"%string] jc_f32 ;;
      j_scatter <~ get o ["scatter"%string] (jc_option jc_f32) ;; j_torque_damping <~ get o ["torque_damping"%string] (jc_option jc_f32) ;;
      j_torque_damping_angle <~ get o ["torque_damping_angle"%string] (jc_option jc_f32) ;;
      j_flipper_radius_min <~ get o ["flipper_radius_min"%string] jc_f32 ;; j_is_visible <~ get o ["is_visible"%string] jc_bool ;;
      j_is_enabled <~ get o ["is_enabled"%string] jc_bool ;; j_height <~ get o ["height"%string] jc_f32 ;;
      j_image <~ get o ["image"%string] (jc_option jc_string) ;; j_is_reflection_enabled <~ get o ["is_reflection_enabled"%string] (jc_option jc_bool) ;;
      j_part_group_name <~ get o ["part_group_name"%string] (jc_option jc_string) ;;
      Ok (mkFlipper j_name j_center j_base_radius j_end_radius j_flipper_radius_max j_return_ j_start_angle j_end_angle j_override_physics j_mass j_surface j_material
        j_rubber_material j_rubber_thickness_int j_rubber_thickness j_rubber_height_int j_rubber_height j_rubber_width_int j_rubber_width j_strength
        j_elasticity j_elasticity_falloff j_friction j_ramp_up j_scatter j_torque_damping j_torque_damping_angle j_flipper_radius_min j_is_visible
        j_is_enabled j_height j_image j_is_reflection_enabled j_timer false None None None j_part_group_name)).

(** gameitem/gate.rs:235-261 [GateJson]; 265-289 the item as JSON; 292-324 back *)
Definition jc_Gate : jcodec Gate :=
  jc_record (fun x => object (
      [put "center" jc_Vertex2D (Gate_center x); put "length" jc_f32 (Gate_length x); put "height" jc_f32 (Gate_height x);
       put "rotation" jc_f32 (Gate_rotation x); put "material" jc_string (Gate_material x)] ++
      put_TimerData (Gate_timer x) ++
      [put "show_bracket" jc_bool (Gate_show_bracket x); put "is_collidable" jc_bool (Gate_is_collidable x); put "imgf" (jc_option jc_string) (Gate_imgf x);
       put "imgb" (jc_option jc_string) (Gate_imgb x); put "surface" jc_string (Gate_surface x); put "elasticity" jc_f32 (Gate_elasticity x);
       put "angle_max" jc_f32 (Gate_angle_max x); put "angle_min" jc_f32 (Gate_angle_min x); put "friction" jc_f32 (Gate_friction x);
       put "damping" (jc_option jc_f32) (Gate_damping x); put "gravity_factor" (jc_option jc_f32) (Gate_gravity_factor x);
       put "is_visible" jc_bool (Gate_is_visible x); put "name" jc_string (Gate_name x); put "two_way" jc_bool (Gate_two_way x);
       put "is_reflection_enabled" (jc_option jc_bool) (Gate_is_reflection_enabled x); put "gate_type" (jc_option jc_GateType) (Gate_gate_type x);
       put_some "part_group_name" jc_string (Gate_part_group_name x)]))
    (fun o =>
      j_center <~ get o ["center"%string] jc_Vertex2D ;; j_length <~ get o ["length"%string] jc_f32 ;; j_height <~ get o ["height"%string] jc_f32 ;;
      j_rotation <~ get o ["rotation"%string] jc_f32 ;; j_material <~ get o ["material"%string] jc_string ;; j_timer <~ get_TimerData o ;;
      j_show_bracket <~ get o ["show_bracket"%string] jc_bool ;; j_is_collidable <~ get o ["is_collidable"%string] jc_bool ;;
      j_imgf <~ get o ["imgf"%string] (jc_option jc_string) ;; j_imgb <~ get o ["imgb"%string] (jc_option jc_string) ;;
      j_surface <~ get o ["surface"%string] jc_string ;; j_elasticity <~ get o ["elasticity"%string] jc_f32 ;;
      j_angle_max <~ get o ["angle_max"%string] jc_f32 ;; j_angle_min <~ get o ["angle_min"%string] jc_f32 ;;
      j_friction <~ get o ["friction"%string] jc_f32 ;; j_damping <~ get o ["damping"%string] (jc_option jc_f32) ;;
      j_gravity_factor <~ get o ["gravity_factor"%string] (jc_option jc_f32) ;; j_is_visible <~ get o ["is_visible"%string] jc_bool ;;
      j_name <~ get o ["name"%string] jc_string ;; j_two_way <~ get o ["two_way"%string] jc_bool ;;
      j_is_reflection_enabled <~ get o ["is_reflection_enabled"%string] (jc_option jc_bool) ;;
      j_gate_type <~ get o ["gate_type"%string] (jc_option jc_GateType) ;; j_part_group_name <~ get o ["part_group_name"%string] (jc_option jc_string) ;;
      Ok (mkGate j_name j_center j_length j_height j_rotation j_material j_show_bracket j_is_collidable j_imgf j_imgb j_surface j_elasticity j_angle_max j_angle_min
        j_friction j_damping j_gravity_factor j_is_visible j_two_way j_is_reflection_enabled j_gate_type j_timer false None None None j_part_group_name)).

(** gameitem/hittarget.rs:307-338 [HitTargetJson]; 342-371 the item as JSON; 375-412 back *)
Definition jc_HitTarget : jcodec HitTarget :=
  jc_record (fun x => object (
      [put "position" jc_Vertex3D (HitTarget_position x); put "size" jc_Vertex3D (HitTarget_size x); put "rot_z" jc_f32 (HitTarget_rot_z x);
       put "image" jc_string (HitTarget_image x); put "target_type" jc_TargetType (HitTarget_target_type x); put "name" jc_string (HitTarget_name x);
       put "material" jc_string (HitTarget_material x); put "is_visible" jc_bool (HitTarget_is_visible x); put "is_legacy" jc_bool (HitTarget_is_legacy x);
       put "use_hit_event" jc_bool (HitTarget_use_hit_event x); put "threshold" jc_f32 (HitTarget_threshold x);
       put "elasticity" jc_f32 (HitTarget_elasticity x); put "elasticity_falloff" jc_f32 (HitTarget_elasticity_falloff x);
       put "friction" jc_f32 (HitTarget_friction x); put "scatter" jc_f32 (HitTarget_scatter x); put "is_collidable" jc_bool (HitTarget_is_collidable x);
       put "disable_lighting_top_old" (jc_option jc_f32) (HitTarget_disable_lighting_top_old x);
       put "disable_lighting_top" (jc_option jc_f32) (HitTarget_disable_lighting_top x);
       put "disable_lighting_below" (jc_option jc_f32) (HitTarget_disable_lighting_below x); put "depth_bias" jc_f32 (HitTarget_depth_bias x);
       put "is_reflection_enabled" jc_bool (HitTarget_is_reflection_enabled x); put "is_dropped" jc_bool (HitTarget_is_dropped x);
       put "drop_speed" jc_f32 (HitTarget_drop_speed x)] ++
      put_TimerData (HitTarget_timer x) ++
      [put "raise_delay" (jc_option jc_u32) (HitTarget_raise_delay x); put "physics_material" (jc_option jc_string) (HitTarget_physics_material x);
       put "overwrite_physics" (jc_option jc_bool) (HitTarget_overwrite_physics x); put_some "part_group_name" jc_string (HitTarget_part_group_name x)]))
    (fun o =>
      j_position <~ get o ["position"%string] jc_Vertex3D ;; j_size <~ get o ["size"%string] jc_Vertex3D ;; j_rot_z <~ get o ["rot_z"%string] jc_f32 ;;
      j_image <~ get o ["image"%string] jc_string ;; j_target_type <~ get o ["target_type"%string] jc_TargetType ;;
      j_name <~ get o ["name"%string] jc_string ;; j_material <~ get o ["material"%string] jc_string ;;
      j_is_visible <~ get o ["is_visible"%string] jc_bool ;; j_is_legacy <~ get o ["is_legacy"%string] jc_bool ;;
      j_use_hit_event <~ get o ["use_hit_event"%string] jc_bool ;; j_threshold <~ get o ["threshold"%string] jc_f32 ;;
      j_elasticity <~ get o ["elasticity"%string] jc_f32 ;; j_elasticity_falloff <~ get o ["elasticity_falloff"%string] jc_f32 ;;
      j_friction <~ get o ["friction"%string] jc_f32 ;; j_scatter <~ get o ["scatter"%string] jc_f32 ;;
      j_is_collidable <~ get o ["is_collidable"%string] jc_bool ;;
      j_disable_lighting_top_old <~ get o ["disable_lighting_top_old"%string] (jc_option jc_f32) ;;
      j_disable_lighting_top <~ get o ["disable_lighting_top"%string] (jc_option jc_f32) ;;
      j_disable_lighting_below <~ get o ["disable_lighting_below"%string] (jc_option jc_f32) ;; j_depth_bias <~ get o ["depth_bias"%string] jc_f32 ;;
      j_is_reflection_enabled <~ get o ["is_reflection_enabled"%string] jc_bool ;; j_is_dropped <~ get o ["is_dropped"%string] jc_bool ;;
      j_drop_speed <~ get o ["drop_speed"%string] jc_f32 ;; j_timer <~ get_TimerData o ;;
      j_raise_delay <~ get o ["raise_delay"%string] (jc_option jc_u32) ;; j_physics_material <~ get o ["physics_material"%string] (jc_option jc_string) ;;
      j_overwrite_physics <~ get o ["overwrite_physics"%string] (jc_option jc_bool) ;;
      j_part_group_name <~ get o ["part_group_name"%string] (jc_option jc_string) ;;
      Ok (mkHitTarget j_name j_position j_size j_rot_z j_image j_target_type j_material j_is_visible j_is_legacy j_use_hit_event j_threshold j_elasticity
        j_elasticity_falloff j_friction j_scatter j_is_collidable j_disable_lighting_top_old j_disable_lighting_top j_disable_lighting_below j_depth_bias
        j_is_reflection_enabled j_is_dropped j_drop_speed j_raise_delay j_physics_material j_overwrite_physics j_timer false None None None j_part_group_name)).

(** gameitem/kicker.rs:172-190 [KickerJson]; 194-210 the item as JSON; 214-238 back *)
Definition jc_Kicker : jcodec Kicker :=
  jc_record (fun x => object (
      [put "center" jc_Vertex2D (Kicker_center x); put "radius" jc_f32 (Kicker_radius x)] ++
      put_TimerData (Kicker_timer x) ++
      [put "material" jc_string (Kicker_material x); put "surface" jc_string (Kicker_surface x); put "is_enabled" jc_bool (Kicker_is_enabled x);
       put "name" jc_string (Kicker_name x); put "kicker_type" jc_KickerType (Kicker_kicker_type x); put "scatter" jc_f32 (Kicker_scatter x);
       put "hit_accuracy" jc_f32 (Kicker_hit_accuracy x); put "hit_height" (jc_option jc_f32) (Kicker_hit_height x);
       put "orientation" jc_f32 (Kicker_orientation x); put "fall_through" jc_bool (Kicker_fall_through x); put "legacy_mode" jc_bool (Kicker_legacy_mode x);
       put_some "part_group_name" jc_string (Kicker_part_group_name x)]))
    (fun o =>
      j_center <~ get o ["center"%string] jc_Vertex2D ;; j_radius <~ get o ["radius"%string] jc_f32 ;; j_timer <~ get_TimerData o ;;
      j_material <~ get o ["material"%string] jc_string ;; j_surface <~ get o ["surface"%string] jc_string ;;
      j_is_enabled <~ get o ["is_enabled"%string] jc_bool ;; j_name <~ get o ["name"%string] jc_string ;;
      j_kicker_type <~ get o ["kicker_type"%string] jc_KickerType ;; j_scatter <~ get o ["scatter"%string] jc_f32 ;;
      j_hit_accuracy <~ get o ["hit_accuracy"%string] jc_f32 ;; j_hit_height <~ get o ["hit_height"%string] (jc_option jc_f32) ;;
      j_orientation <~ get o ["orientation"%string] jc_f32 ;; j_fall_through <~ get o ["fall_through"%string] jc_bool ;;
      j_legacy_mode <~ get o ["legacy_mode"%string] jc_bool ;; j_part_group_name <~ get o ["part_group_name"%string] (jc_option jc_string) ;;
      Ok (mkKicker j_center j_radius j_material j_surface j_is_enabled j_name j_kicker_type j_scatter j_hit_accuracy j_hit_height j_orientation j_fall_through
        j_legacy_mode j_timer false None None None j_part_group_name)).

(** gameitem/light.rs:708-746 [LightJson]; 750-784 the item as JSON; 788-830 back *)
Definition jc_Light : jcodec Light :=
  jc_record (fun x => object (
      [put "center" jc_Vertex2D (Light_center x); put "height" (jc_option jc_f32) (Light_height x); put "falloff_radius" jc_f32 (Light_falloff_radius x);
       put "falloff_power" jc_f32 (Light_falloff_power x); put "state_u32" jc_u32 (Light_state_u32 x); put "state" (jc_option jc_f32) (Light_state x);
       put "color" jc_Color (Light_color x); put "color2" jc_Color (Light_color2 x)] ++
      put_TimerData (Light_timer x) ++
      [put "blink_pattern" jc_string (Light_blink_pattern x); put "image" jc_string (Light_image x); put "blink_interval" jc_u32 (Light_blink_interval x);
       put "intensity" jc_f32 (Light_intensity x); put "transmission_scale" jc_f32 (Light_transmission_scale x); put "surface" jc_string (Light_surface x);
       put "name" jc_string (Light_name x); put "is_backglass" jc_bool (Light_is_backglass x); put "depth_bias" jc_f32 (Light_depth_bias x);
       put "fade_speed_up" jc_f32_nan_inf (Light_fade_speed_up x); put "fade_speed_down" jc_f32_nan_inf (Light_fade_speed_down x);
       put "is_bulb_light" jc_bool (Light_is_bulb_light x); put "is_image_mode" jc_bool (Light_is_image_mode x);
       put "show_bulb_mesh" jc_bool (Light_show_bulb_mesh x); put "has_static_bulb_mesh" (jc_option jc_bool) (Light_has_static_bulb_mesh x);
       put "show_reflection_on_ball" jc_bool (Light_show_reflection_on_ball x); put "mesh_radius" jc_f32 (Light_mesh_radius x);
       put "bulb_modulate_vs_add" jc_f32 (Light_bulb_modulate_vs_add x); put "bulb_halo_height" jc_f32 (Light_bulb_halo_height x);
       put "shadows" (jc_option jc_ShadowMode) (Light_shadows x); put "fader" (jc_option jc_Fader) (Light_fader x);
       put "visible" (jc_option jc_bool) (Light_visible x); put_some "part_group_name" jc_string (Light_part_group_name x);
       put "drag_points" (jc_list jc_DragPoint) (Light_drag_points x)]))
    (fun o =>
      j_center <~ get o ["center"%string] jc_Vertex2D ;; j_height <~ get o ["height"%string] (jc_option jc_f32) ;;
      j_falloff_radius <~ get o ["falloff_radius"%string] jc_f32 ;; j_falloff_power <~ get o ["falloff_power"%string] jc_f32 ;;
      j_state_u32 <~ get o ["state_u32"%string] jc_u32 ;; j_state <~ get o ["state"%string] (jc_option jc_f32) ;;
      j_color <~ get o ["color"%string] jc_Color ;; j_color2 <~ get o ["color2"%string] jc_Color ;; j_timer <~ get_TimerData o ;;
      j_blink_pattern <~ get o ["blink_pattern"%string] jc_string ;; j_image <~ get o ["image"%string; "off_image"%string] jc_string ;;
      j_blink_interval <~ get o ["blink_interval"%string] jc_u32 ;; j_intensity <~ get o ["intensity"%string] jc_f32 ;;
      j_transmission_scale <~ get o ["transmission_scale"%string] jc_f32 ;; j_surface <~ get o ["surface"%string] jc_string ;;
      j_name <~ get o ["name"%string] jc_string ;; j_is_backglass <~ get o ["is_backglass"%string] jc_bool ;;
      j_depth_bias <~ get o ["depth_bias"%string] jc_f32 ;; j_fade_speed_up <~ get o ["fade_speed_up"%string] jc_f32_nan_inf ;;
      j_fade_speed_down <~ get o ["fade_speed_down"%string] jc_f32_nan_inf ;; j_is_bulb_light <~ get o ["is_bulb_light"%string] jc_bool ;;
      j_is_image_mode <~ get o ["is_image_mode"%string] jc_bool ;; j_show_bulb_mesh <~ get o ["show_bulb_mesh"%string] jc_bool ;;
      j_has_static_bulb_mesh <~ get o ["has_static_bulb_mesh"%string] (jc_option jc_bool) ;;
      j_show_reflection_on_ball <~ get o ["show_reflection_on_ball"%string] jc_bool ;; j_mesh_radius <~ get o ["mesh_radius"%string] jc_f32 ;;
      j_bulb_modulate_vs_add <~ get o ["bulb_modulate_vs_add"%string] jc_f32 ;; j_bulb_halo_height <~ get o ["bulb_halo_height"%string] jc_f32 ;;
      j_shadows <~ get o ["shadows"%string] (jc_option jc_ShadowMode) ;; j_fader <~ get o ["fader"%string] (jc_option jc_Fader) ;;
      j_visible <~ get o ["visible"%string] (jc_option jc_bool) ;; j_part_group_name <~ get o ["part_group_name"%string] (jc_option jc_string) ;;
      j_drag_points <~ get o ["drag_points"%string] (jc_list jc_DragPoint) ;;
      Ok (mkLight j_name j_center j_height j_falloff_radius j_falloff_power j_state_u32 j_state j_color j_color2 j_blink_pattern j_image j_blink_interval j_intensity
        j_transmission_scale j_surface j_is_backglass j_depth_bias j_fade_speed_up j_fade_speed_down j_is_bulb_light j_is_image_mode j_show_bulb_mesh
        j_has_static_bulb_mesh j_show_reflection_on_ball j_mesh_radius j_bulb_modulate_vs_add j_bulb_halo_height j_shadows j_fader j_visible j_timer false
        None None None j_part_group_name j_drag_points)).

(** gameitem/lightsequencer.rs:35-47 [LightSequencerJson]; 51-61 the item as JSON; 64-82 back *)
Definition jc_LightSequencer : jcodec LightSequencer :=
  jc_record (fun x => object (
      [put "center" jc_Vertex2D (LightSequencer_center x); put "collection" jc_string (LightSequencer_collection x);
       put "pos_x" jc_f32 (LightSequencer_pos_x x); put "pos_y" jc_f32 (LightSequencer_pos_y x);
       put "update_interval" jc_u32 (LightSequencer_update_interval x)] ++
      put_TimerData (LightSequencer_timer x) ++
      [put "name" jc_string (LightSequencer_name x); put "backglass" jc_bool (LightSequencer_backglass x);
       put_some "part_group_name" jc_string (LightSequencer_part_group_name x)]))
    (fun o =>
      j_center <~ get o ["center"%string] jc_Vertex2D ;; j_collection <~ get o ["collection"%string] jc_string ;;
      j_pos_x <~ get o ["pos_x"%string] jc_f32 ;; j_pos_y <~ get o ["pos_y"%string] jc_f32 ;;
      j_update_interval <~ get o ["update_interval"%string] jc_u32 ;; j_timer <~ get_TimerData o ;; j_name <~ get o ["name"%string] jc_string ;;
      j_backglass <~ get o ["backglass"%string] jc_bool ;; j_part_group_name <~ get o ["part_group_name"%string] (jc_option jc_string) ;;
      Ok (mkLightSequencer j_center j_collection j_pos_x j_pos_y j_update_interval j_name j_backglass j_timer None None None None j_part_group_name)).

(** gameitem/partgroup.rs:166-181 [PartGroupJson]; 185-196 the item as JSON; 200-211 back *)
Definition jc_PartGroup : jcodec PartGroup :=
  jc_record (fun x => object (
      [put "name" jc_string (PartGroup_name x); put "center" jc_Vertex2D (PartGroup_center x)] ++
      put_TimerData (PartGroup_timer x) ++
      [put "backglass" jc_bool (PartGroup_backglass x); put_some "visibility_mask" jc_u32 (PartGroup_visibility_mask x);
       put "space_reference" jc_SpaceReference (PartGroup_space_reference x);
       put_some "player_mode_visibility_mask" jc_u32 (PartGroup_player_mode_visibility_mask x); put "is_locked" jc_bool (PartGroup_is_locked x);
       put "editor_layer_name" (jc_option jc_string) (PartGroup_editor_layer_name x);
       put "editor_layer_visibility" (jc_option jc_bool) (PartGroup_editor_layer_visibility x)]))
    (fun o =>
      j_name <~ get o ["name"%string] jc_string ;; j_center <~ get o ["center"%string] jc_Vertex2D ;; j_timer <~ get_TimerData o ;;
      j_backglass <~ get o ["backglass"%string] jc_bool ;; j_visibility_mask <~ get o ["visibility_mask"%string] (jc_option jc_u32) ;;
      j_space_reference <~ get o ["space_reference"%string] jc_SpaceReference ;;
      j_player_mode_visibility_mask <~ get o ["player_mode_visibility_mask"%string] (jc_option jc_u32) ;;
      j_is_locked <~ get o ["is_locked"%string] jc_bool ;; j_editor_layer_name <~ get o ["editor_layer_name"%string] (jc_option jc_string) ;;
      j_editor_layer_visibility <~ get o ["editor_layer_visibility"%string] (jc_option jc_bool) ;;
      Ok (mkPartGroup j_name j_center j_timer j_backglass j_visibility_mask j_space_reference j_player_mode_visibility_mask j_is_locked j_editor_layer_name
        j_editor_layer_visibility)).

(** gameitem/plunger.rs:215-250 [PlungerJson]; 254-287 the item as JSON; 291-332 back *)
Definition jc_Plunger : jcodec Plunger :=
  jc_record (fun x => object (
      [put "center" jc_Vertex2D (Plunger_center x); put "width" jc_f32 (Plunger_width x); put "height" jc_f32 (Plunger_height x);
       put "z_adjust" jc_f32 (Plunger_z_adjust x); put "stroke" jc_f32 (Plunger_stroke x); put "speed_pull" jc_f32 (Plunger_speed_pull x);
       put "speed_fire" jc_f32 (Plunger_speed_fire x); put "plunger_type" jc_PlungerType (Plunger_plunger_type x);
       put "anim_frames" jc_u32 (Plunger_anim_frames x); put "material" jc_string (Plunger_material x); put "image" jc_string (Plunger_image x);
       put "mech_strength" jc_f32 (Plunger_mech_strength x); put "is_mech_plunger" jc_bool (Plunger_is_mech_plunger x);
       put "auto_plunger" jc_bool (Plunger_auto_plunger x); put "park_position" jc_f32 (Plunger_park_position x);
       put "scatter_velocity" jc_f32 (Plunger_scatter_velocity x); put "momentum_xfer" jc_f32 (Plunger_momentum_xfer x)] ++
      put_TimerData (Plunger_timer x) ++
      [put "is_visible" jc_bool (Plunger_is_visible x); put "is_reflection_enabled" (jc_option jc_bool) (Plunger_is_reflection_enabled x);
       put "surface" jc_string (Plunger_surface x); put "name" jc_string (Plunger_name x); put "tip_shape" jc_string (Plunger_tip_shape x);
       put "rod_diam" jc_f32 (Plunger_rod_diam x); put "ring_gap" jc_f32 (Plunger_ring_gap x); put "ring_diam" jc_f32 (Plunger_ring_diam x);
       put "ring_width" jc_f32 (Plunger_ring_width x); put "spring_diam" jc_f32 (Plunger_spring_diam x); put "spring_gauge" jc_f32 (Plunger_spring_gauge x);
       put "spring_loops" jc_f32 (Plunger_spring_loops x); put "spring_end_loops" jc_f32 (Plunger_spring_end_loops x);
       put_some "part_group_name" jc_string (Plunger_part_group_name x)]))
    (fun o =>
      j_center <~ get o ["center"%string] jc_Vertex2D ;; j_width <~ get o ["width"%string] jc_f32 ;; j_height <~ get o ["height"%string] jc_f32 ;;
      j_z_adjust <~ get o ["z_adjust"%string] jc_f32 ;; j_stroke <~ get o ["stroke"%string] jc_f32 ;; j_speed_pull <~ get o ["speed_pull"%string] jc_f32 ;;
      j_speed_fire <~ get o ["speed_fire"%string] jc_f32 ;; j_plunger_type <~ get o ["plunger_type"%string] jc_PlungerType ;;
      j_anim_frames <~ get o ["anim_frames"%string] jc_u32 ;; j_material <~ get o ["material"%string] jc_string ;;
      j_image <~ get o ["image"%string] jc_string ;; j_mech_strength <~ get o ["mech_strength"%string] jc_f32 ;;
      j_is_mech_plunger <~ get o ["is_mech_plunger"%string] jc_bool ;; j_auto_plunger <~ get o ["auto_plunger"%string] jc_bool ;;
      j_park_position <~ get o ["park_position"%string] jc_f32 ;; j_scatter_velocity <~ get o ["scatter_velocity"%string] jc_f32 ;;
      j_momentum_xfer <~ get o ["momentum_xfer"%string] jc_f32 ;; j_timer <~ get_TimerData o ;; j_is_visible <~ get o ["is_visible"%string] jc_bool ;;
      j_is_reflection_enabled <~ get o ["is_reflection_enabled"%string] (jc_option jc_bool) ;; j_surface <~ get o ["surface"%string] jc_string ;;
      j_name <~ get o ["name"%string] jc_string ;; j_tip_shape <~ get o ["tip_shape"%string] jc_string ;; j_rod_diam <~ get o ["rod_diam"%string] jc_f32 ;;
      j_ring_gap <~ get o ["ring_gap"%string] jc_f32 ;; j_ring_diam <~ get o ["ring_diam"%string] jc_f32 ;;
      j_ring_width <~ get o ["ring_width"%string] jc_f32 ;; j_spring_diam <~ get o ["spring_diam"%string] jc_f32 ;;
      j_spring_gauge <~ get o ["spring_gauge"%string] jc_f32 ;; j_spring_loops <~ get o ["spring_loops"%string] jc_f32 ;;
      j_spring_end_loops <~ get o ["spring_end_loops"%string] jc_f32 ;; j_part_group_name <~ get o ["part_group_name"%string] (jc_option jc_string) ;;
      Ok (mkPlunger j_center j_width j_height j_z_adjust j_stroke j_speed_pull j_speed_fire j_plunger_type j_anim_frames j_material j_image j_mech_strength
        j_is_mech_plunger j_auto_plunger j_park_position j_scatter_velocity j_momentum_xfer j_is_visible j_is_reflection_enabled j_surface j_name j_tip_shape
        j_rod_diam j_ring_gap j_ring_diam j_ring_width j_spring_diam j_spring_gauge j_spring_loops j_spring_end_loops j_timer false None None None
        j_part_group_name)).

(** gameitem/primitive.rs:466-514 [PrimitiveJson]; 608-665 the item as JSON; 668-731 back *)
Definition jc_Primitive : jcodec Primitive :=
  jc_record (fun x => object (
      [put "position" jc_Vertex3D (Primitive_position x); put "size" jc_Vertex3D (Primitive_size x);
       put "rot_and_tra" (jc_array 9 jc_f32) [Primitive_rot_and_tra_0 x; Primitive_rot_and_tra_1 x; Primitive_rot_and_tra_2 x; Primitive_rot_and_tra_3 x; Primitive_rot_and_tra_4 x; Primitive_rot_and_tra_5 x; Primitive_rot_and_tra_6 x; Primitive_rot_and_tra_7 x; Primitive_rot_and_tra_8 x];
       put "image" jc_string (Primitive_image x); put "normal_map" (jc_option jc_string) (Primitive_normal_map x); put "sides" jc_u32 (Primitive_sides x);
       put "name" jc_string (Primitive_name x); put "material" jc_string (Primitive_material x); put "side_color" jc_Color (Primitive_side_color x);
       put "is_visible" jc_bool (Primitive_is_visible x); put "draw_textures_inside" jc_bool (Primitive_draw_textures_inside x);
       put "hit_event" jc_bool (Primitive_hit_event x); put "threshold" jc_f32 (Primitive_threshold x); put "elasticity" jc_f32 (Primitive_elasticity x);
       put "elasticity_falloff" jc_f32 (Primitive_elasticity_falloff x); put "friction" jc_f32 (Primitive_friction x);
       put "scatter" jc_f32 (Primitive_scatter x); put "edge_factor_ui" jc_f32 (Primitive_edge_factor_ui x);
       put "collision_reduction_factor" (jc_option jc_f32) (Primitive_collision_reduction_factor x); put "is_collidable" jc_bool (Primitive_is_collidable x);
       put "is_toy" jc_bool (Primitive_is_toy x); put "use_3d_mesh" jc_bool (Primitive_use_3d_mesh x);
       put "static_rendering" jc_bool (Primitive_static_rendering x);
       put "disable_lighting_top_old" (jc_option jc_f32) (Primitive_disable_lighting_top_old x);
       put "disable_lighting_top" (jc_option jc_f32) (Primitive_disable_lighting_top x);
       put "disable_lighting_below" (jc_option jc_f32) (Primitive_disable_lighting_below x);
       put "is_reflection_enabled" (jc_option jc_bool) (Primitive_is_reflection_enabled x);
       put "backfaces_enabled" (jc_option jc_bool) (Primitive_backfaces_enabled x);
       put "physics_material" (jc_option jc_string) (Primitive_physics_material x);
       put "overwrite_physics" (jc_option jc_bool) (Primitive_overwrite_physics x); put "display_texture" (jc_option jc_bool) (Primitive_display_texture x);
       put "object_space_normal_map" (jc_option jc_bool) (Primitive_object_space_normal_map x);
       put "min_aa_bound" (jc_option jc_Vertex3D) (Primitive_min_aa_bound x); put "max_aa_bound" (jc_option jc_Vertex3D) (Primitive_max_aa_bound x);
       put "mesh_file_name" (jc_option jc_string) (Primitive_mesh_file_name x); put "depth_bias" jc_f32 (Primitive_depth_bias x);
       put "add_blend" (jc_option jc_bool) (Primitive_add_blend x); put "use_depth_mask" (jc_option jc_bool) (Primitive_use_depth_mask x);
       put "alpha" (jc_option jc_f32) (Primitive_alpha x); put "color" (jc_option jc_Color) (Primitive_color x);
       put "light_map" (jc_option jc_string) (Primitive_light_map x); put "reflection_probe" (jc_option jc_string) (Primitive_reflection_probe x);
       put "reflection_strength" (jc_option jc_f32) (Primitive_reflection_strength x);
       put "refraction_probe" (jc_option jc_string) (Primitive_refraction_probe x);
       put "refraction_thickness" (jc_option jc_f32) (Primitive_refraction_thickness x); put_some "part_group_name" jc_string (Primitive_part_group_name x)]))
    (fun o =>
      j_position <~ get o ["position"%string] jc_Vertex3D ;; j_size <~ get o ["size"%string] jc_Vertex3D ;;
      j_rot_and_tra <~ get o ["rot_and_tra"%string] (jc_array 9 jc_f32) ;; j_image <~ get o ["image"%string] jc_string ;;
      j_normal_map <~ get o ["normal_map"%string] (jc_option jc_string) ;; j_sides <~ get o ["sides"%string] jc_u32 ;;
      j_name <~ get o ["name"%string] jc_string ;; j_material <~ get o ["material"%string] jc_string ;;
      j_side_color <~ get o ["side_color"%string] jc_Color ;; j_is_visible <~ get o ["is_visible"%string] jc_bool ;;
      j_draw_textures_inside <~ get o ["draw_textures_inside"%string] jc_bool ;; j_hit_event <~ get o ["hit_event"%string] jc_bool ;;
      j_threshold <~ get o ["threshold"%string] jc_f32 ;; j_elasticity <~ get o ["elasticity"%string] jc_f32 ;;
      j_elasticity_falloff <~ get o ["elasticity_falloff"%string] jc_f32 ;; j_friction <~ get o ["friction"%string] jc_f32 ;;
      j_scatter <~ get o ["scatter"%string] jc_f32 ;; j_edge_factor_ui <~ get o ["edge_factor_ui"%string] jc_f32 ;;
      j_collision_reduction_factor <~ get o ["collision_reduction_factor"%string] (jc_option jc_f32) ;;
      j_is_collidable <~ get o ["is_collidable"%string] jc_bool ;; j_is_toy <~ get o ["is_toy"%string] jc_bool ;;
      j_use_3d_mesh <~ get o ["use_3d_mesh"%string] jc_bool ;; j_static_rendering <~ get o ["static_rendering"%string] jc_bool ;;
      j_disable_lighting_top_old <~ get o ["disable_lighting_top_old"%string] (jc_option jc_f32) ;;
      j_disable_lighting_top <~ get o ["disable_lighting_top"%string] (jc_option jc_f32) ;;
      j_disable_lighting_below <~ get o ["disable_lighting_below"%string] (jc_option jc_f32) ;;
      j_is_reflection_enabled <~ get o ["is_reflection_enabled"%string] (jc_option jc_bool) ;;
      j_backfaces_enabled <~ get o ["backfaces_enabled"%string] (jc_option jc_bool) ;;
      j_physics_material <~ get o ["physics_material"%string] (jc_option jc_string) ;;
      j_overwrite_physics <~ get o ["overwrite_physics"%string] (jc_option jc_bool) ;;
      j_display_texture <~ get o ["display_texture"%string] (jc_option jc_bool) ;;
      j_object_space_normal_map <~ get o ["object_space_normal_map"%string] (jc_option jc_bool) ;;
      j_min_aa_bound <~ get o ["min_aa_bound"%string] (jc_option jc_Vertex3D) ;; j_max_aa_bound <~ get o ["max_aa_bound"%string] (jc_option jc_Vertex3D) ;;
      j_mesh_file_name <~ get o ["mesh_file_name"%string] (jc_option jc_string) ;; j_depth_bias <~ get o ["depth_bias"%string] jc_f32 ;;
      j_add_blend <~ get o ["add_blend"%string] (jc_option jc_bool) ;; j_use_depth_mask <~ get o ["use_depth_mask"%string] (jc_option jc_bool) ;;
      j_alpha <~ get o ["alpha"%string] (jc_option jc_f32) ;; j_color <~ get o ["color"%string] (jc_option jc_Color) ;;
      j_light_map <~ get o ["light_map"%string] (jc_option jc_string) ;; j_reflection_probe <~ get o ["reflection_probe"%string] (jc_option jc_string) ;;
      j_reflection_strength <~ get o ["reflection_strength"%string] (jc_option jc_f32) ;;
      j_refraction_probe <~ get o ["refraction_probe"%string] (jc_option jc_string) ;;
      j_refraction_thickness <~ get o ["refraction_thickness"%string] (jc_option jc_f32) ;;
      j_part_group_name <~ get o ["part_group_name"%string] (jc_option jc_string) ;;
      match j_rot_and_tra with [r0; r1; r2; r3; r4; r5; r6; r7; r8] => Ok (mkPrimitive j_name j_position j_size r0 r1 r2 r3 r4 r5 r6 r7 r8 j_image j_normal_map j_sides j_material j_side_color j_is_visible j_draw_textures_inside
        j_hit_event j_threshold j_elasticity j_elasticity_falloff j_friction j_scatter j_edge_factor_ui j_collision_reduction_factor j_is_collidable j_is_toy
        j_use_3d_mesh j_static_rendering j_disable_lighting_top_old j_disable_lighting_top j_disable_lighting_below j_is_reflection_enabled
        j_backfaces_enabled j_physics_material j_overwrite_physics j_display_texture j_object_space_normal_map j_min_aa_bound j_max_aa_bound j_mesh_file_name
        None None None None None None None None j_depth_bias j_add_blend j_use_depth_mask j_alpha j_color j_light_map j_reflection_probe j_reflection_strength
        j_refraction_probe j_refraction_thickness false None None None j_part_group_name) | _ => Err end).

(** gameitem/ramp.rs:196-230 [RampJson]; 234-266 the item as JSON; 270-310 back *)
Definition jc_Ramp : jcodec Ramp :=
  jc_record (fun x => object (
      [put "height_bottom" jc_f32 (Ramp_height_bottom x); put "height_top" jc_f32 (Ramp_height_top x); put "width_bottom" jc_f32 (Ramp_width_bottom x);
       put "width_top" jc_f32 (Ramp_width_top x); put "material" jc_string (Ramp_material x)] ++
      put_TimerData (Ramp_timer x) ++
      [put "ramp_type" jc_RampType (Ramp_ramp_type x); put "name" jc_string (Ramp_name x); put "image" jc_string (Ramp_image x);
       put "image_alignment" jc_RampImageAlignment (Ramp_image_alignment x); put "image_walls" jc_bool (Ramp_image_walls x);
       put "left_wall_height" jc_f32 (Ramp_left_wall_height x); put "right_wall_height" jc_f32 (Ramp_right_wall_height x);
       put "left_wall_height_visible" jc_f32 (Ramp_left_wall_height_visible x); put "right_wall_height_visible" jc_f32 (Ramp_right_wall_height_visible x);
       put "hit_event" (jc_option jc_bool) (Ramp_hit_event x); put "threshold" (jc_option jc_f32) (Ramp_threshold x);
       put "elasticity" jc_f32 (Ramp_elasticity x); put "friction" jc_f32 (Ramp_friction x); put "scatter" jc_f32 (Ramp_scatter x);
       put "is_collidable" jc_bool (Ramp_is_collidable x); put "is_visible" jc_bool (Ramp_is_visible x); put "depth_bias" jc_f32 (Ramp_depth_bias x);
       put "wire_diameter" jc_f32 (Ramp_wire_diameter x); put "wire_distance_x" jc_f32 (Ramp_wire_distance_x x);
       put "wire_distance_y" jc_f32 (Ramp_wire_distance_y x); put "is_reflection_enabled" (jc_option jc_bool) (Ramp_is_reflection_enabled x);
       put "physics_material" (jc_option jc_string) (Ramp_physics_material x); put "overwrite_physics" (jc_option jc_bool) (Ramp_overwrite_physics x);
       put "drag_points" (jc_list jc_DragPoint) (Ramp_drag_points x); put_some "part_group_name" jc_string (Ramp_part_group_name x)]))
    (fun o =>
      j_height_bottom <~ get o ["height_bottom"%string] jc_f32 ;; j_height_top <~ get o ["height_top"%string] jc_f32 ;;
      j_width_bottom <~ get o ["width_bottom"%string] jc_f32 ;; j_width_top <~ get o ["width_top"%string] jc_f32 ;;
      j_material <~ get o ["material"%string] jc_string ;; j_timer <~ get_TimerData o ;; j_ramp_type <~ get o ["ramp_type"%string] jc_RampType ;;
      j_name <~ get o ["name"%string] jc_string ;; j_image <~ get o ["image"%string] jc_string ;;
      j_image_alignment <~ get o ["image_alignment"%string] jc_RampImageAlignment ;; j_image_walls <~ get o ["image_walls"%string] jc_bool ;;
      j_left_wall_height <~ get o ["left_wall_height"%string] jc_f32 ;; j_right_wall_height <~ get o ["right_wall_height"%string] jc_f32 ;;
      j_left_wall_height_visible <~ get o ["left_wall_height_visible"%string] jc_f32 ;;
      j_right_wall_height_visible <~ get o ["right_wall_height_visible"%string] jc_f32 ;; j_hit_event <~ get o ["hit_event"%string] (jc_option jc_bool) ;;
      j_threshold <~ get o ["threshold"%string] (jc_option jc_f32) ;; j_elasticity <~ get o ["elasticity"%string] jc_f32 ;;
      j_friction <~ get o ["friction"%string] jc_f32 ;; j_scatter <~ get o ["scatter"%string] jc_f32 ;;
      j_is_collidable <~ get o ["is_collidable"%string] jc_bool ;; j_is_visible <~ get o ["is_visible"%string] jc_bool ;;
      j_depth_bias <~ get o ["depth_bias"%string] jc_f32 ;; j_wire_diameter <~ get o ["wire_diameter"%string] jc_f32 ;;
      j_wire_distance_x <~ get o ["wire_distance_x"%string] jc_f32 ;; j_wire_distance_y <~ get o ["wire_distance_y"%string] jc_f32 ;;
      j_is_reflection_enabled <~ get o ["is_reflection_enabled"%string] (jc_option jc_bool) ;;
      j_physics_material <~ get o ["physics_material"%string] (jc_option jc_string) ;;
      j_overwrite_physics <~ get o ["overwrite_physics"%string] (jc_option jc_bool) ;;
      j_drag_points <~ get o ["drag_points"%string] (jc_list jc_DragPoint) ;; j_part_group_name <~ get o ["part_group_name"%string] (jc_option jc_string) ;;
      Ok (mkRamp j_height_bottom j_height_top j_width_bottom j_width_top j_material j_ramp_type j_name j_image j_image_alignment j_image_walls j_left_wall_height
        j_right_wall_height j_left_wall_height_visible j_right_wall_height_visible j_hit_event j_threshold j_elasticity j_friction j_scatter j_is_collidable
        j_is_visible j_depth_bias j_wire_diameter j_wire_distance_x j_wire_distance_y j_is_reflection_enabled j_physics_material j_overwrite_physics
        j_drag_points j_timer false None None None j_part_group_name)).

(** gameitem/reel.rs:49-71 [ReelJson]; 75-95 the item as JSON; 98-126 back *)
Definition jc_Reel : jcodec Reel :=
  jc_record (fun x => object (
      [put "ver1" jc_Vertex2D (Reel_ver1 x); put "ver2" jc_Vertex2D (Reel_ver2 x); put "back_color" jc_Color (Reel_back_color x)] ++
      put_TimerData (Reel_timer x) ++
      [put "is_transparent" jc_bool (Reel_is_transparent x); put "image" jc_string (Reel_image x); put "sound" jc_string (Reel_sound x);
       put "name" jc_string (Reel_name x); put "width" jc_f32 (Reel_width x); put "height" jc_f32 (Reel_height x);
       put "reel_count" jc_f32 (Reel_reel_count x); put "reel_spacing" jc_f32 (Reel_reel_spacing x); put "motor_steps" jc_f32 (Reel_motor_steps x);
       put "digit_range" jc_f32 (Reel_digit_range x); put "update_interval" jc_u32 (Reel_update_interval x);
       put "use_image_grid" jc_bool (Reel_use_image_grid x); put "is_visible" jc_bool (Reel_is_visible x);
       put "images_per_grid_row" jc_u32 (Reel_images_per_grid_row x); put_some "part_group_name" jc_string (Reel_part_group_name x)]))
    (fun o =>
      j_ver1 <~ get o ["ver1"%string] jc_Vertex2D ;; j_ver2 <~ get o ["ver2"%string] jc_Vertex2D ;; j_back_color <~ get o ["back_color"%string] jc_Color ;;
      j_timer <~ get_TimerData o ;; j_is_transparent <~ get o ["is_transparent"%string] jc_bool ;; j_image <~ get o ["image"%string] jc_string ;;
      j_sound <~ get o ["sound"%string] jc_string ;; j_name <~ get o ["name"%string] jc_string ;; j_width <~ get o ["width"%string] jc_f32 ;;
      j_height <~ get o ["height"%string] jc_f32 ;; j_reel_count <~ get o ["reel_count"%string] jc_f32 ;;
      j_reel_spacing <~ get o ["reel_spacing"%string] jc_f32 ;; j_motor_steps <~ get o ["motor_steps"%string] jc_f32 ;;
      j_digit_range <~ get o ["digit_range"%string] jc_f32 ;; j_update_interval <~ get o ["update_interval"%string] jc_u32 ;;
      j_use_image_grid <~ get o ["use_image_grid"%string] jc_bool ;; j_is_visible <~ get o ["is_visible"%string] jc_bool ;;
      j_images_per_grid_row <~ get o ["images_per_grid_row"%string] jc_u32 ;; j_part_group_name <~ get o ["part_group_name"%string] (jc_option jc_string) ;;
      Ok (mkReel j_ver1 j_ver2 j_back_color j_is_transparent j_image j_sound j_name j_width j_height j_reel_count j_reel_spacing j_motor_steps j_digit_range
        j_update_interval j_use_image_grid j_is_visible j_images_per_grid_row j_timer false None None None j_part_group_name)).

(** gameitem/rubber.rs:58-86 [RubberJson]; 90-116 the item as JSON; 120-154 back *)
Definition jc_Rubber : jcodec Rubber :=
  jc_record (fun x => object (
      [put "height" jc_f32 (Rubber_height x); put "hit_height" (jc_option jc_f32) (Rubber_hit_height x); put "thickness" jc_i32 (Rubber_thickness x);
       put "hit_event" jc_bool (Rubber_hit_event x); put "material" jc_string (Rubber_material x)] ++
      put_TimerData (Rubber_timer x) ++
      [put "name" jc_string (Rubber_name x); put "image" jc_string (Rubber_image x); put "elasticity" jc_f32 (Rubber_elasticity x);
       put "elasticity_falloff" jc_f32 (Rubber_elasticity_falloff x); put "friction" jc_f32 (Rubber_friction x); put "scatter" jc_f32 (Rubber_scatter x);
       put "is_collidable" jc_bool (Rubber_is_collidable x); put "is_visible" jc_bool (Rubber_is_visible x); put "radb" (jc_option jc_f32) (Rubber_radb x);
       put "static_rendering" jc_bool (Rubber_static_rendering x); put "show_in_editor" jc_bool (Rubber_show_in_editor x);
       put "rot_x" jc_f32 (Rubber_rot_x x); put "rot_y" jc_f32 (Rubber_rot_y x); put "rot_z" jc_f32 (Rubber_rot_z x);
       put "is_reflection_enabled" (jc_option jc_bool) (Rubber_is_reflection_enabled x);
       put "physics_material" (jc_option jc_string) (Rubber_physics_material x); put "overwrite_physics" (jc_option jc_bool) (Rubber_overwrite_physics x);
       put "drag_points" (jc_list jc_DragPoint) (Rubber_drag_points x); put_some "part_group_name" jc_string (Rubber_part_group_name x)]))
    (fun o =>
      j_height <~ get o ["height"%string] jc_f32 ;; j_hit_height <~ get o ["hit_height"%string] (jc_option jc_f32) ;;
      j_thickness <~ get o ["thickness"%string] jc_i32 ;; j_hit_event <~ get o ["hit_event"%string] jc_bool ;;
      j_material <~ get o ["material"%string] jc_string ;; j_timer <~ get_TimerData o ;; j_name <~ get o ["name"%string] jc_string ;;
      j_image <~ get o ["image"%string] jc_string ;; j_elasticity <~ get o ["elasticity"%string] jc_f32 ;;
      j_elasticity_falloff <~ get o ["elasticity_falloff"%string] jc_f32 ;; j_friction <~ get o ["friction"%string] jc_f32 ;;
      j_scatter <~ get o ["scatter"%string] jc_f32 ;; j_is_collidable <~ get o ["is_collidable"%string] jc_bool ;;
      j_is_visible <~ get o ["is_visible"%string] jc_bool ;; j_radb <~ get o ["radb"%string] (jc_option jc_f32) ;;
      j_static_rendering <~ get o ["static_rendering"%string] jc_bool ;; j_show_in_editor <~ get o ["show_in_editor"%string] jc_bool ;;
      j_rot_x <~ get o ["rot_x"%string] jc_f32 ;; j_rot_y <~ get o ["rot_y"%string] jc_f32 ;; j_rot_z <~ get o ["rot_z"%string] jc_f32 ;;
      j_is_reflection_enabled <~ get o ["is_reflection_enabled"%string] (jc_option jc_bool) ;;
      j_physics_material <~ get o ["physics_material"%string] (jc_option jc_string) ;;
      j_overwrite_physics <~ get o ["overwrite_physics"%string] (jc_option jc_bool) ;;
      j_drag_points <~ get o ["drag_points"%string] (jc_list jc_DragPoint) ;; j_part_group_name <~ get o ["part_group_name"%string] (jc_option jc_string) ;;
      Ok (mkRubber j_height j_hit_height j_thickness j_hit_event j_material j_name j_image j_elasticity j_elasticity_falloff j_friction j_scatter j_is_collidable
        j_is_visible j_radb j_static_rendering j_show_in_editor j_rot_x j_rot_y j_rot_z j_is_reflection_enabled j_physics_material j_overwrite_physics j_timer
        false None None None j_part_group_name j_drag_points)).

(** gameitem/spinner.rs:140-160 [SpinnerJson]; 164-182 the item as JSON; 186-212 back *)
Definition jc_Spinner : jcodec Spinner :=
  jc_record (fun x => object (
      [put "center" jc_Vertex2D (Spinner_center x); put "rotation" jc_f32 (Spinner_rotation x)] ++
      put_TimerData (Spinner_timer x) ++
      [put "height" jc_f32 (Spinner_height x); put "length" jc_f32 (Spinner_length x); put "damping" jc_f32 (Spinner_damping x);
       put "angle_max" jc_f32 (Spinner_angle_max x); put "angle_min" jc_f32 (Spinner_angle_min x); put "elasticity" jc_f32 (Spinner_elasticity x);
       put "is_visible" jc_bool (Spinner_is_visible x); put "show_bracket" jc_bool (Spinner_show_bracket x); put "material" jc_string (Spinner_material x);
       put "image" jc_string (Spinner_image x); put "surface" jc_string (Spinner_surface x); put "name" jc_string (Spinner_name x);
       put "is_reflection_enabled" (jc_option jc_bool) (Spinner_is_reflection_enabled x); put_some "part_group_name" jc_string (Spinner_part_group_name x)]))
    (fun o =>
      j_center <~ get o ["center"%string] jc_Vertex2D ;; j_rotation <~ get o ["rotation"%string] jc_f32 ;; j_timer <~ get_TimerData o ;;
      j_height <~ get o ["height"%string] jc_f32 ;; j_length <~ get o ["length"%string] jc_f32 ;; j_damping <~ get o ["damping"%string] jc_f32 ;;
      j_angle_max <~ get o ["angle_max"%string] jc_f32 ;; j_angle_min <~ get o ["angle_min"%string] jc_f32 ;;
      j_elasticity <~ get o ["elasticity"%string] jc_f32 ;; j_is_visible <~ get o ["is_visible"%string] jc_bool ;;
      j_show_bracket <~ get o ["show_bracket"%string] jc_bool ;; j_material <~ get o ["material"%string] jc_string ;;
      j_image <~ get o ["image"%string] jc_string ;; j_surface <~ get o ["surface"%string] jc_string ;; j_name <~ get o ["name"%string] jc_string ;;
      j_is_reflection_enabled <~ get o ["is_reflection_enabled"%string] (jc_option jc_bool) ;;
      j_part_group_name <~ get o ["part_group_name"%string] (jc_option jc_string) ;;
      Ok (mkSpinner j_name j_center j_rotation j_height j_length j_damping j_angle_max j_angle_min j_elasticity j_is_visible j_show_bracket j_material j_image j_surface
        j_is_reflection_enabled j_timer false None None None j_part_group_name)).

(** gameitem/textbox.rs:141-157 [TextBoxJson]; 161-175 the item as JSON; 179-201 back *)
Definition jc_TextBox : jcodec TextBox :=
  jc_record (fun x => object (
      [put "ver1" jc_Vertex2D (TextBox_ver1 x); put "ver2" jc_Vertex2D (TextBox_ver2 x); put "back_color" jc_Color (TextBox_back_color x);
       put "font_color" jc_Color (TextBox_font_color x); put "intensity_scale" jc_f32 (TextBox_intensity_scale x); put "text" jc_string (TextBox_text x)] ++
      put_TimerData (TextBox_timer x) ++
      [put "name" jc_string (TextBox_name x); put "align" jc_TextAlignment (TextBox_align x); put "is_transparent" jc_bool (TextBox_is_transparent x);
       put "is_dmd" (jc_option jc_bool) (TextBox_is_dmd x); put "font" jc_FontDesc (TextBox_font x);
       put_some "part_group_name" jc_string (TextBox_part_group_name x)]))
    (fun o =>
      j_ver1 <~ get o ["ver1"%string] jc_Vertex2D ;; j_ver2 <~ get o ["ver2"%string] jc_Vertex2D ;; j_back_color <~ get o ["back_color"%string] jc_Color ;;
      j_font_color <~ get o ["font_color"%string] jc_Color ;; j_intensity_scale <~ get o ["intensity_scale"%string] jc_f32 ;;
      j_text <~ get o ["text"%string] jc_string ;; j_timer <~ get_TimerData o ;; j_name <~ get o ["name"%string] jc_string ;;
      j_align <~ get o ["align"%string] jc_TextAlignment ;; j_is_transparent <~ get o ["is_transparent"%string] jc_bool ;;
      j_is_dmd <~ get o ["is_dmd"%string] (jc_option jc_bool) ;; j_font <~ get o ["font"%string] jc_FontDesc ;;
      j_part_group_name <~ get o ["part_group_name"%string] (jc_option jc_string) ;;
      Ok (mkTextBox j_ver1 j_ver2 j_back_color j_font_color j_intensity_scale j_text j_name j_align j_is_transparent j_is_dmd j_font j_timer false None None None
        j_part_group_name)).

(** gameitem/timer.rs:31-39 [TimerJson]; 43-49 the item as JSON; 52-66 back *)
Definition jc_Timer : jcodec Timer :=
  jc_record (fun x => object (
      [put "center" jc_Vertex2D (Timer_center x)] ++
      put_TimerData (Timer_timer x) ++
      [put "name" jc_string (Timer_name x); put "backglass" jc_bool (Timer_backglass x); put_some "part_group_name" jc_string (Timer_part_group_name x)]))
    (fun o =>
      j_center <~ get o ["center"%string] jc_Vertex2D ;; j_timer <~ get_TimerData o ;; j_name <~ get o ["name"%string] jc_string ;;
      j_backglass <~ get o ["backglass"%string] jc_bool ;; j_part_group_name <~ get o ["part_group_name"%string] (jc_option jc_string) ;;
      Ok (mkTimer j_center j_name j_backglass j_timer false None None None j_part_group_name)).

(** gameitem/trigger.rs:244-265 [TriggerJson]; 269-288 the item as JSON; 291-318 back *)
Definition jc_Trigger : jcodec Trigger :=
  jc_record (fun x => object (
      [put "center" jc_Vertex2D (Trigger_center x); put "radius" jc_f32 (Trigger_radius x); put "rotation" jc_f32 (Trigger_rotation x);
       put "wire_thickness" (jc_option jc_f32) (Trigger_wire_thickness x); put "scale_x" jc_f32 (Trigger_scale_x x); put "scale_y" jc_f32 (Trigger_scale_y x)] ++
      put_TimerData (Trigger_timer x) ++
      [put "material" jc_string (Trigger_material x); put "surface" jc_string (Trigger_surface x); put "is_visible" jc_bool (Trigger_is_visible x);
       put "is_enabled" jc_bool (Trigger_is_enabled x); put "hit_height" jc_f32 (Trigger_hit_height x); put "name" jc_string (Trigger_name x);
       put "shape" jc_TriggerShape (Trigger_shape x); put "anim_speed" jc_f32 (Trigger_anim_speed x);
       put "is_reflection_enabled" (jc_option jc_bool) (Trigger_is_reflection_enabled x); put_some "part_group_name" jc_string (Trigger_part_group_name x);
       put "drag_points" (jc_list jc_DragPoint) (Trigger_drag_points x)]))
    (fun o =>
      j_center <~ get o ["center"%string] jc_Vertex2D ;; j_radius <~ get o ["radius"%string] jc_f32 ;; j_rotation <~ get o ["rotation"%string] jc_f32 ;;
      j_wire_thickness <~ get o ["wire_thickness"%string] (jc_option jc_f32) ;; j_scale_x <~ get o ["scale_x"%string] jc_f32 ;;
      j_scale_y <~ get o ["scale_y"%string] jc_f32 ;; j_timer <~ get_TimerData o ;; j_material <~ get o ["material"%string] jc_string ;;
      j_surface <~ get o ["surface"%string] jc_string ;; j_is_visible <~ get o ["is_visible"%string] jc_bool ;;
      j_is_enabled <~ get o ["is_enabled"%string] jc_bool ;; j_hit_height <~ get o ["hit_height"%string] jc_f32 ;;
      j_name <~ get o ["name"%string] jc_string ;; j_shape <~ get o ["shape"%string] jc_TriggerShape ;;
      j_anim_speed <~ get o ["anim_speed"%string] jc_f32 ;; j_is_reflection_enabled <~ get o ["is_reflection_enabled"%string] (jc_option jc_bool) ;;
      j_part_group_name <~ get o ["part_group_name"%string] (jc_option jc_string) ;; j_drag_points <~ get o ["drag_points"%string] (jc_list jc_DragPoint) ;;
      Ok (mkTrigger j_name j_center j_radius j_rotation j_wire_thickness j_scale_x j_scale_y j_material j_surface j_is_visible j_is_enabled j_hit_height j_shape
        j_anim_speed j_is_reflection_enabled j_timer false None None None j_part_group_name j_drag_points)).

(** gameitem/wall.rs:98-134 [WallJson]; 138-172 the item as JSON; 176-218 back *)
Definition jc_Wall : jcodec Wall :=
  jc_record (fun x => object (
      [put "hit_event" jc_bool (Wall_hit_event x); put "is_droppable" jc_bool (Wall_is_droppable x); put "is_flipbook" jc_bool (Wall_is_flipbook x);
       put "is_bottom_solid" jc_bool (Wall_is_bottom_solid x); put "is_collidable" jc_bool (Wall_is_collidable x)] ++
      put_TimerData (Wall_timer x) ++
      [put "threshold" jc_f32 (Wall_threshold x); put "image" jc_string (Wall_image x); put "side_image" jc_string (Wall_side_image x);
       put "side_material" jc_string (Wall_side_material x); put "top_material" jc_string (Wall_top_material x);
       put "slingshot_material" jc_string (Wall_slingshot_material x); put "height_bottom" jc_f32 (Wall_height_bottom x);
       put "height_top" jc_f32 (Wall_height_top x); put "name" jc_string (Wall_name x); put "display_texture" jc_bool (Wall_display_texture x);
       put "slingshot_force" jc_f32 (Wall_slingshot_force x); put "slingshot_threshold" jc_f32 (Wall_slingshot_threshold x);
       put "elasticity" jc_f32 (Wall_elasticity x); put "elasticity_falloff" (jc_option jc_f32) (Wall_elasticity_falloff x);
       put "friction" jc_f32 (Wall_friction x); put "scatter" jc_f32 (Wall_scatter x); put "is_top_bottom_visible" jc_bool (Wall_is_top_bottom_visible x);
       put "slingshot_animation" jc_bool (Wall_slingshot_animation x); put "is_side_visible" jc_bool (Wall_is_side_visible x);
       put "disable_lighting_top_old" (jc_option jc_f32) (Wall_disable_lighting_top_old x);
       put "disable_lighting_top" (jc_option jc_f32) (Wall_disable_lighting_top x);
       put "disable_lighting_below" (jc_option jc_f32) (Wall_disable_lighting_below x);
       put "is_reflection_enabled" (jc_option jc_bool) (Wall_is_reflection_enabled x);
       put "physics_material" (jc_option jc_string) (Wall_physics_material x); put "overwrite_physics" (jc_option jc_bool) (Wall_overwrite_physics x);
       put "drag_points" (jc_list jc_DragPoint) (Wall_drag_points x); put_some "part_group_name" jc_string (Wall_part_group_name x)]))
    (fun o =>
      j_hit_event <~ get o ["hit_event"%string] jc_bool ;; j_is_droppable <~ get o ["is_droppable"%string] jc_bool ;;
      j_is_flipbook <~ get o ["is_flipbook"%string] jc_bool ;; j_is_bottom_solid <~ get o ["is_bottom_solid"%string] jc_bool ;;
      j_is_collidable <~ get o ["is_collidable"%string] jc_bool ;; j_timer <~ get_TimerData o ;; j_threshold <~ get o ["threshold"%string] jc_f32 ;;
      j_image <~ get o ["image"%string] jc_string ;; j_side_image <~ get o ["side_image"%string] jc_string ;;
      j_side_material <~ get o ["side_material"%string] jc_string ;; j_top_material <~ get o ["top_material"%string] jc_string ;;
      j_slingshot_material <~ get o ["slingshot_material"%string] jc_string ;; j_height_bottom <~ get o ["height_bottom"%string] jc_f32 ;;
      j_height_top <~ get o ["height_top"%string] jc_f32 ;; j_name <~ get o ["name"%string] jc_string ;;
      j_display_texture <~ get o ["display_texture"%string] jc_bool ;; j_slingshot_force <~ get o ["slingshot_force"%string] jc_f32 ;;
      j_slingshot_threshold <~ get o ["slingshot_threshold"%string] jc_f32 ;; j_elasticity <~ get o ["elasticity"%string] jc_f32 ;;
      j_elasticity_falloff <~ get o ["elasticity_falloff"%string] (jc_option jc_f32) ;; j_friction <~ get o ["friction"%string] jc_f32 ;;
      j_scatter <~ get o ["scatter"%string] jc_f32 ;; j_is_top_bottom_visible <~ get o ["is_top_bottom_visible"%string] jc_bool ;;
      j_slingshot_animation <~ get o ["slingshot_animation"%string] jc_bool ;; j_is_side_visible <~ get o ["is_side_visible"%string] jc_bool ;;
      j_disable_lighting_top_old <~ get o ["disable_lighting_top_old"%string] (jc_option jc_f32) ;;
      j_disable_lighting_top <~ get o ["disable_lighting_top"%string] (jc_option jc_f32) ;;
      j_disable_lighting_below <~ get o ["disable_lighting_below"%string] (jc_option jc_f32) ;;
      j_is_reflection_enabled <~ get o ["is_reflection_enabled"%string] (jc_option jc_bool) ;;
      j_physics_material <~ get o ["physics_material"%string] (jc_option jc_string) ;;
      j_overwrite_physics <~ get o ["overwrite_physics"%string] (jc_option jc_bool) ;;
      j_drag_points <~ get o ["drag_points"%string] (jc_list jc_DragPoint) ;; j_part_group_name <~ get o ["part_group_name"%string] (jc_option jc_string) ;;
      Ok (mkWall j_name j_hit_event j_is_droppable j_is_flipbook j_is_bottom_solid j_is_collidable j_threshold j_image j_side_image j_side_material j_top_material
        j_slingshot_material j_height_bottom j_height_top j_display_texture j_slingshot_force j_slingshot_threshold j_elasticity j_elasticity_falloff
        j_friction j_scatter j_is_top_bottom_visible j_slingshot_animation j_is_side_visible j_disable_lighting_top_old j_disable_lighting_top
        j_disable_lighting_below j_is_reflection_enabled j_physics_material j_overwrite_physics j_timer false None None None j_part_group_name j_drag_points)).

End Items.

(** Generated by tools/gen_items.py: what [Primitive_write] produces and what [Primitive_read] makes of it. *)
From Verif Require Import Base Text Biff Quantize Common Enums ItemBase ItemPrimitive.
From Verif Require Import BaseFacts TextFacts BiffFacts CommonFacts TermFacts QuantizeFacts EnumsFacts ItemBaseFacts.

(** The records that are written, in order. *)
Definition Primitive_recs (v : Primitive) : list rec :=
  R "VPOS" (v3_bytes (Primitive_position v)) ::
  R "VSIZ" (v3_bytes (Primitive_size v)) ::
  R "RTV0" (w32_bytes (Primitive_rot_and_tra_0 v)) ::
  R "RTV1" (w32_bytes (Primitive_rot_and_tra_1 v)) ::
  R "RTV2" (w32_bytes (Primitive_rot_and_tra_2 v)) ::
  R "RTV3" (w32_bytes (Primitive_rot_and_tra_3 v)) ::
  R "RTV4" (w32_bytes (Primitive_rot_and_tra_4 v)) ::
  R "RTV5" (w32_bytes (Primitive_rot_and_tra_5 v)) ::
  R "RTV6" (w32_bytes (Primitive_rot_and_tra_6 v)) ::
  R "RTV7" (w32_bytes (Primitive_rot_and_tra_7 v)) ::
  R "RTV8" (w32_bytes (Primitive_rot_and_tra_8 v)) ::
  R "IMAG" (string_bytes (Primitive_image v)) ::
  orec (Primitive_normal_map v) (fun x => R "NRMA" (string_bytes x)) ++
  R "SIDS" (w32_bytes (Primitive_sides v)) ::
  R "NAME" (wstring_bytes (Primitive_name v)) ::
  R "MATR" (string_bytes (Primitive_material v)) ::
  R "SCOL" (color_bytes (Primitive_side_color v)) ::
  R "TVIS" (bool_bytes (Primitive_is_visible v)) ::
  R "DTXI" (bool_bytes (Primitive_draw_textures_inside v)) ::
  R "HTEV" (bool_bytes (Primitive_hit_event v)) ::
  R "THRS" (w32_bytes (Primitive_threshold v)) ::
  R "ELAS" (w32_bytes (Primitive_elasticity v)) ::
  R "ELFO" (w32_bytes (Primitive_elasticity_falloff v)) ::
  R "RFCT" (w32_bytes (Primitive_friction v)) ::
  R "RSCT" (w32_bytes (Primitive_scatter v)) ::
  R "EFUI" (w32_bytes (Primitive_edge_factor_ui v)) ::
  orec (Primitive_collision_reduction_factor v) (fun x => R "CORF" (w32_bytes x)) ++
  R "CLDR" (bool_bytes (Primitive_is_collidable v)) ::
  R "ISTO" (bool_bytes (Primitive_is_toy v)) ::
  R "U3DM" (bool_bytes (Primitive_use_3d_mesh v)) ::
  R "STRE" (bool_bytes (Primitive_static_rendering v)) ::
  orec (Primitive_disable_lighting_top_old v) (fun x => R "DILI" (dili_bytes x)) ++
  orec (Primitive_disable_lighting_top v) (fun x => R "DILT" (w32_bytes x)) ++
  orec (Primitive_disable_lighting_below v) (fun x => R "DILB" (w32_bytes x)) ++
  orec (Primitive_is_reflection_enabled v) (fun x => R "REEN" (bool_bytes x)) ++
  orec (Primitive_backfaces_enabled v) (fun x => R "EBFC" (bool_bytes x)) ++
  orec (Primitive_physics_material v) (fun x => R "MAPH" (string_bytes x)) ++
  orec (Primitive_overwrite_physics v) (fun x => R "OVPH" (bool_bytes x)) ++
  orec (Primitive_display_texture v) (fun x => R "DIPT" (bool_bytes x)) ++
  orec (Primitive_object_space_normal_map v) (fun x => R "OSNM" (bool_bytes x)) ++
  orec (Primitive_min_aa_bound v) (fun x => R "BMIN" (v3u_bytes x)) ++
  orec (Primitive_max_aa_bound v) (fun x => R "BMAX" (v3u_bytes x)) ++
  orec (Primitive_mesh_file_name v) (fun x => R "M3DN" (string_bytes x)) ++
  orec (Primitive_num_vertices v) (fun x => R "M3VN" (w32_bytes x)) ++
  orec (Primitive_compressed_vertices_len v) (fun x => R "M3CY" (w32_bytes x)) ++
  orec (Primitive_compressed_vertices_data v) (fun x => R "M3CX" (x)) ++
  orec (Primitive_num_indices v) (fun x => R "M3FN" (w32_bytes x)) ++
  orec (Primitive_compressed_indices_len v) (fun x => R "M3CJ" (w32_bytes x)) ++
  orec (Primitive_compressed_indices_data v) (fun x => R "M3CI" (x)) ++
  anim_recs (Primitive_compressed_animation_vertices_len v) (Primitive_compressed_animation_vertices_data v) ++
  R "PIDB" (w32_bytes (Primitive_depth_bias v)) ::
  orec (Primitive_add_blend v) (fun x => R "ADDB" (bool_bytes x)) ++
  orec (Primitive_use_depth_mask v) (fun x => R "ZMSK" (bool_bytes x)) ++
  orec (Primitive_alpha v) (fun x => R "FALP" (w32_bytes x)) ++
  orec (Primitive_color v) (fun x => R "COLR" (color_bytes x)) ++
  orec (Primitive_light_map v) (fun x => R "LMAP" (string_bytes x)) ++
  orec (Primitive_reflection_probe v) (fun x => R "REFL" (string_bytes x)) ++
  orec (Primitive_reflection_strength v) (fun x => R "RSTR" (w32_bytes x)) ++
  orec (Primitive_refraction_probe v) (fun x => R "REFR" (string_bytes x)) ++
  orec (Primitive_refraction_thickness v) (fun x => R "RTHI" (w32_bytes x)) ++
  R "LOCK" (bool_bytes (Primitive_is_locked v)) ::
  orec (Primitive_editor_layer v) (fun x => R "LAYR" (w32_bytes x)) ++
  orec (Primitive_editor_layer_name v) (fun x => R "LANR" (string_bytes x)) ++
  orec (Primitive_part_group_name v) (fun x => R "GRUP" (string_bytes x)) ++
  orec (Primitive_editor_layer_visibility v) (fun x => R "LVIS" (bool_bytes x)) ++
  [].
(** The values that can be stored: see the components. *)
Definition Primitive_ok (v : Primitive) : bool :=
  str_ok (Primitive_image v) && opt_ok str_ok (Primitive_normal_map v) && wstr_ok (Primitive_name v) && str_ok (Primitive_material v) && opt_ok dili_ok (Primitive_disable_lighting_top_old v) && opt_ok str_ok (Primitive_physics_material v) && opt_ok str_ok (Primitive_mesh_file_name v) && opt_ok data_ok (Primitive_compressed_vertices_data v) && opt_ok data_ok (Primitive_compressed_indices_data v) && anim_ok (Primitive_compressed_animation_vertices_len v) (Primitive_compressed_animation_vertices_data v) && opt_ok str_ok (Primitive_light_map v) && opt_ok str_ok (Primitive_reflection_probe v) && opt_ok str_ok (Primitive_refraction_probe v) && opt_ok str_ok (Primitive_editor_layer_name v) && opt_ok str_ok (Primitive_part_group_name v).
Lemma Primitive_steps v : Primitive_ok v = true -> Steps (dispatch Primitive_arms) Primitive_init (Primitive_recs v) v.
Proof.
  intros H. unfold Primitive_ok in H. split_ok H. eapply Steps_eq.
  - unfold Primitive_recs.
    srec. srec. srec. srec. srec. srec. srec. srec. srec. srec. srec. srec. sopt set_Primitive_normal_map Primitive_normal_map. srec. srec. srec. srec. srec. srec. srec. srec. srec. srec. srec. srec. srec. sopt set_Primitive_collision_reduction_factor Primitive_collision_reduction_factor. srec. srec. srec. srec. sopt set_Primitive_disable_lighting_top_old Primitive_disable_lighting_top_old. sopt set_Primitive_disable_lighting_top Primitive_disable_lighting_top. sopt set_Primitive_disable_lighting_below Primitive_disable_lighting_below. sopt set_Primitive_is_reflection_enabled Primitive_is_reflection_enabled. sopt set_Primitive_backfaces_enabled Primitive_backfaces_enabled. sopt set_Primitive_physics_material Primitive_physics_material. sopt set_Primitive_overwrite_physics Primitive_overwrite_physics. sopt set_Primitive_display_texture Primitive_display_texture. sopt set_Primitive_object_space_normal_map Primitive_object_space_normal_map. sopt set_Primitive_min_aa_bound Primitive_min_aa_bound. sopt set_Primitive_max_aa_bound Primitive_max_aa_bound. sopt set_Primitive_mesh_file_name Primitive_mesh_file_name. sopt set_Primitive_num_vertices Primitive_num_vertices. sopt set_Primitive_compressed_vertices_len Primitive_compressed_vertices_len. sopt_data set_Primitive_compressed_vertices_data Primitive_compressed_vertices_data. sopt set_Primitive_num_indices Primitive_num_indices. sopt set_Primitive_compressed_indices_len Primitive_compressed_indices_len. sopt_data set_Primitive_compressed_indices_data Primitive_compressed_indices_data. eapply (S_anim (fun l d s => set_Primitive_compressed_animation_vertices_data d (set_Primitive_compressed_animation_vertices_len l s)) Primitive_compressed_animation_vertices_len Primitive_compressed_animation_vertices_data); [intros []; reflexivity|reflexivity|reflexivity|asm|reflexivity|reflexivity|intros ? ? ? []; eapply ArmH_eq; [eapply (ArmH_get _ (fun s y => _)); gets|reflexivity]|intros ? ? ? []; eapply ArmH_eq; [eapply (ArmH_data (fun s y => _))|reflexivity]|cbv beta]. srec. sopt set_Primitive_add_blend Primitive_add_blend. sopt set_Primitive_use_depth_mask Primitive_use_depth_mask. sopt set_Primitive_alpha Primitive_alpha. sopt set_Primitive_color Primitive_color. sopt set_Primitive_light_map Primitive_light_map. sopt set_Primitive_reflection_probe Primitive_reflection_probe. sopt set_Primitive_reflection_strength Primitive_reflection_strength. sopt set_Primitive_refraction_probe Primitive_refraction_probe. sopt set_Primitive_refraction_thickness Primitive_refraction_thickness. srec. sopt set_Primitive_editor_layer Primitive_editor_layer. sopt set_Primitive_editor_layer_name Primitive_editor_layer_name. sopt set_Primitive_part_group_name Primitive_part_group_name. sopt set_Primitive_editor_layer_visibility Primitive_editor_layer_visibility.
    constructor.
  - destruct v. vm_compute. reflexivity.
Qed.
Lemma Primitive_wapp v : Primitive_ok v = true -> wapp (Primitive_write v) (enc (Primitive_recs v ++ [endb])).
Proof.
  intros H. unfold Primitive_ok in H. split_ok H. unfold Primitive_write, Primitive_recs. recs_norm.
  wrec. wrec. wrec. wrec. wrec. wrec. wrec. wrec. wrec. wrec. wrec. wrec. woptrec. wrec. wrec. wrec. wrec. wrec. wrec. wrec. wrec. wrec. wrec. wrec. wrec. wrec. woptrec. wrec. wrec. wrec. wrec. woptrec. woptrec. woptrec. woptrec. woptrec. woptrec. woptrec. woptrec. woptrec. woptrec. woptrec. woptrec. woptrec. woptrec. woptrec. woptrec. woptrec. woptrec. wanim. wrec. woptrec. woptrec. woptrec. woptrec. woptrec. woptrec. woptrec. woptrec. woptrec. wshared Primitive_shared. apply wapp_close.
Qed.
Lemma Primitive_roundtrip v : Primitive_ok v = true ->
  exists b, run_writer (Primitive_write v) = Ok b /\ reads_as Primitive_read b v.
Proof. intros H. exact (item_roundtrip Primitive_write Primitive_arms Primitive_init Primitive_recs v (Primitive_wapp v H) ltac:(unfold Primitive_write; closes) (Primitive_steps v H)). Qed.
Lemma Primitive_term : Term Primitive_read.
Proof.
  apply Term_read_arms. unfold Primitive_arms, Primitive_own_arms, shared_arms. item_term.
Qed.
(** All of [Primitive_ok] except that the animation frames and their lengths come in pairs. *)
Definition Primitive_ok_but_frames (v : Primitive) : bool :=
  str_ok (Primitive_image v) && opt_ok str_ok (Primitive_normal_map v) && wstr_ok (Primitive_name v) && str_ok (Primitive_material v) && opt_ok dili_ok (Primitive_disable_lighting_top_old v) && opt_ok str_ok (Primitive_physics_material v) && opt_ok str_ok (Primitive_mesh_file_name v) && opt_ok data_ok (Primitive_compressed_vertices_data v) && opt_ok data_ok (Primitive_compressed_indices_data v) && anim_data_ok (Primitive_compressed_animation_vertices_data v) && opt_ok str_ok (Primitive_light_map v) && opt_ok str_ok (Primitive_reflection_probe v) && opt_ok str_ok (Primitive_refraction_probe v) && opt_ok str_ok (Primitive_editor_layer_name v) && opt_ok str_ok (Primitive_part_group_name v).
Lemma Primitive_yields : Yields Primitive_read (fun v => Primitive_ok_but_frames v = true).
Proof.
  apply Yields_read_arms; [|reflexivity]. unfold Primitive_arms, Primitive_own_arms, shared_arms.
  item_yields Primitive_ok_but_frames.
Qed.

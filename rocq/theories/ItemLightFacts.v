(** Generated by tools/gen_items.py: what [Light_write] produces and what [Light_read] makes of it. *)
From Verif Require Import Base Text Biff Quantize Common Enums ItemBase ItemLight.
From Verif Require Import BaseFacts TextFacts BiffFacts CommonFacts TermFacts QuantizeFacts EnumsFacts ItemBaseFacts.

(** The records that are written, in order. *)
Definition Light_recs (v : Light) : list rec :=
  R "VCEN" (v2_bytes (Light_center v)) ::
  orec (Light_height v) (fun x => R "HGHT" (w32_bytes x)) ++
  R "RADI" (w32_bytes (Light_falloff_radius v)) ::
  R "FAPO" (w32_bytes (Light_falloff_power v)) ::
  R "STAT" (w32_bytes (Light_state_u32 v)) ::
  orec (Light_state v) (fun x => R "STTF" (w32_bytes x)) ++
  R "COLR" (color_bytes (Light_color v)) ::
  R "COL2" (color_bytes (Light_color2 v)) ::
  R "TMON" (bool_bytes (td_is_enabled (Light_timer v))) ::
  R "TMIN" (w32_bytes (td_interval (Light_timer v))) ::
  R "BPAT" (string_bytes (Light_blink_pattern v)) ::
  R "IMG1" (string_bytes (Light_image v)) ::
  R "BINT" (w32_bytes (Light_blink_interval v)) ::
  R "BWTH" (w32_bytes (Light_intensity v)) ::
  R "TRMS" (w32_bytes (Light_transmission_scale v)) ::
  R "SURF" (string_bytes (Light_surface v)) ::
  R "NAME" (wstring_bytes (Light_name v)) ::
  R "BGLS" (bool_bytes (Light_is_backglass v)) ::
  R "LIDB" (w32_bytes (Light_depth_bias v)) ::
  R "FASP" (w32_bytes (Light_fade_speed_up v)) ::
  R "FASD" (w32_bytes (Light_fade_speed_down v)) ::
  R "BULT" (bool_bytes (Light_is_bulb_light v)) ::
  R "IMMO" (bool_bytes (Light_is_image_mode v)) ::
  R "SHBM" (bool_bytes (Light_show_bulb_mesh v)) ::
  orec (Light_has_static_bulb_mesh v) (fun x => R "STBM" (bool_bytes x)) ++
  R "SHRB" (bool_bytes (Light_show_reflection_on_ball v)) ::
  R "BMSC" (w32_bytes (Light_mesh_radius v)) ::
  R "BMVA" (w32_bytes (Light_bulb_modulate_vs_add v)) ::
  R "BHHI" (w32_bytes (Light_bulb_halo_height v)) ::
  orec (Light_shadows v) (fun x => R "SHDW" (w32_bytes (ShadowMode_to_u32 x))) ++
  orec (Light_fader v) (fun x => R "FADE" (w32_bytes (Fader_to_u32 x))) ++
  orec (Light_visible v) (fun x => R "VSBL" (bool_bytes x)) ++
  R "LOCK" (bool_bytes (Light_is_locked v)) ::
  orec (Light_editor_layer v) (fun x => R "LAYR" (w32_bytes x)) ++
  orec (Light_editor_layer_name v) (fun x => R "LANR" (string_bytes x)) ++
  orec (Light_part_group_name v) (fun x => R "GRUP" (string_bytes x)) ++
  orec (Light_editor_layer_visibility v) (fun x => R "LVIS" (bool_bytes x)) ++
  map (fun x => R0 "DPNT" (DragPoint_bytes x)) (Light_drag_points v) ++
  [].
(** The values that can be stored: see the components. *)
Definition Light_ok (v : Light) : bool :=
  str_ok (Light_blink_pattern v) && str_ok (Light_image v) && str_ok (Light_surface v) && wstr_ok (Light_name v) && opt_ok str_ok (Light_editor_layer_name v) && opt_ok str_ok (Light_part_group_name v) && forallb DragPoint_ok (Light_drag_points v).
Lemma Light_steps v : Light_ok v = true -> Steps (dispatch Light_arms) Light_init (Light_recs v) v.
Proof.
  intros H. unfold Light_ok in H. split_ok H. eapply Steps_eq.
  - unfold Light_recs.
    srec. sopt set_Light_height Light_height. srec. srec. srec. sopt set_Light_state Light_state. srec. srec. stimer Light_timer set_Light_timer. stimer Light_timer set_Light_timer. srec. srec. srec. srec. srec. srec. srec. srec. srec. srec. srec. srec. srec. srec. sopt set_Light_has_static_bulb_mesh Light_has_static_bulb_mesh. srec. srec. srec. srec. sopt_enum set_Light_shadows Light_shadows ShadowMode_roundtrip. sopt_enum set_Light_fader Light_fader Fader_roundtrip. sopt set_Light_visible Light_visible. srec. sopt set_Light_editor_layer Light_editor_layer. sopt set_Light_editor_layer_name Light_editor_layer_name. sopt set_Light_part_group_name Light_part_group_name. sopt set_Light_editor_layer_visibility Light_editor_layer_visibility. spoints set_Light_drag_points Light_drag_points.
    constructor.
  - destruct v as [? ? ? ? ? ? ? ? ? ? ? ? ? ? ? ? ? ? ? ? ? ? ? ? ? ? ? ? ? ? ? ? ? ? ? ? ?]. vm_compute. repeat match goal with t : TimerData |- _ => destruct t end. reflexivity.
Qed.
Lemma Light_wapp v : Light_ok v = true -> wapp (Light_write v) (enc (Light_recs v ++ [endb])).
Proof.
  intros H. unfold Light_ok in H. split_ok H. unfold Light_write, Light_recs. recs_norm.
  wrec. woptrec. wrec. wrec. wrec. woptrec. wrec. wrec. wtimer. wrec. wrec. wrec. wrec. wrec. wrec. wrec. wrec. wrec. wrec. wrec. wrec. wrec. wrec. woptrec. wrec. wrec. wrec. wrec. woptrec. woptrec. woptrec. wshared Light_shared. wpoints. apply wapp_close.
Qed.
Lemma Light_roundtrip v : Light_ok v = true ->
  exists b, run_writer (Light_write v) = Ok b /\ reads_as Light_read b v.
Proof. intros H. exact (item_roundtrip Light_write Light_arms Light_init Light_recs v (Light_wapp v H) ltac:(unfold Light_write; closes) (Light_steps v H)). Qed.
Lemma Light_term : Term Light_read.
Proof.
  apply Term_read_arms. unfold Light_arms, Light_own_arms, shared_arms. item_term.
Qed.
Lemma Light_yields : Yields Light_read (fun v => Light_ok v = true).
Proof.
  apply Yields_read_arms; [|reflexivity]. unfold Light_arms, Light_own_arms, shared_arms.
  item_yields Light_ok.
Qed.

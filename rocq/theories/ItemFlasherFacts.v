(** Generated by tools/gen_items.py: what [Flasher_write] produces and what [Flasher_read] makes of it. *)
From Verif Require Import Base Text Biff Quantize Common Enums ItemBase ItemFlasher.
From Verif Require Import BaseFacts TextFacts BiffFacts CommonFacts TermFacts QuantizeFacts EnumsFacts ItemBaseFacts.

(** The records that are written, in order. *)
Definition Flasher_recs (v : Flasher) : list rec :=
  R "FHEI" (w32_bytes (Flasher_height v)) ::
  R "FLAX" (w32_bytes (Flasher_pos_x v)) ::
  R "FLAY" (w32_bytes (Flasher_pos_y v)) ::
  R "FROX" (w32_bytes (Flasher_rot_x v)) ::
  R "FROY" (w32_bytes (Flasher_rot_y v)) ::
  R "FROZ" (w32_bytes (Flasher_rot_z v)) ::
  R "COLR" (color_bytes (Flasher_color v)) ::
  R "TMON" (bool_bytes (td_is_enabled (Flasher_timer v))) ::
  R "TMIN" (w32_bytes (td_interval (Flasher_timer v))) ::
  R "NAME" (wstring_bytes (Flasher_name v)) ::
  R "IMAG" (string_bytes (Flasher_image_a v)) ::
  R "IMAB" (string_bytes (Flasher_image_b v)) ::
  R "FALP" (w32_bytes (Flasher_alpha v)) ::
  R "MOVA" (w32_bytes (Flasher_modulate_vs_add v)) ::
  R "FVIS" (bool_bytes (Flasher_is_visible v)) ::
  R "DSPT" (bool_bytes (Flasher_display_texture v)) ::
  R "ADDB" (bool_bytes (Flasher_add_blend v)) ::
  orec (Flasher_is_dmd v) (fun x => R "IDMD" (bool_bytes x)) ++
  orec (Flasher_render_mode v) (fun x => R "RDMD" (w32_bytes (RenderMode_to_u32 x))) ++
  orec (Flasher_render_style v) (fun x => R "RSTL" (w32_bytes x)) ++
  orec (Flasher_glass_roughness v) (fun x => R "GRGH" (w32_bytes x)) ++
  orec (Flasher_glass_ambient v) (fun x => R "GAMB" (w32_bytes x)) ++
  orec (Flasher_glass_pad_top v) (fun x => R "GTOP" (w32_bytes x)) ++
  orec (Flasher_glass_pad_bottom v) (fun x => R "GBOT" (w32_bytes x)) ++
  orec (Flasher_glass_pad_left v) (fun x => R "GLFT" (w32_bytes x)) ++
  orec (Flasher_glass_pad_right v) (fun x => R "GRHT" (w32_bytes x)) ++
  orec (Flasher_image_src_link v) (fun x => R "LINK" (string_bytes x)) ++
  R "FLDB" (w32_bytes (Flasher_depth_bias v)) ::
  R "ALGN" (w32_bytes (RampImageAlignment_to_u32 (Flasher_image_alignment v))) ::
  R "FILT" (w32_bytes (Filter_to_u32 (Flasher_filter v))) ::
  R "FIAM" (w32_bytes (Flasher_filter_amount v)) ::
  orec (Flasher_light_map v) (fun x => R "LMAP" (string_bytes x)) ++
  orec (Flasher_backglass v) (fun x => R "BGLS" (bool_bytes x)) ++
  R "LOCK" (bool_bytes (Flasher_is_locked v)) ::
  orec (Flasher_editor_layer v) (fun x => R "LAYR" (w32_bytes x)) ++
  orec (Flasher_editor_layer_name v) (fun x => R "LANR" (string_bytes x)) ++
  orec (Flasher_part_group_name v) (fun x => R "GRUP" (string_bytes x)) ++
  orec (Flasher_editor_layer_visibility v) (fun x => R "LVIS" (bool_bytes x)) ++
  map (fun x => R0 "DPNT" (DragPoint_bytes x)) (Flasher_drag_points v) ++
  [].
(** The values that can be stored: see the components. *)
Definition Flasher_ok (v : Flasher) : bool :=
  wstr_ok (Flasher_name v) && str_ok (Flasher_image_a v) && str_ok (Flasher_image_b v) && opt_ok str_ok (Flasher_image_src_link v) && opt_ok str_ok (Flasher_light_map v) && opt_ok str_ok (Flasher_editor_layer_name v) && opt_ok str_ok (Flasher_part_group_name v) && forallb DragPoint_ok (Flasher_drag_points v).
Lemma Flasher_steps v : Flasher_ok v = true -> Steps (dispatch Flasher_arms) Flasher_init (Flasher_recs v) v.
Proof.
  intros H. unfold Flasher_ok in H. split_ok H. eapply Steps_eq.
  - unfold Flasher_recs.
    srec. srec. srec. srec. srec. srec. srec. stimer Flasher_timer set_Flasher_timer. stimer Flasher_timer set_Flasher_timer. srec. srec. srec. srec. srec. srec. srec. srec. sopt set_Flasher_is_dmd Flasher_is_dmd. sopt_enum set_Flasher_render_mode Flasher_render_mode RenderMode_roundtrip. sopt set_Flasher_render_style Flasher_render_style. sopt set_Flasher_glass_roughness Flasher_glass_roughness. sopt set_Flasher_glass_ambient Flasher_glass_ambient. sopt set_Flasher_glass_pad_top Flasher_glass_pad_top. sopt set_Flasher_glass_pad_bottom Flasher_glass_pad_bottom. sopt set_Flasher_glass_pad_left Flasher_glass_pad_left. sopt set_Flasher_glass_pad_right Flasher_glass_pad_right. sopt set_Flasher_image_src_link Flasher_image_src_link. srec. srec_enum RampImageAlignment_roundtrip. srec_enum Filter_roundtrip. srec. sopt set_Flasher_light_map Flasher_light_map. sopt set_Flasher_backglass Flasher_backglass. srec. sopt set_Flasher_editor_layer Flasher_editor_layer. sopt set_Flasher_editor_layer_name Flasher_editor_layer_name. sopt set_Flasher_part_group_name Flasher_part_group_name. sopt set_Flasher_editor_layer_visibility Flasher_editor_layer_visibility. spoints set_Flasher_drag_points Flasher_drag_points.
    constructor.
  - destruct v as [? ? ? ? ? ? ? ? ? ? ? ? ? ? ? ? ? ? ? ? ? ? ? ? ? ? ? ? ? ? ? ? ? ? ? ? ? ?]. vm_compute. repeat match goal with t : TimerData |- _ => destruct t end. reflexivity.
Qed.
Lemma Flasher_wapp v : Flasher_ok v = true -> wapp (Flasher_write v) (enc (Flasher_recs v ++ [endb])).
Proof.
  intros H. unfold Flasher_ok in H. split_ok H. unfold Flasher_write, Flasher_recs. recs_norm.
  wrec. wrec. wrec. wrec. wrec. wrec. wrec. wtimer. wrec. wrec. wrec. wrec. wrec. wrec. wrec. wrec. woptrec. woptrec. woptrec. woptrec. woptrec. woptrec. woptrec. woptrec. woptrec. woptrec. wrec. wrec. wrec. wrec. woptrec. woptrec. wshared Flasher_shared. wpoints. apply wapp_close.
Qed.
Lemma Flasher_roundtrip v : Flasher_ok v = true ->
  exists b, run_writer (Flasher_write v) = Ok b /\ reads_as Flasher_read b v.
Proof. intros H. exact (item_roundtrip Flasher_write Flasher_arms Flasher_init Flasher_recs v (Flasher_wapp v H) ltac:(unfold Flasher_write; closes) (Flasher_steps v H)). Qed.
Lemma Flasher_term : Term Flasher_read.
Proof.
  apply Term_read_arms. unfold Flasher_arms, Flasher_own_arms, shared_arms. item_term.
Qed.
Lemma Flasher_yields : Yields Flasher_read (fun v => Flasher_ok v = true).
Proof.
  apply Yields_read_arms; [|reflexivity]. unfold Flasher_arms, Flasher_own_arms, shared_arms.
  item_yields Flasher_ok.
Qed.

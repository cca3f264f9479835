(** Generated by tools/gen_items.py: what [Wall_write] produces and what [Wall_read] makes of it. *)
From Verif Require Import Base Text Biff Quantize Common Enums ItemBase ItemWall.
From Verif Require Import BaseFacts TextFacts BiffFacts CommonFacts TermFacts QuantizeFacts EnumsFacts ItemBaseFacts.

(** The records that are written, in order. *)
Definition Wall_recs (v : Wall) : list rec :=
  R "HTEV" (bool_bytes (Wall_hit_event v)) ::
  R "DROP" (bool_bytes (Wall_is_droppable v)) ::
  R "FLIP" (bool_bytes (Wall_is_flipbook v)) ::
  R "ISBS" (bool_bytes (Wall_is_bottom_solid v)) ::
  R "CLDW" (bool_bytes (Wall_is_collidable v)) ::
  R "TMON" (bool_bytes (td_is_enabled (Wall_timer v))) ::
  R "TMIN" (w32_bytes (td_interval (Wall_timer v))) ::
  R "THRS" (w32_bytes (Wall_threshold v)) ::
  R "IMAG" (string_bytes (Wall_image v)) ::
  R "SIMG" (string_bytes (Wall_side_image v)) ::
  R "SIMA" (string_bytes (Wall_side_material v)) ::
  R "TOMA" (string_bytes (Wall_top_material v)) ::
  R "SLMA" (string_bytes (Wall_slingshot_material v)) ::
  R "HTBT" (w32_bytes (Wall_height_bottom v)) ::
  R "HTTP" (w32_bytes (Wall_height_top v)) ::
  R "NAME" (wstring_bytes (Wall_name v)) ::
  R "DSPT" (bool_bytes (Wall_display_texture v)) ::
  R "SLGF" (w32_bytes (Wall_slingshot_force v)) ::
  R "SLTH" (w32_bytes (Wall_slingshot_threshold v)) ::
  R "ELAS" (w32_bytes (Wall_elasticity v)) ::
  orec (Wall_elasticity_falloff v) (fun x => R "ELFO" (w32_bytes x)) ++
  R "WFCT" (w32_bytes (Wall_friction v)) ::
  R "WSCT" (w32_bytes (Wall_scatter v)) ::
  R "VSBL" (bool_bytes (Wall_is_top_bottom_visible v)) ::
  R "SLGA" (bool_bytes (Wall_slingshot_animation v)) ::
  R "SVBL" (bool_bytes (Wall_is_side_visible v)) ::
  orec (Wall_disable_lighting_top_old v) (fun x => R "DILI" (dili_bytes x)) ++
  orec (Wall_disable_lighting_top v) (fun x => R "DILT" (w32_bytes x)) ++
  orec (Wall_disable_lighting_below v) (fun x => R "DILB" (w32_bytes x)) ++
  orec (Wall_is_reflection_enabled v) (fun x => R "REEN" (bool_bytes x)) ++
  orec (Wall_physics_material v) (fun x => R "MAPH" (string_bytes x)) ++
  orec (Wall_overwrite_physics v) (fun x => R "OVPH" (bool_bytes x)) ++
  R "LOCK" (bool_bytes (Wall_is_locked v)) ::
  orec (Wall_editor_layer v) (fun x => R "LAYR" (w32_bytes x)) ++
  orec (Wall_editor_layer_name v) (fun x => R "LANR" (string_bytes x)) ++
  orec (Wall_part_group_name v) (fun x => R "GRUP" (string_bytes x)) ++
  orec (Wall_editor_layer_visibility v) (fun x => R "LVIS" (bool_bytes x)) ++
  R "PNTS" [] ::
  map (fun x => R0 "DPNT" (DragPoint_bytes x)) (Wall_drag_points v) ++
  [].
(** The values that can be stored: see the components. *)
Definition Wall_ok (v : Wall) : bool :=
  str_ok (Wall_image v) && str_ok (Wall_side_image v) && str_ok (Wall_side_material v) && str_ok (Wall_top_material v) && str_ok (Wall_slingshot_material v) && wstr_ok (Wall_name v) && opt_ok dili_ok (Wall_disable_lighting_top_old v) && opt_ok str_ok (Wall_physics_material v) && opt_ok str_ok (Wall_editor_layer_name v) && opt_ok str_ok (Wall_part_group_name v) && forallb DragPoint_ok (Wall_drag_points v).
Lemma Wall_steps v : Wall_ok v = true -> Steps (dispatch Wall_arms) Wall_init (Wall_recs v) v.
Proof.
  intros H. unfold Wall_ok in H. split_ok H. eapply Steps_eq.
  - unfold Wall_recs.
    srec. srec. srec. srec. srec. stimer Wall_timer set_Wall_timer. stimer Wall_timer set_Wall_timer. srec. srec. srec. srec. srec. srec. srec. srec. srec. srec. srec. srec. srec. sopt set_Wall_elasticity_falloff Wall_elasticity_falloff. srec. srec. srec. srec. srec. sopt set_Wall_disable_lighting_top_old Wall_disable_lighting_top_old. sopt set_Wall_disable_lighting_top Wall_disable_lighting_top. sopt set_Wall_disable_lighting_below Wall_disable_lighting_below. sopt set_Wall_is_reflection_enabled Wall_is_reflection_enabled. sopt set_Wall_physics_material Wall_physics_material. sopt set_Wall_overwrite_physics Wall_overwrite_physics. srec. sopt set_Wall_editor_layer Wall_editor_layer. sopt set_Wall_editor_layer_name Wall_editor_layer_name. sopt set_Wall_part_group_name Wall_part_group_name. sopt set_Wall_editor_layer_visibility Wall_editor_layer_visibility. srec. spoints set_Wall_drag_points Wall_drag_points.
    constructor.
  - destruct v as [? ? ? ? ? ? ? ? ? ? ? ? ? ? ? ? ? ? ? ? ? ? ? ? ? ? ? ? ? ? ? ? ? ? ? ? ?]. vm_compute. repeat match goal with t : TimerData |- _ => destruct t end. reflexivity.
Qed.
Lemma Wall_wapp v : Wall_ok v = true -> wapp (Wall_write v) (enc (Wall_recs v ++ [endb])).
Proof.
  intros H. unfold Wall_ok in H. split_ok H. unfold Wall_write, Wall_recs. recs_norm.
  wrec. wrec. wrec. wrec. wrec. wtimer. wrec. wrec. wrec. wrec. wrec. wrec. wrec. wrec. wrec. wrec. wrec. wrec. wrec. woptrec. wrec. wrec. wrec. wrec. wrec. woptrec. woptrec. woptrec. woptrec. woptrec. woptrec. wshared Wall_shared. wrec. wpoints. apply wapp_close.
Qed.
Lemma Wall_roundtrip v : Wall_ok v = true ->
  exists b, run_writer (Wall_write v) = Ok b /\ reads_as Wall_read b v.
Proof. intros H. exact (item_roundtrip Wall_write Wall_arms Wall_init Wall_recs v (Wall_wapp v H) ltac:(unfold Wall_write; closes) (Wall_steps v H)). Qed.
Lemma Wall_term : Term Wall_read.
Proof.
  apply Term_read_arms. unfold Wall_arms, Wall_own_arms, shared_arms. item_term.
Qed.
Lemma Wall_yields : Yields Wall_read (fun v => Wall_ok v = true).
Proof.
  apply Yields_read_arms; [|reflexivity]. unfold Wall_arms, Wall_own_arms, shared_arms.
  item_yields Wall_ok.
Qed.

(** Generated by tools/gen_items.py: what [Ramp_write] produces and what [Ramp_read] makes of it. *)
From Verif Require Import Base Text Biff Quantize Common Enums ItemBase ItemRamp.
From Verif Require Import BaseFacts TextFacts BiffFacts CommonFacts TermFacts QuantizeFacts EnumsFacts ItemBaseFacts.

(** The records that are written, in order. *)
Definition Ramp_recs (v : Ramp) : list rec :=
  R "HTBT" (w32_bytes (Ramp_height_bottom v)) ::
  R "HTTP" (w32_bytes (Ramp_height_top v)) ::
  R "WDBT" (w32_bytes (Ramp_width_bottom v)) ::
  R "WDTP" (w32_bytes (Ramp_width_top v)) ::
  R "MATR" (string_bytes (Ramp_material v)) ::
  R "TMON" (bool_bytes (td_is_enabled (Ramp_timer v))) ::
  R "TMIN" (w32_bytes (td_interval (Ramp_timer v))) ::
  R "TYPE" (w32_bytes (RampType_to_u32 (Ramp_ramp_type v))) ::
  R "NAME" (wstring_bytes (Ramp_name v)) ::
  R "IMAG" (string_bytes (Ramp_image v)) ::
  R "ALGN" (w32_bytes (RampImageAlignment_to_u32 (Ramp_image_alignment v))) ::
  R "IMGW" (bool_bytes (Ramp_image_walls v)) ::
  R "WLHL" (w32_bytes (Ramp_left_wall_height v)) ::
  R "WLHR" (w32_bytes (Ramp_right_wall_height v)) ::
  R "WVHL" (w32_bytes (Ramp_left_wall_height_visible v)) ::
  R "WVHR" (w32_bytes (Ramp_right_wall_height_visible v)) ::
  orec (Ramp_hit_event v) (fun x => R "HTEV" (bool_bytes x)) ++
  orec (Ramp_threshold v) (fun x => R "THRS" (w32_bytes x)) ++
  R "ELAS" (w32_bytes (Ramp_elasticity v)) ::
  R "RFCT" (w32_bytes (Ramp_friction v)) ::
  R "RSCT" (w32_bytes (Ramp_scatter v)) ::
  R "CLDR" (bool_bytes (Ramp_is_collidable v)) ::
  R "RVIS" (bool_bytes (Ramp_is_visible v)) ::
  R "RADB" (w32_bytes (Ramp_depth_bias v)) ::
  R "RADI" (w32_bytes (Ramp_wire_diameter v)) ::
  R "RADX" (w32_bytes (Ramp_wire_distance_x v)) ::
  R "RADY" (w32_bytes (Ramp_wire_distance_y v)) ::
  orec (Ramp_is_reflection_enabled v) (fun x => R "REEN" (bool_bytes x)) ++
  orec (Ramp_physics_material v) (fun x => R "MAPH" (string_bytes x)) ++
  orec (Ramp_overwrite_physics v) (fun x => R "OVPH" (bool_bytes x)) ++
  R "LOCK" (bool_bytes (Ramp_is_locked v)) ::
  orec (Ramp_editor_layer v) (fun x => R "LAYR" (w32_bytes x)) ++
  orec (Ramp_editor_layer_name v) (fun x => R "LANR" (string_bytes x)) ++
  orec (Ramp_part_group_name v) (fun x => R "GRUP" (string_bytes x)) ++
  orec (Ramp_editor_layer_visibility v) (fun x => R "LVIS" (bool_bytes x)) ++
  R "PNTS" [] ::
  map (fun x => R0 "DPNT" (DragPoint_bytes x)) (Ramp_drag_points v) ++
  [].
(** The values that can be stored: see the components. *)
Definition Ramp_ok (v : Ramp) : bool :=
  str_ok (Ramp_material v) && wstr_ok (Ramp_name v) && str_ok (Ramp_image v) && opt_ok str_ok (Ramp_physics_material v) && opt_ok str_ok (Ramp_editor_layer_name v) && opt_ok str_ok (Ramp_part_group_name v) && forallb DragPoint_ok (Ramp_drag_points v).
Lemma Ramp_steps v : Ramp_ok v = true -> Steps (dispatch Ramp_arms) Ramp_init (Ramp_recs v) v.
Proof.
  intros H. unfold Ramp_ok in H. split_ok H. eapply Steps_eq.
  - unfold Ramp_recs.
    srec. srec. srec. srec. srec. stimer Ramp_timer set_Ramp_timer. stimer Ramp_timer set_Ramp_timer. srec_enum RampType_roundtrip. srec. srec. srec_enum RampImageAlignment_roundtrip. srec. srec. srec. srec. srec. sopt set_Ramp_hit_event Ramp_hit_event. sopt set_Ramp_threshold Ramp_threshold. srec. srec. srec. srec. srec. srec. srec. srec. srec. sopt set_Ramp_is_reflection_enabled Ramp_is_reflection_enabled. sopt set_Ramp_physics_material Ramp_physics_material. sopt set_Ramp_overwrite_physics Ramp_overwrite_physics. srec. sopt set_Ramp_editor_layer Ramp_editor_layer. sopt set_Ramp_editor_layer_name Ramp_editor_layer_name. sopt set_Ramp_part_group_name Ramp_part_group_name. sopt set_Ramp_editor_layer_visibility Ramp_editor_layer_visibility. srec. spoints set_Ramp_drag_points Ramp_drag_points.
    constructor.
  - destruct v as [? ? ? ? ? ? ? ? ? ? ? ? ? ? ? ? ? ? ? ? ? ? ? ? ? ? ? ? ? ? ? ? ? ? ?]. vm_compute. repeat match goal with t : TimerData |- _ => destruct t end. reflexivity.
Qed.
Lemma Ramp_wapp v : Ramp_ok v = true -> wapp (Ramp_write v) (enc (Ramp_recs v ++ [endb])).
Proof.
  intros H. unfold Ramp_ok in H. split_ok H. unfold Ramp_write, Ramp_recs. recs_norm.
  wrec. wrec. wrec. wrec. wrec. wtimer. wrec. wrec. wrec. wrec. wrec. wrec. wrec. wrec. wrec. woptrec. woptrec. wrec. wrec. wrec. wrec. wrec. wrec. wrec. wrec. wrec. woptrec. woptrec. woptrec. wshared Ramp_shared. wrec. wpoints. apply wapp_close.
Qed.
Lemma Ramp_roundtrip v : Ramp_ok v = true ->
  exists b, run_writer (Ramp_write v) = Ok b /\ reads_as Ramp_read b v.
Proof. intros H. exact (item_roundtrip Ramp_write Ramp_arms Ramp_init Ramp_recs v (Ramp_wapp v H) ltac:(unfold Ramp_write; closes) (Ramp_steps v H)). Qed.
Lemma Ramp_term : Term Ramp_read.
Proof.
  apply Term_read_arms. unfold Ramp_arms, Ramp_own_arms, shared_arms. item_term.
Qed.
Lemma Ramp_yields : Yields Ramp_read (fun v => Ramp_ok v = true).
Proof.
  apply Yields_read_arms; [|reflexivity]. unfold Ramp_arms, Ramp_own_arms, shared_arms.
  item_yields Ramp_ok.
Qed.

(** Generated by tools/gen_items.py: what [HitTarget_write] produces and what [HitTarget_read] makes of it. *)
From Verif Require Import Base Text Biff Quantize Common Enums ItemBase ItemHitTarget.
From Verif Require Import BaseFacts TextFacts BiffFacts CommonFacts TermFacts QuantizeFacts EnumsFacts ItemBaseFacts.

(** The records that are written, in order. *)
Definition HitTarget_recs (v : HitTarget) : list rec :=
  R "VPOS" (v3_bytes (HitTarget_position v)) ::
  R "VSIZ" (v3_bytes (HitTarget_size v)) ::
  R "ROTZ" (w32_bytes (HitTarget_rot_z v)) ::
  R "IMAG" (string_bytes (HitTarget_image v)) ::
  R "TRTY" (w32_bytes (TargetType_to_u32 (HitTarget_target_type v))) ::
  R "NAME" (wstring_bytes (HitTarget_name v)) ::
  R "MATR" (string_bytes (HitTarget_material v)) ::
  R "TVIS" (bool_bytes (HitTarget_is_visible v)) ::
  R "LEMO" (bool_bytes (HitTarget_is_legacy v)) ::
  R "HTEV" (bool_bytes (HitTarget_use_hit_event v)) ::
  R "THRS" (w32_bytes (HitTarget_threshold v)) ::
  R "ELAS" (w32_bytes (HitTarget_elasticity v)) ::
  R "ELFO" (w32_bytes (HitTarget_elasticity_falloff v)) ::
  R "RFCT" (w32_bytes (HitTarget_friction v)) ::
  R "RSCT" (w32_bytes (HitTarget_scatter v)) ::
  R "CLDR" (bool_bytes (HitTarget_is_collidable v)) ::
  orec (HitTarget_disable_lighting_top_old v) (fun x => R "DILI" (dili_bytes x)) ++
  orec (HitTarget_disable_lighting_top v) (fun x => R "DILT" (w32_bytes x)) ++
  orec (HitTarget_disable_lighting_below v) (fun x => R "DILB" (w32_bytes x)) ++
  R "REEN" (bool_bytes (HitTarget_is_reflection_enabled v)) ::
  R "PIDB" (w32_bytes (HitTarget_depth_bias v)) ::
  R "ISDR" (bool_bytes (HitTarget_is_dropped v)) ::
  R "DRSP" (w32_bytes (HitTarget_drop_speed v)) ::
  R "TMON" (bool_bytes (td_is_enabled (HitTarget_timer v))) ::
  R "TMIN" (w32_bytes (td_interval (HitTarget_timer v))) ::
  orec (HitTarget_raise_delay v) (fun x => R "RADE" (w32_bytes x)) ++
  orec (HitTarget_physics_material v) (fun x => R "MAPH" (string_bytes x)) ++
  orec (HitTarget_overwrite_physics v) (fun x => R "OVPH" (bool_bytes x)) ++
  R "LOCK" (bool_bytes (HitTarget_is_locked v)) ::
  orec (HitTarget_editor_layer v) (fun x => R "LAYR" (w32_bytes x)) ++
  orec (HitTarget_editor_layer_name v) (fun x => R "LANR" (string_bytes x)) ++
  orec (HitTarget_part_group_name v) (fun x => R "GRUP" (string_bytes x)) ++
  orec (HitTarget_editor_layer_visibility v) (fun x => R "LVIS" (bool_bytes x)) ++
  [].
(** The values that can be stored: see the components. *)
Definition HitTarget_ok (v : HitTarget) : bool :=
  str_ok (HitTarget_image v) && wstr_ok (HitTarget_name v) && str_ok (HitTarget_material v) && opt_ok dili_ok (HitTarget_disable_lighting_top_old v) && opt_ok str_ok (HitTarget_physics_material v) && opt_ok str_ok (HitTarget_editor_layer_name v) && opt_ok str_ok (HitTarget_part_group_name v).
Lemma HitTarget_steps v : HitTarget_ok v = true -> Steps (dispatch HitTarget_arms) HitTarget_init (HitTarget_recs v) v.
Proof.
  intros H. unfold HitTarget_ok in H. split_ok H. eapply Steps_eq.
  - unfold HitTarget_recs.
    srec. srec. srec. srec. srec_enum TargetType_roundtrip. srec. srec. srec. srec. srec. srec. srec. srec. srec. srec. srec. sopt set_HitTarget_disable_lighting_top_old HitTarget_disable_lighting_top_old. sopt set_HitTarget_disable_lighting_top HitTarget_disable_lighting_top. sopt set_HitTarget_disable_lighting_below HitTarget_disable_lighting_below. srec. srec. srec. srec. stimer HitTarget_timer set_HitTarget_timer. stimer HitTarget_timer set_HitTarget_timer. sopt set_HitTarget_raise_delay HitTarget_raise_delay. sopt set_HitTarget_physics_material HitTarget_physics_material. sopt set_HitTarget_overwrite_physics HitTarget_overwrite_physics. srec. sopt set_HitTarget_editor_layer HitTarget_editor_layer. sopt set_HitTarget_editor_layer_name HitTarget_editor_layer_name. sopt set_HitTarget_part_group_name HitTarget_part_group_name. sopt set_HitTarget_editor_layer_visibility HitTarget_editor_layer_visibility.
    constructor.
  - destruct v as [? ? ? ? ? ? ? ? ? ? ? ? ? ? ? ? ? ? ? ? ? ? ? ? ? ? ? ? ? ? ? ?]. vm_compute. repeat match goal with t : TimerData |- _ => destruct t end. reflexivity.
Qed.
Lemma HitTarget_wapp v : HitTarget_ok v = true -> wapp (HitTarget_write v) (enc (HitTarget_recs v ++ [endb])).
Proof.
  intros H. unfold HitTarget_ok in H. split_ok H. unfold HitTarget_write, HitTarget_recs. recs_norm.
  wrec. wrec. wrec. wrec. wrec. wrec. wrec. wrec. wrec. wrec. wrec. wrec. wrec. wrec. wrec. wrec. woptrec. woptrec. woptrec. wrec. wrec. wrec. wrec. wtimer. woptrec. woptrec. woptrec. wshared HitTarget_shared. apply wapp_close.
Qed.
Lemma HitTarget_roundtrip v : HitTarget_ok v = true ->
  exists b, run_writer (HitTarget_write v) = Ok b /\ reads_as HitTarget_read b v.
Proof. intros H. exact (item_roundtrip HitTarget_write HitTarget_arms HitTarget_init HitTarget_recs v (HitTarget_wapp v H) ltac:(unfold HitTarget_write; closes) (HitTarget_steps v H)). Qed.
Lemma HitTarget_term : Term HitTarget_read.
Proof.
  apply Term_read_arms. unfold HitTarget_arms, HitTarget_own_arms, shared_arms. item_term.
Qed.
Lemma HitTarget_yields : Yields HitTarget_read (fun v => HitTarget_ok v = true).
Proof.
  apply Yields_read_arms; [|reflexivity]. unfold HitTarget_arms, HitTarget_own_arms, shared_arms.
  item_yields HitTarget_ok.
Qed.

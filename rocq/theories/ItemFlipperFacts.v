(** Generated by tools/gen_items.py: what [Flipper_write] produces and what [Flipper_read] makes of it. *)
From Verif Require Import Base Text Biff Quantize Common Enums ItemBase ItemFlipper.
From Verif Require Import BaseFacts TextFacts BiffFacts CommonFacts TermFacts QuantizeFacts EnumsFacts ItemBaseFacts.

(** The records that are written, in order. *)
Definition Flipper_recs (v : Flipper) : list rec :=
  R "VCEN" (v2_bytes (Flipper_center v)) ::
  R "BASR" (w32_bytes (Flipper_base_radius v)) ::
  R "ENDR" (w32_bytes (Flipper_end_radius v)) ::
  R "FLPR" (w32_bytes (Flipper_flipper_radius_max v)) ::
  R "FRTN" (w32_bytes (Flipper_return_ v)) ::
  R "ANGS" (w32_bytes (Flipper_start_angle v)) ::
  R "ANGE" (w32_bytes (Flipper_end_angle v)) ::
  R "OVRP" (w32_bytes (Flipper_override_physics v)) ::
  R "FORC" (w32_bytes (Flipper_mass v)) ::
  R "TMON" (bool_bytes (td_is_enabled (Flipper_timer v))) ::
  R "TMIN" (w32_bytes (td_interval (Flipper_timer v))) ::
  R "SURF" (string_bytes (Flipper_surface v)) ::
  R "MATR" (string_bytes (Flipper_material v)) ::
  R "NAME" (wstring_bytes (Flipper_name v)) ::
  R "RUMA" (string_bytes (Flipper_rubber_material v)) ::
  R "RTHK" (w32_bytes (Flipper_rubber_thickness_int v)) ::
  orec (Flipper_rubber_thickness v) (fun x => R "RTHF" (w32_bytes x)) ++
  R "RHGT" (w32_bytes (Flipper_rubber_height_int v)) ::
  orec (Flipper_rubber_height v) (fun x => R "RHGF" (w32_bytes x)) ++
  R "RWDT" (w32_bytes (Flipper_rubber_width_int v)) ::
  orec (Flipper_rubber_width v) (fun x => R "RWDF" (w32_bytes x)) ++
  R "STRG" (w32_bytes (Flipper_strength v)) ::
  R "ELAS" (w32_bytes (Flipper_elasticity v)) ::
  R "ELFO" (w32_bytes (Flipper_elasticity_falloff v)) ::
  R "FRIC" (w32_bytes (Flipper_friction v)) ::
  R "RPUP" (w32_bytes (Flipper_ramp_up v)) ::
  orec (Flipper_scatter v) (fun x => R "SCTR" (w32_bytes x)) ++
  orec (Flipper_torque_damping v) (fun x => R "TODA" (w32_bytes x)) ++
  orec (Flipper_torque_damping_angle v) (fun x => R "TDAA" (w32_bytes x)) ++
  R "VSBL" (bool_bytes (Flipper_is_visible v)) ::
  R "ENBL" (bool_bytes (Flipper_is_enabled v)) ::
  R "FRMN" (w32_bytes (Flipper_flipper_radius_min v)) ::
  R "FHGT" (w32_bytes (Flipper_height v)) ::
  orec (Flipper_image v) (fun x => R "IMAG" (string_bytes x)) ++
  orec (Flipper_is_reflection_enabled v) (fun x => R "REEN" (bool_bytes x)) ++
  R "LOCK" (bool_bytes (Flipper_is_locked v)) ::
  orec (Flipper_editor_layer v) (fun x => R "LAYR" (w32_bytes x)) ++
  orec (Flipper_editor_layer_name v) (fun x => R "LANR" (string_bytes x)) ++
  orec (Flipper_part_group_name v) (fun x => R "GRUP" (string_bytes x)) ++
  orec (Flipper_editor_layer_visibility v) (fun x => R "LVIS" (bool_bytes x)) ++
  [].
(** The values that can be stored: see the components. *)
Definition Flipper_ok (v : Flipper) : bool :=
  str_ok (Flipper_surface v) && str_ok (Flipper_material v) && wstr_ok (Flipper_name v) && str_ok (Flipper_rubber_material v) && opt_ok str_ok (Flipper_image v) && opt_ok str_ok (Flipper_editor_layer_name v) && opt_ok str_ok (Flipper_part_group_name v).
Lemma Flipper_steps v : Flipper_ok v = true -> Steps (dispatch Flipper_arms) Flipper_init (Flipper_recs v) v.
Proof.
  intros H. unfold Flipper_ok in H. split_ok H. eapply Steps_eq.
  - unfold Flipper_recs.
    srec. srec. srec. srec. srec. srec. srec. srec. srec. stimer Flipper_timer set_Flipper_timer. stimer Flipper_timer set_Flipper_timer. srec. srec. srec. srec. srec. sopt set_Flipper_rubber_thickness Flipper_rubber_thickness. srec. sopt set_Flipper_rubber_height Flipper_rubber_height. srec. sopt set_Flipper_rubber_width Flipper_rubber_width. srec. srec. srec. srec. srec. sopt set_Flipper_scatter Flipper_scatter. sopt set_Flipper_torque_damping Flipper_torque_damping. sopt set_Flipper_torque_damping_angle Flipper_torque_damping_angle. srec. srec. srec. srec. sopt set_Flipper_image Flipper_image. sopt set_Flipper_is_reflection_enabled Flipper_is_reflection_enabled. srec. sopt set_Flipper_editor_layer Flipper_editor_layer. sopt set_Flipper_editor_layer_name Flipper_editor_layer_name. sopt set_Flipper_part_group_name Flipper_part_group_name. sopt set_Flipper_editor_layer_visibility Flipper_editor_layer_visibility.
    constructor.
  - destruct v as [? ? ? ? ? ? ? ? ? ? ? ? ? ? ? ? ? ? ? ? ? ? ? ? ? ? ? ? ? ? ? ? ? ? ? ? ? ? ?]. vm_compute. repeat match goal with t : TimerData |- _ => destruct t end. reflexivity.
Qed.
Lemma Flipper_wapp v : Flipper_ok v = true -> wapp (Flipper_write v) (enc (Flipper_recs v ++ [endb])).
Proof.
  intros H. unfold Flipper_ok in H. split_ok H. unfold Flipper_write, Flipper_recs. recs_norm.
  wrec. wrec. wrec. wrec. wrec. wrec. wrec. wrec. wrec. wtimer. wrec. wrec. wrec. wrec. wrec. woptrec. wrec. woptrec. wrec. woptrec. wrec. wrec. wrec. wrec. wrec. woptrec. woptrec. woptrec. wrec. wrec. wrec. wrec. woptrec. woptrec. wshared Flipper_shared. apply wapp_close.
Qed.
Lemma Flipper_roundtrip v : Flipper_ok v = true ->
  exists b, run_writer (Flipper_write v) = Ok b /\ reads_as Flipper_read b v.
Proof. intros H. exact (item_roundtrip Flipper_write Flipper_arms Flipper_init Flipper_recs v (Flipper_wapp v H) ltac:(unfold Flipper_write; closes) (Flipper_steps v H)). Qed.
Lemma Flipper_term : Term Flipper_read.
Proof.
  apply Term_read_arms. unfold Flipper_arms, Flipper_own_arms, shared_arms. item_term.
Qed.
Lemma Flipper_yields : Yields Flipper_read (fun v => Flipper_ok v = true).
Proof.
  apply Yields_read_arms; [|reflexivity]. unfold Flipper_arms, Flipper_own_arms, shared_arms.
  item_yields Flipper_ok.
Qed.

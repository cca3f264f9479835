(** Generated by tools/gen_items.py: what [Plunger_write] produces and what [Plunger_read] makes of it. *)
From Verif Require Import Base Text Biff Quantize Common Enums ItemBase ItemPlunger.
From Verif Require Import BaseFacts TextFacts BiffFacts CommonFacts TermFacts QuantizeFacts EnumsFacts ItemBaseFacts.

(** The records that are written, in order. *)
Definition Plunger_recs (v : Plunger) : list rec :=
  R "VCEN" (v2_bytes (Plunger_center v)) ::
  R "WDTH" (w32_bytes (Plunger_width v)) ::
  R "HIGH" (w32_bytes (Plunger_height v)) ::
  R "ZADJ" (w32_bytes (Plunger_z_adjust v)) ::
  R "HPSL" (w32_bytes (Plunger_stroke v)) ::
  R "SPDP" (w32_bytes (Plunger_speed_pull v)) ::
  R "SPDF" (w32_bytes (Plunger_speed_fire v)) ::
  R "TYPE" (w32_bytes (PlungerType_to_u32 (Plunger_plunger_type v))) ::
  R "ANFR" (w32_bytes (Plunger_anim_frames v)) ::
  R "MATR" (string_bytes (Plunger_material v)) ::
  R "IMAG" (string_bytes (Plunger_image v)) ::
  R "MEST" (w32_bytes (Plunger_mech_strength v)) ::
  R "MECH" (bool_bytes (Plunger_is_mech_plunger v)) ::
  R "APLG" (bool_bytes (Plunger_auto_plunger v)) ::
  R "MPRK" (w32_bytes (Plunger_park_position v)) ::
  R "PSCV" (w32_bytes (Plunger_scatter_velocity v)) ::
  R "MOMX" (w32_bytes (Plunger_momentum_xfer v)) ::
  R "TMON" (bool_bytes (td_is_enabled (Plunger_timer v))) ::
  R "TMIN" (w32_bytes (td_interval (Plunger_timer v))) ::
  R "VSBL" (bool_bytes (Plunger_is_visible v)) ::
  orec (Plunger_is_reflection_enabled v) (fun x => R "REEN" (bool_bytes x)) ++
  R "SURF" (string_bytes (Plunger_surface v)) ::
  R "NAME" (wstring_bytes (Plunger_name v)) ::
  R "TIPS" (string_bytes (Plunger_tip_shape v)) ::
  R "RODD" (w32_bytes (Plunger_rod_diam v)) ::
  R "RNGG" (w32_bytes (Plunger_ring_gap v)) ::
  R "RNGD" (w32_bytes (Plunger_ring_diam v)) ::
  R "RNGW" (w32_bytes (Plunger_ring_width v)) ::
  R "SPRD" (w32_bytes (Plunger_spring_diam v)) ::
  R "SPRG" (w32_bytes (Plunger_spring_gauge v)) ::
  R "SPRL" (w32_bytes (Plunger_spring_loops v)) ::
  R "SPRE" (w32_bytes (Plunger_spring_end_loops v)) ::
  R "LOCK" (bool_bytes (Plunger_is_locked v)) ::
  orec (Plunger_editor_layer v) (fun x => R "LAYR" (w32_bytes x)) ++
  orec (Plunger_editor_layer_name v) (fun x => R "LANR" (string_bytes x)) ++
  orec (Plunger_part_group_name v) (fun x => R "GRUP" (string_bytes x)) ++
  orec (Plunger_editor_layer_visibility v) (fun x => R "LVIS" (bool_bytes x)) ++
  [].
(** The values that can be stored: see the components. *)
Definition Plunger_ok (v : Plunger) : bool :=
  str_ok (Plunger_material v) && str_ok (Plunger_image v) && str_ok (Plunger_surface v) && wstr_ok (Plunger_name v) && str_ok (Plunger_tip_shape v) && opt_ok str_ok (Plunger_editor_layer_name v) && opt_ok str_ok (Plunger_part_group_name v).
Lemma Plunger_steps v : Plunger_ok v = true -> Steps (dispatch Plunger_arms) Plunger_init (Plunger_recs v) v.
Proof.
  intros H. unfold Plunger_ok in H. split_ok H. eapply Steps_eq.
  - unfold Plunger_recs.
    srec. srec. srec. srec. srec. srec. srec. srec_enum PlungerType_roundtrip. srec. srec. srec. srec. srec. srec. srec. srec. srec. stimer Plunger_timer set_Plunger_timer. stimer Plunger_timer set_Plunger_timer. srec. sopt set_Plunger_is_reflection_enabled Plunger_is_reflection_enabled. srec. srec. srec. srec. srec. srec. srec. srec. srec. srec. srec. srec. sopt set_Plunger_editor_layer Plunger_editor_layer. sopt set_Plunger_editor_layer_name Plunger_editor_layer_name. sopt set_Plunger_part_group_name Plunger_part_group_name. sopt set_Plunger_editor_layer_visibility Plunger_editor_layer_visibility.
    constructor.
  - destruct v as [? ? ? ? ? ? ? ? ? ? ? ? ? ? ? ? ? ? ? ? ? ? ? ? ? ? ? ? ? ? ? ? ? ? ? ?]. vm_compute. repeat match goal with t : TimerData |- _ => destruct t end. reflexivity.
Qed.
Lemma Plunger_wapp v : Plunger_ok v = true -> wapp (Plunger_write v) (enc (Plunger_recs v ++ [endb])).
Proof.
  intros H. unfold Plunger_ok in H. split_ok H. unfold Plunger_write, Plunger_recs. recs_norm.
  wrec. wrec. wrec. wrec. wrec. wrec. wrec. wrec. wrec. wrec. wrec. wrec. wrec. wrec. wrec. wrec. wrec. wtimer. wrec. woptrec. wrec. wrec. wrec. wrec. wrec. wrec. wrec. wrec. wrec. wrec. wrec. wshared Plunger_shared. apply wapp_close.
Qed.
Lemma Plunger_roundtrip v : Plunger_ok v = true ->
  exists b, run_writer (Plunger_write v) = Ok b /\ reads_as Plunger_read b v.
Proof. intros H. exact (item_roundtrip Plunger_write Plunger_arms Plunger_init Plunger_recs v (Plunger_wapp v H) ltac:(unfold Plunger_write; closes) (Plunger_steps v H)). Qed.
Lemma Plunger_term : Term Plunger_read.
Proof.
  apply Term_read_arms. unfold Plunger_arms, Plunger_own_arms, shared_arms. item_term.
Qed.
Lemma Plunger_yields : Yields Plunger_read (fun v => Plunger_ok v = true).
Proof.
  apply Yields_read_arms; [|reflexivity]. unfold Plunger_arms, Plunger_own_arms, shared_arms.
  item_yields Plunger_ok.
Qed.

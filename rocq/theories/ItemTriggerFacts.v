(** Generated by tools/gen_items.py: what [Trigger_write] produces and what [Trigger_read] makes of it. *)
From Verif Require Import Base Text Biff Quantize Common Enums ItemBase ItemTrigger.
From Verif Require Import BaseFacts TextFacts BiffFacts CommonFacts TermFacts QuantizeFacts EnumsFacts ItemBaseFacts.

(** The records that are written, in order. *)
Definition Trigger_recs (v : Trigger) : list rec :=
  R "VCEN" (v2_bytes (Trigger_center v)) ::
  R "RADI" (w32_bytes (Trigger_radius v)) ::
  R "ROTA" (w32_bytes (Trigger_rotation v)) ::
  orec (Trigger_wire_thickness v) (fun x => R "WITI" (w32_bytes x)) ++
  R "SCAX" (w32_bytes (Trigger_scale_x v)) ::
  R "SCAY" (w32_bytes (Trigger_scale_y v)) ::
  R "TMON" (bool_bytes (td_is_enabled (Trigger_timer v))) ::
  R "TMIN" (w32_bytes (td_interval (Trigger_timer v))) ::
  R "SURF" (string_bytes (Trigger_surface v)) ::
  R "MATR" (string_bytes (Trigger_material v)) ::
  R "EBLD" (bool_bytes (Trigger_is_enabled v)) ::
  R "VSBL" (bool_bytes (Trigger_is_visible v)) ::
  R "THOT" (w32_bytes (Trigger_hit_height v)) ::
  R "NAME" (wstring_bytes (Trigger_name v)) ::
  R "SHAP" (w32_bytes (TriggerShape_to_u32 (Trigger_shape v))) ::
  R "ANSP" (w32_bytes (Trigger_anim_speed v)) ::
  orec (Trigger_is_reflection_enabled v) (fun x => R "REEN" (bool_bytes x)) ++
  R "LOCK" (bool_bytes (Trigger_is_locked v)) ::
  orec (Trigger_editor_layer v) (fun x => R "LAYR" (w32_bytes x)) ++
  orec (Trigger_editor_layer_name v) (fun x => R "LANR" (string_bytes x)) ++
  orec (Trigger_part_group_name v) (fun x => R "GRUP" (string_bytes x)) ++
  orec (Trigger_editor_layer_visibility v) (fun x => R "LVIS" (bool_bytes x)) ++
  map (fun x => R0 "DPNT" (DragPoint_bytes x)) (Trigger_drag_points v) ++
  [].
(** The values that can be stored: see the components. *)
Definition Trigger_ok (v : Trigger) : bool :=
  str_ok (Trigger_surface v) && str_ok (Trigger_material v) && wstr_ok (Trigger_name v) && opt_ok str_ok (Trigger_editor_layer_name v) && opt_ok str_ok (Trigger_part_group_name v) && forallb DragPoint_ok (Trigger_drag_points v).
Lemma Trigger_steps v : Trigger_ok v = true -> Steps (dispatch Trigger_arms) Trigger_init (Trigger_recs v) v.
Proof.
  intros H. unfold Trigger_ok in H. split_ok H. eapply Steps_eq.
  - unfold Trigger_recs.
    srec. srec. srec. sopt set_Trigger_wire_thickness Trigger_wire_thickness. srec. srec. stimer Trigger_timer set_Trigger_timer. stimer Trigger_timer set_Trigger_timer. srec. srec. srec. srec. srec. srec. srec_enum TriggerShape_roundtrip. srec. sopt set_Trigger_is_reflection_enabled Trigger_is_reflection_enabled. srec. sopt set_Trigger_editor_layer Trigger_editor_layer. sopt set_Trigger_editor_layer_name Trigger_editor_layer_name. sopt set_Trigger_part_group_name Trigger_part_group_name. sopt set_Trigger_editor_layer_visibility Trigger_editor_layer_visibility. spoints set_Trigger_drag_points Trigger_drag_points.
    constructor.
  - destruct v as [? ? ? ? ? ? ? ? ? ? ? ? ? ? ? ? ? ? ? ? ? ?]. vm_compute. repeat match goal with t : TimerData |- _ => destruct t end. reflexivity.
Qed.
Lemma Trigger_wapp v : Trigger_ok v = true -> wapp (Trigger_write v) (enc (Trigger_recs v ++ [endb])).
Proof.
  intros H. unfold Trigger_ok in H. split_ok H. unfold Trigger_write, Trigger_recs. recs_norm.
  wrec. wrec. wrec. woptrec. wrec. wrec. wtimer. wrec. wrec. wrec. wrec. wrec. wrec. wrec. wrec. woptrec. wshared Trigger_shared. wpoints. apply wapp_close.
Qed.
Lemma Trigger_roundtrip v : Trigger_ok v = true ->
  exists b, run_writer (Trigger_write v) = Ok b /\ reads_as Trigger_read b v.
Proof. intros H. exact (item_roundtrip Trigger_write Trigger_arms Trigger_init Trigger_recs v (Trigger_wapp v H) ltac:(unfold Trigger_write; closes) (Trigger_steps v H)). Qed.
Lemma Trigger_term : Term Trigger_read.
Proof.
  apply Term_read_arms. unfold Trigger_arms, Trigger_own_arms, shared_arms. item_term.
Qed.
Lemma Trigger_yields : Yields Trigger_read (fun v => Trigger_ok v = true).
Proof.
  apply Yields_read_arms; [|reflexivity]. unfold Trigger_arms, Trigger_own_arms, shared_arms.
  item_yields Trigger_ok.
Qed.

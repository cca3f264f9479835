(** Generated by tools/gen_items.py: what [Gate_write] produces and what [Gate_read] makes of it. *)
From Verif Require Import Base Text Biff Quantize Common Enums ItemBase ItemGate.
From Verif Require Import BaseFacts TextFacts BiffFacts CommonFacts TermFacts QuantizeFacts EnumsFacts ItemBaseFacts.

(** The records that are written, in order. *)
Definition Gate_recs (v : Gate) : list rec :=
  R "VCEN" (v2_bytes (Gate_center v)) ::
  R "LGTH" (w32_bytes (Gate_length v)) ::
  R "HGTH" (w32_bytes (Gate_height v)) ::
  R "ROTA" (w32_bytes (Gate_rotation v)) ::
  R "MATR" (string_bytes (Gate_material v)) ::
  R "TMON" (bool_bytes (td_is_enabled (Gate_timer v))) ::
  R "GSUP" (bool_bytes (Gate_show_bracket v)) ::
  R "GCOL" (bool_bytes (Gate_is_collidable v)) ::
  R "TMIN" (w32_bytes (td_interval (Gate_timer v))) ::
  orec (Gate_imgf v) (fun x => R "IMGF" (string_bytes x)) ++
  orec (Gate_imgb v) (fun x => R "IMGB" (string_bytes x)) ++
  R "SURF" (string_bytes (Gate_surface v)) ::
  R "ELAS" (w32_bytes (Gate_elasticity v)) ::
  R "GAMA" (w32_bytes (Gate_angle_max v)) ::
  R "GAMI" (w32_bytes (Gate_angle_min v)) ::
  R "GFRC" (w32_bytes (Gate_friction v)) ::
  orec (Gate_damping v) (fun x => R "AFRC" (w32_bytes x)) ++
  orec (Gate_gravity_factor v) (fun x => R "GGFC" (w32_bytes x)) ++
  R "GVSB" (bool_bytes (Gate_is_visible v)) ::
  R "NAME" (wstring_bytes (Gate_name v)) ::
  R "TWWA" (bool_bytes (Gate_two_way v)) ::
  orec (Gate_is_reflection_enabled v) (fun x => R "REEN" (bool_bytes x)) ++
  orec (Gate_gate_type v) (fun x => R "GATY" (w32_bytes (GateType_to_u32 x))) ++
  R "LOCK" (bool_bytes (Gate_is_locked v)) ::
  orec (Gate_editor_layer v) (fun x => R "LAYR" (w32_bytes x)) ++
  orec (Gate_editor_layer_name v) (fun x => R "LANR" (string_bytes x)) ++
  orec (Gate_part_group_name v) (fun x => R "GRUP" (string_bytes x)) ++
  orec (Gate_editor_layer_visibility v) (fun x => R "LVIS" (bool_bytes x)) ++
  [].
(** The values that can be stored: see the components. *)
Definition Gate_ok (v : Gate) : bool :=
  str_ok (Gate_material v) && opt_ok str_ok (Gate_imgf v) && opt_ok str_ok (Gate_imgb v) && str_ok (Gate_surface v) && wstr_ok (Gate_name v) && opt_ok GateType_ok (Gate_gate_type v) && opt_ok str_ok (Gate_editor_layer_name v) && opt_ok str_ok (Gate_part_group_name v).
Lemma Gate_steps v : Gate_ok v = true -> Steps (dispatch Gate_arms) Gate_init (Gate_recs v) v.
Proof.
  intros H. unfold Gate_ok in H. split_ok H. eapply Steps_eq.
  - unfold Gate_recs.
    srec. srec. srec. srec. srec. stimer Gate_timer set_Gate_timer. srec. srec. stimer Gate_timer set_Gate_timer. sopt set_Gate_imgf Gate_imgf. sopt set_Gate_imgb Gate_imgb. srec. srec. srec. srec. srec. sopt set_Gate_damping Gate_damping. sopt set_Gate_gravity_factor Gate_gravity_factor. srec. srec. srec. sopt set_Gate_is_reflection_enabled Gate_is_reflection_enabled. sopt_enum set_Gate_gate_type Gate_gate_type GateType_roundtrip. srec. sopt set_Gate_editor_layer Gate_editor_layer. sopt set_Gate_editor_layer_name Gate_editor_layer_name. sopt set_Gate_part_group_name Gate_part_group_name. sopt set_Gate_editor_layer_visibility Gate_editor_layer_visibility.
    constructor.
  - destruct v as [? ? ? ? ? ? ? ? ? ? ? ? ? ? ? ? ? ? ? ? ? ? ? ? ? ? ?]. vm_compute. repeat match goal with t : TimerData |- _ => destruct t end. reflexivity.
Qed.
Lemma Gate_wapp v : Gate_ok v = true -> wapp (Gate_write v) (enc (Gate_recs v ++ [endb])).
Proof.
  intros H. unfold Gate_ok in H. split_ok H. unfold Gate_write, Gate_recs. recs_norm.
  wrec. wrec. wrec. wrec. wrec. wrec. wrec. wrec. wrec. woptrec. woptrec. wrec. wrec. wrec. wrec. wrec. woptrec. woptrec. wrec. wrec. wrec. woptrec. woptrec. wshared Gate_shared. apply wapp_close.
Qed.
Lemma Gate_roundtrip v : Gate_ok v = true ->
  exists b, run_writer (Gate_write v) = Ok b /\ reads_as Gate_read b v.
Proof. intros H. exact (item_roundtrip Gate_write Gate_arms Gate_init Gate_recs v (Gate_wapp v H) ltac:(unfold Gate_write; closes) (Gate_steps v H)). Qed.
Lemma Gate_term : Term Gate_read.
Proof.
  apply Term_read_arms. unfold Gate_arms, Gate_own_arms, shared_arms. item_term.
Qed.
Lemma Gate_yields : Yields Gate_read (fun v => Gate_ok v = true).
Proof.
  apply Yields_read_arms; [|reflexivity]. unfold Gate_arms, Gate_own_arms, shared_arms.
  item_yields Gate_ok.
Qed.

(** Generated by tools/gen_items.py: what [Spinner_write] produces and what [Spinner_read] makes of it. *)
From Verif Require Import Base Text Biff Quantize Common Enums ItemBase ItemSpinner.
From Verif Require Import BaseFacts TextFacts BiffFacts CommonFacts TermFacts QuantizeFacts EnumsFacts ItemBaseFacts.

(** The records that are written, in order. *)
Definition Spinner_recs (v : Spinner) : list rec :=
  R "VCEN" (v2_bytes (Spinner_center v)) ::
  R "ROTA" (w32_bytes (Spinner_rotation v)) ::
  R "TMON" (bool_bytes (td_is_enabled (Spinner_timer v))) ::
  R "TMIN" (w32_bytes (td_interval (Spinner_timer v))) ::
  R "HIGH" (w32_bytes (Spinner_height v)) ::
  R "LGTH" (w32_bytes (Spinner_length v)) ::
  R "AFRC" (w32_bytes (Spinner_damping v)) ::
  R "SMAX" (w32_bytes (Spinner_angle_max v)) ::
  R "SMIN" (w32_bytes (Spinner_angle_min v)) ::
  R "SELA" (w32_bytes (Spinner_elasticity v)) ::
  R "SVIS" (bool_bytes (Spinner_is_visible v)) ::
  R "SSUP" (bool_bytes (Spinner_show_bracket v)) ::
  R "MATR" (string_bytes (Spinner_material v)) ::
  R "IMGF" (string_bytes (Spinner_image v)) ::
  R "SURF" (string_bytes (Spinner_surface v)) ::
  R "NAME" (wstring_bytes (Spinner_name v)) ::
  orec (Spinner_is_reflection_enabled v) (fun x => R "REEN" (bool_bytes x)) ++
  R "LOCK" (bool_bytes (Spinner_is_locked v)) ::
  orec (Spinner_editor_layer v) (fun x => R "LAYR" (w32_bytes x)) ++
  orec (Spinner_editor_layer_name v) (fun x => R "LANR" (string_bytes x)) ++
  orec (Spinner_part_group_name v) (fun x => R "GRUP" (string_bytes x)) ++
  orec (Spinner_editor_layer_visibility v) (fun x => R "LVIS" (bool_bytes x)) ++
  [].
(** The values that can be stored: see the components. *)
Definition Spinner_ok (v : Spinner) : bool :=
  str_ok (Spinner_material v) && str_ok (Spinner_image v) && str_ok (Spinner_surface v) && wstr_ok (Spinner_name v) && opt_ok str_ok (Spinner_editor_layer_name v) && opt_ok str_ok (Spinner_part_group_name v).
Lemma Spinner_steps v : Spinner_ok v = true -> Steps (dispatch Spinner_arms) Spinner_init (Spinner_recs v) v.
Proof.
  intros H. unfold Spinner_ok in H. split_ok H. eapply Steps_eq.
  - unfold Spinner_recs.
    srec. srec. stimer Spinner_timer set_Spinner_timer. stimer Spinner_timer set_Spinner_timer. srec. srec. srec. srec. srec. srec. srec. srec. srec. srec. srec. srec. sopt set_Spinner_is_reflection_enabled Spinner_is_reflection_enabled. srec. sopt set_Spinner_editor_layer Spinner_editor_layer. sopt set_Spinner_editor_layer_name Spinner_editor_layer_name. sopt set_Spinner_part_group_name Spinner_part_group_name. sopt set_Spinner_editor_layer_visibility Spinner_editor_layer_visibility.
    constructor.
  - destruct v as [? ? ? ? ? ? ? ? ? ? ? ? ? ? ? ? ? ? ? ? ?]. vm_compute. repeat match goal with t : TimerData |- _ => destruct t end. reflexivity.
Qed.
Lemma Spinner_wapp v : Spinner_ok v = true -> wapp (Spinner_write v) (enc (Spinner_recs v ++ [endb])).
Proof.
  intros H. unfold Spinner_ok in H. split_ok H. unfold Spinner_write, Spinner_recs. recs_norm.
  wrec. wrec. wtimer. wrec. wrec. wrec. wrec. wrec. wrec. wrec. wrec. wrec. wrec. wrec. wrec. woptrec. wshared Spinner_shared. apply wapp_close.
Qed.
Lemma Spinner_roundtrip v : Spinner_ok v = true ->
  exists b, run_writer (Spinner_write v) = Ok b /\ reads_as Spinner_read b v.
Proof. intros H. exact (item_roundtrip Spinner_write Spinner_arms Spinner_init Spinner_recs v (Spinner_wapp v H) ltac:(unfold Spinner_write; closes) (Spinner_steps v H)). Qed.
Lemma Spinner_term : Term Spinner_read.
Proof.
  apply Term_read_arms. unfold Spinner_arms, Spinner_own_arms, shared_arms. item_term.
Qed.
Lemma Spinner_yields : Yields Spinner_read (fun v => Spinner_ok v = true).
Proof.
  apply Yields_read_arms; [|reflexivity]. unfold Spinner_arms, Spinner_own_arms, shared_arms.
  item_yields Spinner_ok.
Qed.

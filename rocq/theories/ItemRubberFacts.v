(** Generated by tools/gen_items.py: what [Rubber_write] produces and what [Rubber_read] makes of it. *)
From Verif Require Import Base Text Biff Quantize Common Enums ItemBase ItemRubber.
From Verif Require Import BaseFacts TextFacts BiffFacts CommonFacts TermFacts QuantizeFacts EnumsFacts ItemBaseFacts.

(** The records that are written, in order. *)
Definition Rubber_recs (v : Rubber) : list rec :=
  R "HTTP" (w32_bytes (Rubber_height v)) ::
  orec (Rubber_hit_height v) (fun x => R "HTHI" (w32_bytes x)) ++
  R "WDTP" (w32_bytes (Rubber_thickness v)) ::
  R "HTEV" (bool_bytes (Rubber_hit_event v)) ::
  R "MATR" (string_bytes (Rubber_material v)) ::
  R "TMON" (bool_bytes (td_is_enabled (Rubber_timer v))) ::
  R "TMIN" (w32_bytes (td_interval (Rubber_timer v))) ::
  R "NAME" (wstring_bytes (Rubber_name v)) ::
  R "IMAG" (string_bytes (Rubber_image v)) ::
  R "ELAS" (w32_bytes (Rubber_elasticity v)) ::
  R "ELFO" (w32_bytes (Rubber_elasticity_falloff v)) ::
  R "RFCT" (w32_bytes (Rubber_friction v)) ::
  R "RSCT" (w32_bytes (Rubber_scatter v)) ::
  R "CLDR" (bool_bytes (Rubber_is_collidable v)) ::
  R "RVIS" (bool_bytes (Rubber_is_visible v)) ::
  orec (Rubber_radb v) (fun x => R "RADB" (w32_bytes x)) ++
  R "ESTR" (bool_bytes (Rubber_static_rendering v)) ::
  R "ESIE" (bool_bytes (Rubber_show_in_editor v)) ::
  R "ROTX" (w32_bytes (Rubber_rot_x v)) ::
  R "ROTY" (w32_bytes (Rubber_rot_y v)) ::
  R "ROTZ" (w32_bytes (Rubber_rot_z v)) ::
  orec (Rubber_is_reflection_enabled v) (fun x => R "REEN" (bool_bytes x)) ++
  orec (Rubber_physics_material v) (fun x => R "MAPH" (string_bytes x)) ++
  orec (Rubber_overwrite_physics v) (fun x => R "OVPH" (bool_bytes x)) ++
  R "LOCK" (bool_bytes (Rubber_is_locked v)) ::
  orec (Rubber_editor_layer v) (fun x => R "LAYR" (w32_bytes x)) ++
  orec (Rubber_editor_layer_name v) (fun x => R "LANR" (string_bytes x)) ++
  orec (Rubber_part_group_name v) (fun x => R "GRUP" (string_bytes x)) ++
  orec (Rubber_editor_layer_visibility v) (fun x => R "LVIS" (bool_bytes x)) ++
  R "PNTS" [] ::
  map (fun x => R0 "DPNT" (DragPoint_bytes x)) (Rubber_drag_points v) ++
  [].
(** The values that can be stored: see the components. *)
Definition Rubber_ok (v : Rubber) : bool :=
  str_ok (Rubber_material v) && wstr_ok (Rubber_name v) && str_ok (Rubber_image v) && opt_ok str_ok (Rubber_physics_material v) && opt_ok str_ok (Rubber_editor_layer_name v) && opt_ok str_ok (Rubber_part_group_name v) && forallb DragPoint_ok (Rubber_drag_points v).
Lemma Rubber_steps v : Rubber_ok v = true -> Steps (dispatch Rubber_arms) Rubber_init (Rubber_recs v) v.
Proof.
  intros H. unfold Rubber_ok in H. split_ok H. eapply Steps_eq.
  - unfold Rubber_recs.
    srec. sopt set_Rubber_hit_height Rubber_hit_height. srec. srec. srec. stimer Rubber_timer set_Rubber_timer. stimer Rubber_timer set_Rubber_timer. srec. srec. srec. srec. srec. srec. srec. srec. sopt set_Rubber_radb Rubber_radb. srec. srec. srec. srec. srec. sopt set_Rubber_is_reflection_enabled Rubber_is_reflection_enabled. sopt set_Rubber_physics_material Rubber_physics_material. sopt set_Rubber_overwrite_physics Rubber_overwrite_physics. srec. sopt set_Rubber_editor_layer Rubber_editor_layer. sopt set_Rubber_editor_layer_name Rubber_editor_layer_name. sopt set_Rubber_part_group_name Rubber_part_group_name. sopt set_Rubber_editor_layer_visibility Rubber_editor_layer_visibility. srec. spoints set_Rubber_drag_points Rubber_drag_points.
    constructor.
  - destruct v as [? ? ? ? ? ? ? ? ? ? ? ? ? ? ? ? ? ? ? ? ? ? ? ? ? ? ? ? ?]. vm_compute. repeat match goal with t : TimerData |- _ => destruct t end. reflexivity.
Qed.
Lemma Rubber_wapp v : Rubber_ok v = true -> wapp (Rubber_write v) (enc (Rubber_recs v ++ [endb])).
Proof.
  intros H. unfold Rubber_ok in H. split_ok H. unfold Rubber_write, Rubber_recs. recs_norm.
  wrec. woptrec. wrec. wrec. wrec. wtimer. wrec. wrec. wrec. wrec. wrec. wrec. wrec. wrec. woptrec. wrec. wrec. wrec. wrec. wrec. woptrec. woptrec. woptrec. wshared Rubber_shared. wrec. wpoints. apply wapp_close.
Qed.
Lemma Rubber_roundtrip v : Rubber_ok v = true ->
  exists b, run_writer (Rubber_write v) = Ok b /\ reads_as Rubber_read b v.
Proof. intros H. exact (item_roundtrip Rubber_write Rubber_arms Rubber_init Rubber_recs v (Rubber_wapp v H) ltac:(unfold Rubber_write; closes) (Rubber_steps v H)). Qed.
Lemma Rubber_term : Term Rubber_read.
Proof.
  apply Term_read_arms. unfold Rubber_arms, Rubber_own_arms, shared_arms. item_term.
Qed.
Lemma Rubber_yields : Yields Rubber_read (fun v => Rubber_ok v = true).
Proof.
  apply Yields_read_arms; [|reflexivity]. unfold Rubber_arms, Rubber_own_arms, shared_arms.
  item_yields Rubber_ok.
Qed.

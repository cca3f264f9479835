(** Generated by tools/gen_structs.py: what [Material_write] produces and what [Material_read] makes of it. *)
From Verif Require Import Base Text Biff Quantize Common Enums ItemBase StructMaterial.
From Verif Require Import BaseFacts TextFacts BiffFacts CommonFacts TermFacts QuantizeFacts EnumsFacts ItemBaseFacts.

(** The records that are written, in order. *)
Definition Material_recs (v : Material) : list rec :=
  R "TYPE" (w32_bytes (MaterialType_to_i32 (Material_type_ v))) ::
  R "NAME" (string_bytes (Material_name v)) ::
  R "WLIG" (w32_bytes (Material_wrap_lighting v)) ::
  R "ROUG" (w32_bytes (Material_roughness v)) ::
  R "GIML" (w32_bytes (Material_glossy_image_lerp v)) ::
  R "THCK" (w32_bytes (Material_thickness v)) ::
  R "EDGE" (w32_bytes (Material_edge v)) ::
  R "EALP" (w32_bytes (Material_edge_alpha v)) ::
  R "OPAC" (w32_bytes (Material_opacity v)) ::
  R "BASE" (color_bytes (Material_base_color v)) ::
  R "GLOS" (color_bytes (Material_glossy_color v)) ::
  R "COAT" (color_bytes (Material_clearcoat_color v)) ::
  R "RTNT" (color_bytes (Material_refraction_tint v)) ::
  R "EOPA" (bool_bytes (Material_opacity_active v)) ::
  R "ELAS" (w32_bytes (Material_elasticity v)) ::
  R "ELFO" (w32_bytes (Material_elasticity_falloff v)) ::
  R "FRIC" (w32_bytes (Material_friction v)) ::
  R "SCAT" (w32_bytes (Material_scatter_angle v)) ::
  [].
(** The values that can be stored: see the components. *)
Definition Material_ok (v : Material) : bool :=
  str_ok (Material_name v).
Lemma Material_steps v : Material_ok v = true -> Steps (dispatch Material_arms) Material_init (Material_recs v) v.
Proof.
  intros H. unfold Material_ok in H. split_ok H. eapply Steps_eq.
  - unfold Material_recs.
    srec_enum MaterialType_roundtrip. srec. srec. srec. srec. srec. srec. srec. srec. srec. srec. srec. srec. srec. srec. srec. srec. srec.
    constructor.
  - destruct v. vm_compute. reflexivity.
Qed.
Lemma Material_wapp v : Material_ok v = true -> wapp (Material_write v) (enc (Material_recs v ++ [endb])).
Proof.
  intros H. unfold Material_ok in H. split_ok H. unfold Material_write, Material_recs. recs_norm.
  wrec. wrec. wrec. wrec. wrec. wrec. wrec. wrec. wrec. wrec. wrec. wrec. wrec. wrec. wrec. wrec. wrec. wrec. apply wapp_close.
Qed.
Lemma Material_roundtrip v : Material_ok v = true ->
  exists b, run_writer (Material_write v) = Ok b /\ reads_as Material_read b v.
Proof. intros H. exact (item_roundtrip Material_write Material_arms Material_init Material_recs v (Material_wapp v H) ltac:(unfold Material_write; closes) (Material_steps v H)). Qed.
Lemma Material_term : Term Material_read.
Proof.
  apply Term_read_arms. unfold Material_arms, Material_own_arms. item_term.
Qed.
Lemma Material_yields : Yields Material_read (fun v => Material_ok v = true).
Proof.
  apply Yields_read_arms; [|reflexivity]. unfold Material_arms, Material_own_arms.
  item_yields Material_ok.
Qed.

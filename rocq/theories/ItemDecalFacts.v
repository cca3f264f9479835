(** Generated by tools/gen_items.py: what [Decal_write] produces and what [Decal_read] makes of it. *)
From Verif Require Import Base Text Biff Quantize Common Enums ItemBase ItemDecal.
From Verif Require Import BaseFacts TextFacts BiffFacts CommonFacts TermFacts QuantizeFacts EnumsFacts ItemBaseFacts.

(** The records that are written, in order. *)
Definition Decal_recs (v : Decal) : list rec :=
  R "VCEN" (v2_bytes (Decal_center v)) ::
  R "WDTH" (w32_bytes (Decal_width v)) ::
  R "HIGH" (w32_bytes (Decal_height v)) ::
  R "ROTA" (w32_bytes (Decal_rotation v)) ::
  R "IMAG" (string_bytes (Decal_image v)) ::
  R "SURF" (string_bytes (Decal_surface v)) ::
  R "NAME" (wstring_bytes (Decal_name v)) ::
  R "TEXT" (string_bytes (Decal_text v)) ::
  R "TYPE" (w32_bytes (DecalType_to_u32 (Decal_decal_type v))) ::
  R "MATR" (string_bytes (Decal_material v)) ::
  R "COLR" (color_bytes (Decal_color v)) ::
  R "SIZE" (w32_bytes (SizingType_to_u32 (Decal_sizing_type v))) ::
  R "VERT" (bool_bytes (Decal_vertical_text v)) ::
  R "BGLS" (bool_bytes (Decal_backglass v)) ::
  R "LOCK" (bool_bytes (Decal_is_locked v)) ::
  orec (Decal_editor_layer v) (fun x => R "LAYR" (w32_bytes x)) ++
  orec (Decal_editor_layer_name v) (fun x => R "LANR" (string_bytes x)) ++
  orec (Decal_part_group_name v) (fun x => R "GRUP" (string_bytes x)) ++
  orec (Decal_editor_layer_visibility v) (fun x => R "LVIS" (bool_bytes x)) ++
  R0 "FONT" (FontDesc_bytes (Decal_font v)) ::
  [].
(** The values that can be stored: see the components. *)
Definition Decal_ok (v : Decal) : bool :=
  str_ok (Decal_image v) && str_ok (Decal_surface v) && wstr_ok (Decal_name v) && str_ok (Decal_text v) && str_ok (Decal_material v) && opt_ok str_ok (Decal_editor_layer_name v) && opt_ok str_ok (Decal_part_group_name v) && FontDesc_ok (Decal_font v).
Lemma Decal_steps v : Decal_ok v = true -> Steps (dispatch Decal_arms) Decal_init (Decal_recs v) v.
Proof.
  intros H. unfold Decal_ok in H. split_ok H. eapply Steps_eq.
  - unfold Decal_recs.
    srec. srec. srec. srec. srec. srec. srec. srec. srec_enum DecalType_roundtrip. srec. srec. srec_enum SizingType_roundtrip. srec. srec. srec. sopt set_Decal_editor_layer Decal_editor_layer. sopt set_Decal_editor_layer_name Decal_editor_layer_name. sopt set_Decal_part_group_name Decal_part_group_name. sopt set_Decal_editor_layer_visibility Decal_editor_layer_visibility. srec_font.
    constructor.
  - destruct v. vm_compute. reflexivity.
Qed.
Lemma Decal_wapp v : Decal_ok v = true -> wapp (Decal_write v) (enc (Decal_recs v ++ [endb])).
Proof.
  intros H. unfold Decal_ok in H. split_ok H. unfold Decal_write, Decal_recs. recs_norm.
  wrec. wrec. wrec. wrec. wrec. wrec. wrec. wrec. wrec. wrec. wrec. wrec. wrec. wrec. wshared Decal_shared. wrec_font. apply wapp_close.
Qed.
Lemma Decal_roundtrip v : Decal_ok v = true ->
  exists b, run_writer (Decal_write v) = Ok b /\ reads_as Decal_read b v.
Proof. intros H. exact (item_roundtrip Decal_write Decal_arms Decal_init Decal_recs v (Decal_wapp v H) ltac:(unfold Decal_write; closes) (Decal_steps v H)). Qed.
Lemma Decal_term : Term Decal_read.
Proof.
  apply Term_read_arms. unfold Decal_arms, Decal_own_arms, shared_arms. item_term.
Qed.
Lemma Decal_yields : Yields Decal_read (fun v => Decal_ok v = true).
Proof.
  apply Yields_read_arms; [|reflexivity]. unfold Decal_arms, Decal_own_arms, shared_arms.
  item_yields Decal_ok.
Qed.

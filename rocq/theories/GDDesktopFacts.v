(** Generated by tools/gen_structs.py: what [GDDesktop_write] produces and what [GDDesktop_arms] makes of it. *)
From Verif Require Import Base Text Biff Quantize Common Enums ItemBase GDDesktop.
From Verif Require Import BaseFacts TextFacts BiffFacts CommonFacts TermFacts QuantizeFacts EnumsFacts ItemBaseFacts StructBaseFacts.

(** The records that are written, in order. *)
Definition GDDesktop_recs (v : GDDesktop) : list rec :=
  orec (GDDesktop_bg_view_mode_desktop v) (fun x => R "VSM0" (w32_bytes (ViewLayoutMode_to_u32 x))) ++
  R "ROTA" (w32_bytes (GDDesktop_bg_rotation_desktop v)) ::
  R "INCL" (w32_bytes (GDDesktop_bg_inclination_desktop v)) ::
  R "LAYB" (w32_bytes (GDDesktop_bg_layback_desktop v)) ::
  R "FOVX" (w32_bytes (GDDesktop_bg_fov_desktop v)) ::
  R "XLTX" (w32_bytes (GDDesktop_bg_offset_x_desktop v)) ::
  R "XLTY" (w32_bytes (GDDesktop_bg_offset_y_desktop v)) ::
  R "XLTZ" (w32_bytes (GDDesktop_bg_offset_z_desktop v)) ::
  R "SCLX" (w32_bytes (GDDesktop_bg_scale_x_desktop v)) ::
  R "SCLY" (w32_bytes (GDDesktop_bg_scale_y_desktop v)) ::
  R "SCLZ" (w32_bytes (GDDesktop_bg_scale_z_desktop v)) ::
  orec (GDDesktop_bg_view_horizontal_offset_desktop v) (fun x => R "HOF0" (w32_bytes x)) ++
  orec (GDDesktop_bg_view_vertical_offset_desktop v) (fun x => R "VOF0" (w32_bytes x)) ++
  orec (GDDesktop_bg_window_top_x_offset_desktop v) (fun x => R "WTX0" (w32_bytes x)) ++
  orec (GDDesktop_bg_window_top_y_offset_desktop v) (fun x => R "WTY0" (w32_bytes x)) ++
  orec (GDDesktop_bg_window_top_z_offset_desktop v) (fun x => R "WTZ0" (w32_bytes x)) ++
  orec (GDDesktop_bg_window_bottom_x_offset_desktop v) (fun x => R "WBX0" (w32_bytes x)) ++
  orec (GDDesktop_bg_window_bottom_y_offset_desktop v) (fun x => R "WBY0" (w32_bytes x)) ++
  orec (GDDesktop_bg_window_bottom_z_offset_desktop v) (fun x => R "WBZ0" (w32_bytes x)) ++
  orec (GDDesktop_bg_view_mode_fullscreen v) (fun x => R "VSM1" (w32_bytes (ViewLayoutMode_to_u32 x))) ++
  [].
(** The values that can be stored: see the components. *)
Definition GDDesktop_ok (v : GDDesktop) : bool :=
  true.
Lemma GDDesktop_steps v : GDDesktop_ok v = true -> Steps (dispatch GDDesktop_arms) GDDesktop_default (GDDesktop_recs v) v.
Proof.
  intros H. unfold GDDesktop_ok in H. split_ok H. eapply Steps_eq.
  - unfold GDDesktop_recs.
    sopt_enum set_GDDesktop_bg_view_mode_desktop GDDesktop_bg_view_mode_desktop ViewLayoutMode_roundtrip. srec. srec. srec. srec. srec. srec. srec. srec. srec. srec. sopt set_GDDesktop_bg_view_horizontal_offset_desktop GDDesktop_bg_view_horizontal_offset_desktop. sopt set_GDDesktop_bg_view_vertical_offset_desktop GDDesktop_bg_view_vertical_offset_desktop. sopt set_GDDesktop_bg_window_top_x_offset_desktop GDDesktop_bg_window_top_x_offset_desktop. sopt set_GDDesktop_bg_window_top_y_offset_desktop GDDesktop_bg_window_top_y_offset_desktop. sopt set_GDDesktop_bg_window_top_z_offset_desktop GDDesktop_bg_window_top_z_offset_desktop. sopt set_GDDesktop_bg_window_bottom_x_offset_desktop GDDesktop_bg_window_bottom_x_offset_desktop. sopt set_GDDesktop_bg_window_bottom_y_offset_desktop GDDesktop_bg_window_bottom_y_offset_desktop. sopt set_GDDesktop_bg_window_bottom_z_offset_desktop GDDesktop_bg_window_bottom_z_offset_desktop. sopt_enum set_GDDesktop_bg_view_mode_fullscreen GDDesktop_bg_view_mode_fullscreen ViewLayoutMode_roundtrip.
    constructor.
  - destruct v. vm_compute. reflexivity.
Qed.
Lemma GDDesktop_wapp v : GDDesktop_ok v = true -> wapp (GDDesktop_write v) (enc (GDDesktop_recs v)).
Proof.
  intros H. unfold GDDesktop_ok in H. split_ok H. unfold GDDesktop_write, GDDesktop_recs. recs_norm.
  woptrec. wrec. wrec. wrec. wrec. wrec. wrec. wrec. wrec. wrec. wrec. woptrec. woptrec. woptrec. woptrec. woptrec. woptrec. woptrec. woptrec. woptrec. apply wapp_wskip.
Qed.
Lemma GDDesktop_term : Forall ArmTerm GDDesktop_arms.
Proof.
  unfold GDDesktop_arms, GDDesktop_own_arms. item_term.
Qed.
Lemma GDDesktop_yields : Forall (ArmYields (fun v => GDDesktop_ok v = true)) GDDesktop_arms.
Proof.
  unfold GDDesktop_arms, GDDesktop_own_arms.
  item_yields GDDesktop_ok.
Qed.
Lemma GDDesktop_tags v : forallb (fun r => tag_known GDDesktop_arms (rec_tag r)) (GDDesktop_recs v) = true.
Proof. unfold GDDesktop_recs. tags_in. Qed.

(** Generated by tools/gen_structs.py: what [GDCabinet_write] produces and what [GDCabinet_arms] makes of it. *)
From Verif Require Import Base Text Biff Quantize Common Enums ItemBase GDCabinet.
From Verif Require Import BaseFacts TextFacts BiffFacts CommonFacts TermFacts QuantizeFacts EnumsFacts ItemBaseFacts StructBaseFacts.

(** The records that are written, in order. *)
Definition GDCabinet_recs (v : GDCabinet) : list rec :=
  R "ROTF" (w32_bytes (GDCabinet_bg_rotation_fullscreen v)) ::
  R "INCF" (w32_bytes (GDCabinet_bg_inclination_fullscreen v)) ::
  R "LAYF" (w32_bytes (GDCabinet_bg_layback_fullscreen v)) ::
  R "FOVF" (w32_bytes (GDCabinet_bg_fov_fullscreen v)) ::
  R "XLFX" (w32_bytes (GDCabinet_bg_offset_x_fullscreen v)) ::
  R "XLFY" (w32_bytes (GDCabinet_bg_offset_y_fullscreen v)) ::
  R "XLFZ" (w32_bytes (GDCabinet_bg_offset_z_fullscreen v)) ::
  R "SCFX" (w32_bytes (GDCabinet_bg_scale_x_fullscreen v)) ::
  R "SCFY" (w32_bytes (GDCabinet_bg_scale_y_fullscreen v)) ::
  R "SCFZ" (w32_bytes (GDCabinet_bg_scale_z_fullscreen v)) ::
  orec (GDCabinet_bg_view_horizontal_offset_fullscreen v) (fun x => R "HOF1" (w32_bytes x)) ++
  orec (GDCabinet_bg_view_vertical_offset_fullscreen v) (fun x => R "VOF1" (w32_bytes x)) ++
  orec (GDCabinet_bg_window_top_x_offset_fullscreen v) (fun x => R "WTX1" (w32_bytes x)) ++
  orec (GDCabinet_bg_window_top_y_offset_fullscreen v) (fun x => R "WTY1" (w32_bytes x)) ++
  orec (GDCabinet_bg_window_top_z_offset_fullscreen v) (fun x => R "WTZ1" (w32_bytes x)) ++
  orec (GDCabinet_bg_window_bottom_x_offset_fullscreen v) (fun x => R "WBX1" (w32_bytes x)) ++
  orec (GDCabinet_bg_window_bottom_y_offset_fullscreen v) (fun x => R "WBY1" (w32_bytes x)) ++
  orec (GDCabinet_bg_window_bottom_z_offset_fullscreen v) (fun x => R "WBZ1" (w32_bytes x)) ++
  orec (GDCabinet_bg_view_mode_full_single_screen v) (fun x => R "VSM2" (w32_bytes (ViewLayoutMode_to_u32 x))) ++
  orec (GDCabinet_bg_rotation_full_single_screen v) (fun x => R "ROFS" (w32_bytes x)) ++
  orec (GDCabinet_bg_inclination_full_single_screen v) (fun x => R "INFS" (w32_bytes x)) ++
  orec (GDCabinet_bg_layback_full_single_screen v) (fun x => R "LAFS" (w32_bytes x)) ++
  orec (GDCabinet_bg_fov_full_single_screen v) (fun x => R "FOFS" (w32_bytes x)) ++
  orec (GDCabinet_bg_offset_x_full_single_screen v) (fun x => R "XLXS" (w32_bytes x)) ++
  orec (GDCabinet_bg_offset_y_full_single_screen v) (fun x => R "XLYS" (w32_bytes x)) ++
  orec (GDCabinet_bg_offset_z_full_single_screen v) (fun x => R "XLZS" (w32_bytes x)) ++
  orec (GDCabinet_bg_scale_x_full_single_screen v) (fun x => R "SCXS" (w32_bytes x)) ++
  orec (GDCabinet_bg_scale_y_full_single_screen v) (fun x => R "SCYS" (w32_bytes x)) ++
  orec (GDCabinet_bg_scale_z_full_single_screen v) (fun x => R "SCZS" (w32_bytes x)) ++
  orec (GDCabinet_bg_view_horizontal_offset_full_single_screen v) (fun x => R "HOF2" (w32_bytes x)) ++
  orec (GDCabinet_bg_view_vertical_offset_full_single_screen v) (fun x => R "VOF2" (w32_bytes x)) ++
  orec (GDCabinet_bg_window_top_x_offset_full_single_screen v) (fun x => R "WTX2" (w32_bytes x)) ++
  orec (GDCabinet_bg_window_top_y_offset_full_single_screen v) (fun x => R "WTY2" (w32_bytes x)) ++
  orec (GDCabinet_bg_window_top_z_offset_full_single_screen v) (fun x => R "WTZ2" (w32_bytes x)) ++
  orec (GDCabinet_bg_window_bottom_x_offset_full_single_screen v) (fun x => R "WBX2" (w32_bytes x)) ++
  orec (GDCabinet_bg_window_bottom_y_offset_full_single_screen v) (fun x => R "WBY2" (w32_bytes x)) ++
  orec (GDCabinet_bg_window_bottom_z_offset_full_single_screen v) (fun x => R "WBZ2" (w32_bytes x)) ++
  [].
(** The values that can be stored: see the components. *)
Definition GDCabinet_ok (v : GDCabinet) : bool :=
  true.
Lemma GDCabinet_steps v : GDCabinet_ok v = true -> Steps (dispatch GDCabinet_arms) GDCabinet_default (GDCabinet_recs v) v.
Proof.
  intros H. unfold GDCabinet_ok in H. split_ok H. eapply Steps_eq.
  - unfold GDCabinet_recs.
    srec. srec. srec. srec. srec. srec. srec. srec. srec. srec. sopt set_GDCabinet_bg_view_horizontal_offset_fullscreen GDCabinet_bg_view_horizontal_offset_fullscreen. sopt set_GDCabinet_bg_view_vertical_offset_fullscreen GDCabinet_bg_view_vertical_offset_fullscreen. sopt set_GDCabinet_bg_window_top_x_offset_fullscreen GDCabinet_bg_window_top_x_offset_fullscreen. sopt set_GDCabinet_bg_window_top_y_offset_fullscreen GDCabinet_bg_window_top_y_offset_fullscreen. sopt set_GDCabinet_bg_window_top_z_offset_fullscreen GDCabinet_bg_window_top_z_offset_fullscreen. sopt set_GDCabinet_bg_window_bottom_x_offset_fullscreen GDCabinet_bg_window_bottom_x_offset_fullscreen. sopt set_GDCabinet_bg_window_bottom_y_offset_fullscreen GDCabinet_bg_window_bottom_y_offset_fullscreen. sopt set_GDCabinet_bg_window_bottom_z_offset_fullscreen GDCabinet_bg_window_bottom_z_offset_fullscreen. sopt_enum set_GDCabinet_bg_view_mode_full_single_screen GDCabinet_bg_view_mode_full_single_screen ViewLayoutMode_roundtrip. sopt set_GDCabinet_bg_rotation_full_single_screen GDCabinet_bg_rotation_full_single_screen. sopt set_GDCabinet_bg_inclination_full_single_screen GDCabinet_bg_inclination_full_single_screen. sopt set_GDCabinet_bg_layback_full_single_screen GDCabinet_bg_layback_full_single_screen. sopt set_GDCabinet_bg_fov_full_single_screen GDCabinet_bg_fov_full_single_screen. sopt set_GDCabinet_bg_offset_x_full_single_screen GDCabinet_bg_offset_x_full_single_screen. sopt set_GDCabinet_bg_offset_y_full_single_screen GDCabinet_bg_offset_y_full_single_screen. sopt set_GDCabinet_bg_offset_z_full_single_screen GDCabinet_bg_offset_z_full_single_screen. sopt set_GDCabinet_bg_scale_x_full_single_screen GDCabinet_bg_scale_x_full_single_screen. sopt set_GDCabinet_bg_scale_y_full_single_screen GDCabinet_bg_scale_y_full_single_screen. sopt set_GDCabinet_bg_scale_z_full_single_screen GDCabinet_bg_scale_z_full_single_screen. sopt set_GDCabinet_bg_view_horizontal_offset_full_single_screen GDCabinet_bg_view_horizontal_offset_full_single_screen. sopt set_GDCabinet_bg_view_vertical_offset_full_single_screen GDCabinet_bg_view_vertical_offset_full_single_screen. sopt set_GDCabinet_bg_window_top_x_offset_full_single_screen GDCabinet_bg_window_top_x_offset_full_single_screen. sopt set_GDCabinet_bg_window_top_y_offset_full_single_screen GDCabinet_bg_window_top_y_offset_full_single_screen. sopt set_GDCabinet_bg_window_top_z_offset_full_single_screen GDCabinet_bg_window_top_z_offset_full_single_screen. sopt set_GDCabinet_bg_window_bottom_x_offset_full_single_screen GDCabinet_bg_window_bottom_x_offset_full_single_screen. sopt set_GDCabinet_bg_window_bottom_y_offset_full_single_screen GDCabinet_bg_window_bottom_y_offset_full_single_screen. sopt set_GDCabinet_bg_window_bottom_z_offset_full_single_screen GDCabinet_bg_window_bottom_z_offset_full_single_screen.
    constructor.
  - destruct v. vm_compute. reflexivity.
Qed.
Lemma GDCabinet_wapp v : GDCabinet_ok v = true -> wapp (GDCabinet_write v) (enc (GDCabinet_recs v)).
Proof.
  intros H. unfold GDCabinet_ok in H. split_ok H. unfold GDCabinet_write, GDCabinet_recs. recs_norm.
  wrec. wrec. wrec. wrec. wrec. wrec. wrec. wrec. wrec. wrec. woptrec. woptrec. woptrec. woptrec. woptrec. woptrec. woptrec. woptrec. woptrec. woptrec. woptrec. woptrec. woptrec. woptrec. woptrec. woptrec. woptrec. woptrec. woptrec. woptrec. woptrec. woptrec. woptrec. woptrec. woptrec. woptrec. woptrec. apply wapp_wskip.
Qed.
Lemma GDCabinet_term : Forall ArmTerm GDCabinet_arms.
Proof.
  unfold GDCabinet_arms, GDCabinet_own_arms. item_term.
Qed.
Lemma GDCabinet_yields : Forall (ArmYields (fun v => GDCabinet_ok v = true)) GDCabinet_arms.
Proof.
  unfold GDCabinet_arms, GDCabinet_own_arms.
  item_yields GDCabinet_ok.
Qed.
Lemma GDCabinet_tags v : forallb (fun r => tag_known GDCabinet_arms (rec_tag r)) (GDCabinet_recs v) = true.
Proof. unfold GDCabinet_recs. tags_in. Qed.

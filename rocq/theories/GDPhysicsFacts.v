(** Generated by tools/gen_structs.py: what [GDPhysics_write] produces and what [GDPhysics_arms] makes of it. *)
From Verif Require Import Base Text Biff Quantize Common Enums ItemBase GDPhysics.
From Verif Require Import BaseFacts TextFacts BiffFacts CommonFacts TermFacts QuantizeFacts EnumsFacts ItemBaseFacts StructBaseFacts.

(** The records that are written, in order. *)
Definition GDPhysics_recs (v : GDPhysics) : list rec :=
  R "ORRP" (w32_bytes (GDPhysics_override_physics v)) ::
  orec (GDPhysics_override_physics_flipper v) (fun x => R "ORPF" (bool_bytes x)) ++
  R "GAVT" (w32_bytes (GDPhysics_gravity v)) ::
  R "FRCT" (w32_bytes (GDPhysics_friction v)) ::
  R "ELAS" (w32_bytes (GDPhysics_elasticity v)) ::
  R "ELFA" (w32_bytes (GDPhysics_elastic_falloff v)) ::
  R "PFSC" (w32_bytes (GDPhysics_scatter v)) ::
  R "SCAT" (w32_bytes (GDPhysics_default_scatter v)) ::
  R "NDGT" (w32_bytes (GDPhysics_nudge_time v)) ::
  orec (GDPhysics_plunger_normalize v) (fun x => R "MPGC" (w32_bytes x)) ++
  orec (GDPhysics_plunger_filter v) (fun x => R "MPDF" (bool_bytes x)) ++
  R "PHML" (w32_bytes (GDPhysics_physics_max_loops v)) ::
  R "REEL" (bool_bytes (GDPhysics_render_em_reels v)) ::
  R "DECL" (bool_bytes (GDPhysics_render_decals v)) ::
  R "OFFX" (w32_bytes (GDPhysics_offset_x v)) ::
  R "OFFY" (w32_bytes (GDPhysics_offset_y v)) ::
  R "ZOOM" (w32_bytes (GDPhysics_zoom v)) ::
  R "SLPX" (w32_bytes (GDPhysics_angle_tilt_max v)) ::
  R "SLOP" (w32_bytes (GDPhysics_angle_tilt_min v)) ::
  orec (GDPhysics_stereo_max_separation v) (fun x => R "MAXS" (w32_bytes x)) ++
  orec (GDPhysics_stereo_zero_parallax_displacement v) (fun x => R "ZPD" (w32_bytes x)) ++
  orec (GDPhysics_stereo_offset v) (fun x => R "STO" (w32_bytes x)) ++
  orec (GDPhysics_overwrite_global_stereo3d v) (fun x => R "OGST" (bool_bytes x)) ++
  R "IMAG" (string_bytes (GDPhysics_image v)) ::
  R "BIMG" (string_bytes (GDPhysics_backglass_image_full_desktop v)) ::
  R "BIMF" (string_bytes (GDPhysics_backglass_image_full_fullscreen v)) ::
  orec (GDPhysics_backglass_image_full_single_screen v) (fun x => R "BIMS" (string_bytes x)) ++
  R "BIMN" (bool_bytes (GDPhysics_image_backdrop_night_day v)) ::
  R "IMCG" (string_bytes (GDPhysics_image_color_grade v)) ::
  R "BLIM" (string_bytes (GDPhysics_ball_image v)) ::
  orec (GDPhysics_ball_spherical_mapping v) (fun x => R "BLSM" (bool_bytes x)) ++
  R "BLIF" (string_bytes (GDPhysics_ball_image_front v)) ::
  orec (GDPhysics_env_image v) (fun x => R "EIMG" (string_bytes x)) ++
  orec (GDPhysics_notes v) (fun x => R "NOTX" (string_bytes x)) ++
  R "SSHT" (string_bytes (GDPhysics_screen_shot v)) ::
  R "FBCK" (bool_bytes (GDPhysics_display_backdrop v)) ::
  [].
(** The values that can be stored: see the components. *)
Definition GDPhysics_ok (v : GDPhysics) : bool :=
  str_ok (GDPhysics_image v) && str_ok (GDPhysics_backglass_image_full_desktop v) && str_ok (GDPhysics_backglass_image_full_fullscreen v) && opt_ok str_ok (GDPhysics_backglass_image_full_single_screen v) && str_ok (GDPhysics_image_color_grade v) && str_ok (GDPhysics_ball_image v) && str_ok (GDPhysics_ball_image_front v) && opt_ok str_ok (GDPhysics_env_image v) && opt_ok str_ok (GDPhysics_notes v) && str_ok (GDPhysics_screen_shot v).
Lemma GDPhysics_steps v : GDPhysics_ok v = true -> Steps (dispatch GDPhysics_arms) GDPhysics_default (GDPhysics_recs v) v.
Proof.
  intros H. unfold GDPhysics_ok in H. split_ok H. eapply Steps_eq.
  - unfold GDPhysics_recs.
    srec. sopt set_GDPhysics_override_physics_flipper GDPhysics_override_physics_flipper. srec. srec. srec. srec. srec. srec. srec. sopt set_GDPhysics_plunger_normalize GDPhysics_plunger_normalize. sopt set_GDPhysics_plunger_filter GDPhysics_plunger_filter. srec. srec. srec. srec. srec. srec. srec. srec. sopt set_GDPhysics_stereo_max_separation GDPhysics_stereo_max_separation. sopt set_GDPhysics_stereo_zero_parallax_displacement GDPhysics_stereo_zero_parallax_displacement. sopt set_GDPhysics_stereo_offset GDPhysics_stereo_offset. sopt set_GDPhysics_overwrite_global_stereo3d GDPhysics_overwrite_global_stereo3d. srec. srec. srec. sopt set_GDPhysics_backglass_image_full_single_screen GDPhysics_backglass_image_full_single_screen. srec. srec. srec. sopt set_GDPhysics_ball_spherical_mapping GDPhysics_ball_spherical_mapping. srec. sopt set_GDPhysics_env_image GDPhysics_env_image. sopt set_GDPhysics_notes GDPhysics_notes. srec. srec.
    constructor.
  - destruct v. vm_compute. reflexivity.
Qed.
Lemma GDPhysics_wapp v : GDPhysics_ok v = true -> wapp (GDPhysics_write v) (enc (GDPhysics_recs v)).
Proof.
  intros H. unfold GDPhysics_ok in H. split_ok H. unfold GDPhysics_write, GDPhysics_recs. recs_norm.
  wrec. woptrec. wrec. wrec. wrec. wrec. wrec. wrec. wrec. woptrec. woptrec. wrec. wrec. wrec. wrec. wrec. wrec. wrec. wrec. woptrec. woptrec. woptrec. woptrec. wrec. wrec. wrec. woptrec. wrec. wrec. wrec. woptrec. wrec. woptrec. woptrec. wrec. wrec. apply wapp_wskip.
Qed.
Lemma GDPhysics_term : Forall ArmTerm GDPhysics_arms.
Proof.
  unfold GDPhysics_arms, GDPhysics_own_arms. item_term.
Qed.
Lemma GDPhysics_yields : Forall (ArmYields (fun v => GDPhysics_ok v = true)) GDPhysics_arms.
Proof.
  unfold GDPhysics_arms, GDPhysics_own_arms.
  item_yields GDPhysics_ok.
Qed.
Lemma GDPhysics_tags v : forallb (fun r => tag_known GDPhysics_arms (rec_tag r)) (GDPhysics_recs v) = true.
Proof. unfold GDPhysics_recs. tags_in. Qed.

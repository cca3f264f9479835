(** Generated by tools/gen_structs.py: what [GDScene_write] produces and what [GDScene_arms] makes of it. *)
From Verif Require Import Base Text Biff Quantize Common Enums ItemBase GDScene.
From Verif Require Import BaseFacts TextFacts BiffFacts CommonFacts TermFacts QuantizeFacts EnumsFacts ItemBaseFacts StructBaseFacts.

(** The records that are written, in order. *)
Definition GDScene_recs (v : GDScene) : list rec :=
  R "GLAS" (w32_bytes (GDScene_glass_top_height v)) ::
  orec (GDScene_glass_bottom_height v) (fun x => R "GLAB" (w32_bytes x)) ++
  orec (GDScene_table_height v) (fun x => R "TBLH" (w32_bytes x)) ++
  R "PLMA" (string_bytes (GDScene_playfield_material v)) ::
  R "BCLR" (color_bytes (GDScene_backdrop_color v)) ::
  R "TDFT" (w32_bytes (GDScene_global_difficulty v)) ::
  R "LZAM" (color_bytes (GDScene_light_ambient v)) ::
  R "LZDI" (color_bytes (GDScene_light0_emission v)) ::
  R "LZHI" (w32_bytes (GDScene_light_height v)) ::
  R "LZRA" (w32_bytes (GDScene_light_range v)) ::
  R "LIES" (w32_bytes (GDScene_light_emission_scale v)) ::
  R "ENES" (w32_bytes (GDScene_env_emission_scale v)) ::
  R "GLES" (w32_bytes (GDScene_global_emission_scale v)) ::
  R "AOSC" (w32_bytes (GDScene_ao_scale v)) ::
  orec (GDScene_ssr_scale v) (fun x => R "SSSC" (w32_bytes x)) ++
  orec (GDScene_ground_to_lockbar_height v) (fun x => R "CLBH" (w32_bytes x)) ++
  R "SVOL" (w32_bytes (GDScene_table_sound_volume v)) ::
  R "MVOL" (w32_bytes (GDScene_table_music_volume v)) ::
  orec (GDScene_table_adaptive_vsync v) (fun x => R "AVSY" (w32_bytes x)) ++
  orec (GDScene_use_reflection_for_balls v) (fun x => R "BREF" (w32_bytes x)) ++
  orec (GDScene_brst v) (fun x => R "BRST" (w32_bytes x)) ++
  R "PLST" (dili_bytes (GDScene_playfield_reflection_strength v)) ::
  orec (GDScene_use_trail_for_balls v) (fun x => R "BTRA" (w32_bytes x)) ++
  R "BDMO" (bool_bytes (GDScene_ball_decal_mode v)) ::
  orec (GDScene_ball_playfield_reflection_strength v) (fun x => R "BPRS" (w32_bytes x)) ++
  orec (GDScene_default_bulb_intensity_scale_on_ball v) (fun x => R "DBIS" (w32_bytes x)) ++
  orec (GDScene_ball_trail_strength v) (fun x => R "BTST" (w32_bytes x)) ++
  orec (GDScene_user_detail_level v) (fun x => R "ARAC" (w32_bytes x)) ++
  orec (GDScene_overwrite_global_detail_level v) (fun x => R "OGAC" (bool_bytes x)) ++
  orec (GDScene_overwrite_global_day_night v) (fun x => R "OGDN" (bool_bytes x)) ++
  R "GDAC" (bool_bytes (GDScene_show_grid v)) ::
  orec (GDScene_reflect_elements_on_playfield v) (fun x => R "REOP" (bool_bytes x)) ++
  orec (GDScene_use_aal v) (fun x => R "UAAL" (w32_bytes x)) ++
  orec (GDScene_use_fxaa v) (fun x => R "UFXA" (w32_bytes x)) ++
  orec (GDScene_use_ao v) (fun x => R "UAOC" (w32_bytes x)) ++
  orec (GDScene_use_ssr v) (fun x => R "USSR" (w32_bytes x)) ++
  orec (GDScene_tone_mapper v) (fun x => R "TMAP" (w32_bytes (ToneMapper_to_u32 x))) ++
  orec (GDScene_exposure v) (fun x => R "EXPO" (w32_bytes x)) ++
  R "BLST" (w32_bytes (GDScene_bloom_strength v)) ::
  [].
(** The values that can be stored: see the components. *)
Definition GDScene_ok (v : GDScene) : bool :=
  str_ok (GDScene_playfield_material v) && dili_ok (GDScene_playfield_reflection_strength v) && opt_ok ToneMapper_ok (GDScene_tone_mapper v).
Lemma GDScene_steps v : GDScene_ok v = true -> Steps (dispatch GDScene_arms) GDScene_default (GDScene_recs v) v.
Proof.
  intros H. unfold GDScene_ok in H. split_ok H. eapply Steps_eq.
  - unfold GDScene_recs.
    srec. sopt set_GDScene_glass_bottom_height GDScene_glass_bottom_height. sopt set_GDScene_table_height GDScene_table_height. srec. srec. srec. srec. srec. srec. srec. srec. srec. srec. srec. sopt set_GDScene_ssr_scale GDScene_ssr_scale. sopt set_GDScene_ground_to_lockbar_height GDScene_ground_to_lockbar_height. srec. srec. sopt set_GDScene_table_adaptive_vsync GDScene_table_adaptive_vsync. sopt set_GDScene_use_reflection_for_balls GDScene_use_reflection_for_balls. sopt set_GDScene_brst GDScene_brst. srec. sopt set_GDScene_use_trail_for_balls GDScene_use_trail_for_balls. srec. sopt set_GDScene_ball_playfield_reflection_strength GDScene_ball_playfield_reflection_strength. sopt set_GDScene_default_bulb_intensity_scale_on_ball GDScene_default_bulb_intensity_scale_on_ball. sopt set_GDScene_ball_trail_strength GDScene_ball_trail_strength. sopt set_GDScene_user_detail_level GDScene_user_detail_level. sopt set_GDScene_overwrite_global_detail_level GDScene_overwrite_global_detail_level. sopt set_GDScene_overwrite_global_day_night GDScene_overwrite_global_day_night. srec. sopt set_GDScene_reflect_elements_on_playfield GDScene_reflect_elements_on_playfield. sopt set_GDScene_use_aal GDScene_use_aal. sopt set_GDScene_use_fxaa GDScene_use_fxaa. sopt set_GDScene_use_ao GDScene_use_ao. sopt set_GDScene_use_ssr GDScene_use_ssr. sopt_enum set_GDScene_tone_mapper GDScene_tone_mapper ToneMapper_roundtrip. sopt set_GDScene_exposure GDScene_exposure. srec.
    constructor.
  - destruct v. vm_compute. reflexivity.
Qed.
Lemma GDScene_wapp v : GDScene_ok v = true -> wapp (GDScene_write v) (enc (GDScene_recs v)).
Proof.
  intros H. unfold GDScene_ok in H. split_ok H. unfold GDScene_write, GDScene_recs. recs_norm.
  wrec. woptrec. woptrec. wrec. wrec. wrec. wrec. wrec. wrec. wrec. wrec. wrec. wrec. wrec. woptrec. woptrec. wrec. wrec. woptrec. woptrec. woptrec. wrec. woptrec. wrec. woptrec. woptrec. woptrec. woptrec. woptrec. woptrec. wrec. woptrec. woptrec. woptrec. woptrec. woptrec. woptrec. woptrec. wrec. apply wapp_wskip.
Qed.
Lemma GDScene_term : Forall ArmTerm GDScene_arms.
Proof.
  unfold GDScene_arms, GDScene_own_arms. item_term.
Qed.
Lemma GDScene_yields : Forall (ArmYields (fun v => GDScene_ok v = true)) GDScene_arms.
Proof.
  unfold GDScene_arms, GDScene_own_arms.
  item_yields GDScene_ok.
Qed.
Lemma GDScene_tags v : forallb (fun r => tag_known GDScene_arms (rec_tag r)) (GDScene_recs v) = true.
Proof. unfold GDScene_recs. tags_in. Qed.

(** Generated by tools/gen_items.py: what [Ball_write] produces and what [Ball_read] makes of it. *)
From Verif Require Import Base Text Biff Quantize Common Enums ItemBase ItemBall.
From Verif Require Import BaseFacts TextFacts BiffFacts CommonFacts TermFacts QuantizeFacts EnumsFacts ItemBaseFacts.

(** The records that are written, in order. *)
Definition Ball_recs (v : Ball) : list rec :=
  R "VCEN" (v3u_bytes (Ball_pos v)) ::
  R "RADI" (w32_bytes (Ball_radius v)) ::
  R "MASS" (w32_bytes (Ball_mass v)) ::
  R "FREF" (bool_bytes (Ball_force_reflection v)) ::
  R "DCMD" (bool_bytes (Ball_decal_mode v)) ::
  R "IMAG" (string_bytes (Ball_image v)) ::
  R "DIMG" (string_bytes (Ball_image_decal v)) ::
  R "BISC" (w32_bytes (Ball_bulb_intensity_scale v)) ::
  R "PFRF" (w32_bytes (Ball_playfield_reflection_strength v)) ::
  R "COLR" (color_bytes (Ball_color v)) ::
  R "SPHR" (bool_bytes (Ball_spherical_mapping v)) ::
  R "REEN" (bool_bytes (Ball_is_reflection_enabled v)) ::
  R "TMON" (bool_bytes (td_is_enabled (Ball_timer v))) ::
  R "TMIN" (w32_bytes (td_interval (Ball_timer v))) ::
  R "NAME" (wstring_bytes (Ball_name v)) ::
  R "LOCK" (bool_bytes (Ball_is_locked v)) ::
  orec (Ball_editor_layer v) (fun x => R "LAYR" (w32_bytes x)) ++
  orec (Ball_editor_layer_name v) (fun x => R "LANR" (string_bytes x)) ++
  orec (Ball_part_group_name v) (fun x => R "GRUP" (string_bytes x)) ++
  orec (Ball_editor_layer_visibility v) (fun x => R "LVIS" (bool_bytes x)) ++
  [].
(** The values that can be stored: see the components. *)
Definition Ball_ok (v : Ball) : bool :=
  str_ok (Ball_image v) && str_ok (Ball_image_decal v) && wstr_ok (Ball_name v) && opt_ok str_ok (Ball_editor_layer_name v) && opt_ok str_ok (Ball_part_group_name v).
Lemma Ball_steps v : Ball_ok v = true -> Steps (dispatch Ball_arms) Ball_init (Ball_recs v) v.
Proof.
  intros H. unfold Ball_ok in H. split_ok H. eapply Steps_eq.
  - unfold Ball_recs.
    srec. srec. srec. srec. srec. srec. srec. srec. srec. srec. srec. srec. stimer Ball_timer set_Ball_timer. stimer Ball_timer set_Ball_timer. srec. srec. sopt set_Ball_editor_layer Ball_editor_layer. sopt set_Ball_editor_layer_name Ball_editor_layer_name. sopt set_Ball_part_group_name Ball_part_group_name. sopt set_Ball_editor_layer_visibility Ball_editor_layer_visibility.
    constructor.
  - destruct v as [? ? ? ? ? ? ? ? ? ? ? ? ? ? ? ? ? ? ?]. vm_compute. repeat match goal with t : TimerData |- _ => destruct t end. reflexivity.
Qed.
Lemma Ball_wapp v : Ball_ok v = true -> wapp (Ball_write v) (enc (Ball_recs v ++ [endb])).
Proof.
  intros H. unfold Ball_ok in H. split_ok H. unfold Ball_write, Ball_recs. recs_norm.
  wrec. wrec. wrec. wrec. wrec. wrec. wrec. wrec. wrec. wrec. wrec. wrec. wtimer. wrec. wshared Ball_shared. apply wapp_close.
Qed.
Lemma Ball_roundtrip v : Ball_ok v = true ->
  exists b, run_writer (Ball_write v) = Ok b /\ reads_as Ball_read b v.
Proof. intros H. exact (item_roundtrip Ball_write Ball_arms Ball_init Ball_recs v (Ball_wapp v H) ltac:(unfold Ball_write; closes) (Ball_steps v H)). Qed.
Lemma Ball_term : Term Ball_read.
Proof.
  apply Term_read_arms. unfold Ball_arms, Ball_own_arms, shared_arms. item_term.
Qed.
Lemma Ball_yields : Yields Ball_read (fun v => Ball_ok v = true).
Proof.
  apply Yields_read_arms; [|reflexivity]. unfold Ball_arms, Ball_own_arms, shared_arms.
  item_yields Ball_ok.
Qed.

(** Generated by tools/gen_items.py: what [Reel_write] produces and what [Reel_read] makes of it. *)
From Verif Require Import Base Text Biff Quantize Common Enums ItemBase ItemReel.
From Verif Require Import BaseFacts TextFacts BiffFacts CommonFacts TermFacts QuantizeFacts EnumsFacts ItemBaseFacts.

(** The records that are written, in order. *)
Definition Reel_recs (v : Reel) : list rec :=
  R "VER1" (v2_bytes (Reel_ver1 v)) ::
  R "VER2" (v2_bytes (Reel_ver2 v)) ::
  R "CLRB" (color_bytes (Reel_back_color v)) ::
  R "TMON" (bool_bytes (td_is_enabled (Reel_timer v))) ::
  R "TMIN" (w32_bytes (td_interval (Reel_timer v))) ::
  R "TRNS" (bool_bytes (Reel_is_transparent v)) ::
  R "IMAG" (string_bytes (Reel_image v)) ::
  R "SOUN" (string_bytes (Reel_sound v)) ::
  R "NAME" (wstring_bytes (Reel_name v)) ::
  R "WDTH" (w32_bytes (Reel_width v)) ::
  R "HIGH" (w32_bytes (Reel_height v)) ::
  R "RCNT" (w32_bytes (Reel_reel_count v)) ::
  R "RSPC" (w32_bytes (Reel_reel_spacing v)) ::
  R "MSTP" (w32_bytes (Reel_motor_steps v)) ::
  R "RANG" (w32_bytes (Reel_digit_range v)) ::
  R "UPTM" (w32_bytes (Reel_update_interval v)) ::
  R "UGRD" (bool_bytes (Reel_use_image_grid v)) ::
  R "VISI" (bool_bytes (Reel_is_visible v)) ::
  R "GIPR" (w32_bytes (Reel_images_per_grid_row v)) ::
  R "LOCK" (bool_bytes (Reel_is_locked v)) ::
  orec (Reel_editor_layer v) (fun x => R "LAYR" (w32_bytes x)) ++
  orec (Reel_editor_layer_name v) (fun x => R "LANR" (string_bytes x)) ++
  orec (Reel_part_group_name v) (fun x => R "GRUP" (string_bytes x)) ++
  orec (Reel_editor_layer_visibility v) (fun x => R "LVIS" (bool_bytes x)) ++
  [].
(** The values that can be stored: see the components. *)
Definition Reel_ok (v : Reel) : bool :=
  str_ok (Reel_image v) && str_ok (Reel_sound v) && wstr_ok (Reel_name v) && opt_ok str_ok (Reel_editor_layer_name v) && opt_ok str_ok (Reel_part_group_name v).
Lemma Reel_steps v : Reel_ok v = true -> Steps (dispatch Reel_arms) Reel_init (Reel_recs v) v.
Proof.
  intros H. unfold Reel_ok in H. split_ok H. eapply Steps_eq.
  - unfold Reel_recs.
    srec. srec. srec. stimer Reel_timer set_Reel_timer. stimer Reel_timer set_Reel_timer. srec. srec. srec. srec. srec. srec. srec. srec. srec. srec. srec. srec. srec. srec. srec. sopt set_Reel_editor_layer Reel_editor_layer. sopt set_Reel_editor_layer_name Reel_editor_layer_name. sopt set_Reel_part_group_name Reel_part_group_name. sopt set_Reel_editor_layer_visibility Reel_editor_layer_visibility.
    constructor.
  - destruct v as [? ? ? ? ? ? ? ? ? ? ? ? ? ? ? ? ? ? ? ? ? ? ?]. vm_compute. repeat match goal with t : TimerData |- _ => destruct t end. reflexivity.
Qed.
Lemma Reel_wapp v : Reel_ok v = true -> wapp (Reel_write v) (enc (Reel_recs v ++ [endb])).
Proof.
  intros H. unfold Reel_ok in H. split_ok H. unfold Reel_write, Reel_recs. recs_norm.
  wrec. wrec. wrec. wtimer. wrec. wrec. wrec. wrec. wrec. wrec. wrec. wrec. wrec. wrec. wrec. wrec. wrec. wrec. wshared Reel_shared. apply wapp_close.
Qed.
Lemma Reel_roundtrip v : Reel_ok v = true ->
  exists b, run_writer (Reel_write v) = Ok b /\ reads_as Reel_read b v.
Proof. intros H. exact (item_roundtrip Reel_write Reel_arms Reel_init Reel_recs v (Reel_wapp v H) ltac:(unfold Reel_write; closes) (Reel_steps v H)). Qed.
Lemma Reel_term : Term Reel_read.
Proof.
  apply Term_read_arms. unfold Reel_arms, Reel_own_arms, shared_arms. item_term.
Qed.
Lemma Reel_yields : Yields Reel_read (fun v => Reel_ok v = true).
Proof.
  apply Yields_read_arms; [|reflexivity]. unfold Reel_arms, Reel_own_arms, shared_arms.
  item_yields Reel_ok.
Qed.

(** Generated by tools/gen_items.py: what [TextBox_write] produces and what [TextBox_read] makes of it. *)
From Verif Require Import Base Text Biff Quantize Common Enums ItemBase ItemTextBox.
From Verif Require Import BaseFacts TextFacts BiffFacts CommonFacts TermFacts QuantizeFacts EnumsFacts ItemBaseFacts.

(** The records that are written, in order. *)
Definition TextBox_recs (v : TextBox) : list rec :=
  R "VER1" (v2_bytes (TextBox_ver1 v)) ::
  R "VER2" (v2_bytes (TextBox_ver2 v)) ::
  R "CLRB" (color_bytes (TextBox_back_color v)) ::
  R "CLRF" (color_bytes (TextBox_font_color v)) ::
  R "INSC" (w32_bytes (TextBox_intensity_scale v)) ::
  R "TEXT" (string_bytes (TextBox_text v)) ::
  R "TMON" (bool_bytes (td_is_enabled (TextBox_timer v))) ::
  R "TMIN" (w32_bytes (td_interval (TextBox_timer v))) ::
  R "NAME" (wstring_bytes (TextBox_name v)) ::
  R "ALGN" (w32_bytes (TextAlignment_to_u32 (TextBox_align v))) ::
  R "TRNS" (bool_bytes (TextBox_is_transparent v)) ::
  orec (TextBox_is_dmd v) (fun x => R "IDMD" (bool_bytes x)) ++
  R "LOCK" (bool_bytes (TextBox_is_locked v)) ::
  orec (TextBox_editor_layer v) (fun x => R "LAYR" (w32_bytes x)) ++
  orec (TextBox_editor_layer_name v) (fun x => R "LANR" (string_bytes x)) ++
  orec (TextBox_part_group_name v) (fun x => R "GRUP" (string_bytes x)) ++
  orec (TextBox_editor_layer_visibility v) (fun x => R "LVIS" (bool_bytes x)) ++
  R0 "FONT" (FontDesc_bytes (TextBox_font v)) ::
  [].
(** The values that can be stored: see the components. *)
Definition TextBox_ok (v : TextBox) : bool :=
  str_ok (TextBox_text v) && wstr_ok (TextBox_name v) && opt_ok str_ok (TextBox_editor_layer_name v) && opt_ok str_ok (TextBox_part_group_name v) && FontDesc_ok (TextBox_font v).
Lemma TextBox_steps v : TextBox_ok v = true -> Steps (dispatch TextBox_arms) TextBox_init (TextBox_recs v) v.
Proof.
  intros H. unfold TextBox_ok in H. split_ok H. eapply Steps_eq.
  - unfold TextBox_recs.
    srec. srec. srec. srec. srec. srec. stimer TextBox_timer set_TextBox_timer. stimer TextBox_timer set_TextBox_timer. srec. srec_enum TextAlignment_roundtrip. srec. sopt set_TextBox_is_dmd TextBox_is_dmd. srec. sopt set_TextBox_editor_layer TextBox_editor_layer. sopt set_TextBox_editor_layer_name TextBox_editor_layer_name. sopt set_TextBox_part_group_name TextBox_part_group_name. sopt set_TextBox_editor_layer_visibility TextBox_editor_layer_visibility. srec_font.
    constructor.
  - destruct v as [? ? ? ? ? ? ? ? ? ? ? ? ? ? ? ? ?]. vm_compute. repeat match goal with t : TimerData |- _ => destruct t end. reflexivity.
Qed.
Lemma TextBox_wapp v : TextBox_ok v = true -> wapp (TextBox_write v) (enc (TextBox_recs v ++ [endb])).
Proof.
  intros H. unfold TextBox_ok in H. split_ok H. unfold TextBox_write, TextBox_recs. recs_norm.
  wrec. wrec. wrec. wrec. wrec. wrec. wtimer. wrec. wrec. wrec. woptrec. wshared TextBox_shared. wrec_font. apply wapp_close.
Qed.
Lemma TextBox_roundtrip v : TextBox_ok v = true ->
  exists b, run_writer (TextBox_write v) = Ok b /\ reads_as TextBox_read b v.
Proof. intros H. exact (item_roundtrip TextBox_write TextBox_arms TextBox_init TextBox_recs v (TextBox_wapp v H) ltac:(unfold TextBox_write; closes) (TextBox_steps v H)). Qed.
Lemma TextBox_term : Term TextBox_read.
Proof.
  apply Term_read_arms. unfold TextBox_arms, TextBox_own_arms, shared_arms. item_term.
Qed.
Lemma TextBox_yields : Yields TextBox_read (fun v => TextBox_ok v = true).
Proof.
  apply Yields_read_arms; [|reflexivity]. unfold TextBox_arms, TextBox_own_arms, shared_arms.
  item_yields TextBox_ok.
Qed.

(** Generated by tools/gen_items.py: what [LightSequencer_write] produces and what [LightSequencer_read] makes of it. *)
From Verif Require Import Base Text Biff Quantize Common Enums ItemBase ItemLightSequencer.
From Verif Require Import BaseFacts TextFacts BiffFacts CommonFacts TermFacts QuantizeFacts EnumsFacts ItemBaseFacts.

(** The records that are written, in order. *)
Definition LightSequencer_recs (v : LightSequencer) : list rec :=
  R "VCEN" (v2_bytes (LightSequencer_center v)) ::
  R "COLC" (wstring_bytes (LightSequencer_collection v)) ::
  R "CTRX" (w32_bytes (LightSequencer_pos_x v)) ::
  R "CTRY" (w32_bytes (LightSequencer_pos_y v)) ::
  R "UPTM" (w32_bytes (LightSequencer_update_interval v)) ::
  R "TMON" (bool_bytes (td_is_enabled (LightSequencer_timer v))) ::
  R "TMIN" (w32_bytes (td_interval (LightSequencer_timer v))) ::
  R "NAME" (wstring_bytes (LightSequencer_name v)) ::
  R "BGLS" (bool_bytes (LightSequencer_backglass v)) ::
  orec (LightSequencer_is_locked v) (fun x => R "LOCK" (bool_bytes x)) ++
  orec (LightSequencer_part_group_name v) (fun x => R "GRUP" (string_bytes x)) ++
  orec (LightSequencer_editor_layer v) (fun x => R "LAYR" (w32_bytes x)) ++
  orec (LightSequencer_editor_layer_name v) (fun x => R "LANR" (string_bytes x)) ++
  orec (LightSequencer_editor_layer_visibility v) (fun x => R "LVIS" (bool_bytes x)) ++
  [].
(** The values that can be stored: see the components. *)
Definition LightSequencer_ok (v : LightSequencer) : bool :=
  wstr_ok (LightSequencer_collection v) && wstr_ok (LightSequencer_name v) && opt_ok str_ok (LightSequencer_part_group_name v) && opt_ok str_ok (LightSequencer_editor_layer_name v).
Lemma LightSequencer_steps v : LightSequencer_ok v = true -> Steps (dispatch LightSequencer_arms) LightSequencer_init (LightSequencer_recs v) v.
Proof.
  intros H. unfold LightSequencer_ok in H. split_ok H. eapply Steps_eq.
  - unfold LightSequencer_recs.
    srec. srec. srec. srec. srec. stimer LightSequencer_timer set_LightSequencer_timer. stimer LightSequencer_timer set_LightSequencer_timer. srec. srec. sopt set_LightSequencer_is_locked LightSequencer_is_locked. sopt set_LightSequencer_part_group_name LightSequencer_part_group_name. sopt set_LightSequencer_editor_layer LightSequencer_editor_layer. sopt set_LightSequencer_editor_layer_name LightSequencer_editor_layer_name. sopt set_LightSequencer_editor_layer_visibility LightSequencer_editor_layer_visibility.
    constructor.
  - destruct v as [? ? ? ? ? ? ? ? ? ? ? ? ?]. vm_compute. repeat match goal with t : TimerData |- _ => destruct t end. reflexivity.
Qed.
Lemma LightSequencer_wapp v : LightSequencer_ok v = true -> wapp (LightSequencer_write v) (enc (LightSequencer_recs v ++ [endb])).
Proof.
  intros H. unfold LightSequencer_ok in H. split_ok H. unfold LightSequencer_write, LightSequencer_recs. recs_norm.
  wrec. wrec. wrec. wrec. wrec. wtimer. wrec. wrec. woptrec. woptrec. woptrec. woptrec. woptrec. apply wapp_close.
Qed.
Lemma LightSequencer_roundtrip v : LightSequencer_ok v = true ->
  exists b, run_writer (LightSequencer_write v) = Ok b /\ reads_as LightSequencer_read b v.
Proof. intros H. exact (item_roundtrip LightSequencer_write LightSequencer_arms LightSequencer_init LightSequencer_recs v (LightSequencer_wapp v H) ltac:(unfold LightSequencer_write; closes) (LightSequencer_steps v H)). Qed.
Lemma LightSequencer_term : Term LightSequencer_read.
Proof.
  apply Term_read_arms. unfold LightSequencer_arms, LightSequencer_own_arms. item_term.
Qed.
Lemma LightSequencer_yields : Yields LightSequencer_read (fun v => LightSequencer_ok v = true).
Proof.
  apply Yields_read_arms; [|reflexivity]. unfold LightSequencer_arms, LightSequencer_own_arms.
  item_yields LightSequencer_ok.
Qed.

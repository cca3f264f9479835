(** Generated by tools/gen_items.py: what [Timer_write] produces and what [Timer_read] makes of it. *)
From Verif Require Import Base Text Biff Quantize Common Enums ItemBase ItemTimer.
From Verif Require Import BaseFacts TextFacts BiffFacts CommonFacts TermFacts QuantizeFacts EnumsFacts ItemBaseFacts.

(** The records that are written, in order. *)
Definition Timer_recs (v : Timer) : list rec :=
  R "VCEN" (v2_bytes (Timer_center v)) ::
  R "TMON" (bool_bytes (td_is_enabled (Timer_timer v))) ::
  R "TMIN" (w32_bytes (td_interval (Timer_timer v))) ::
  R "NAME" (wstring_bytes (Timer_name v)) ::
  R "BGLS" (bool_bytes (Timer_backglass v)) ::
  R "LOCK" (bool_bytes (Timer_is_locked v)) ::
  orec (Timer_editor_layer v) (fun x => R "LAYR" (w32_bytes x)) ++
  orec (Timer_editor_layer_name v) (fun x => R "LANR" (string_bytes x)) ++
  orec (Timer_part_group_name v) (fun x => R "GRUP" (string_bytes x)) ++
  orec (Timer_editor_layer_visibility v) (fun x => R "LVIS" (bool_bytes x)) ++
  [].
(** The values that can be stored: see the components. *)
Definition Timer_ok (v : Timer) : bool :=
  wstr_ok (Timer_name v) && opt_ok str_ok (Timer_editor_layer_name v) && opt_ok str_ok (Timer_part_group_name v).
Lemma Timer_steps v : Timer_ok v = true -> Steps (dispatch Timer_arms) Timer_init (Timer_recs v) v.
Proof.
  intros H. unfold Timer_ok in H. split_ok H. eapply Steps_eq.
  - unfold Timer_recs.
    srec. stimer Timer_timer set_Timer_timer. stimer Timer_timer set_Timer_timer. srec. srec. srec. sopt set_Timer_editor_layer Timer_editor_layer. sopt set_Timer_editor_layer_name Timer_editor_layer_name. sopt set_Timer_part_group_name Timer_part_group_name. sopt set_Timer_editor_layer_visibility Timer_editor_layer_visibility.
    constructor.
  - destruct v as [? ? ? ? ? ? ? ? ?]. vm_compute. repeat match goal with t : TimerData |- _ => destruct t end. reflexivity.
Qed.
Lemma Timer_wapp v : Timer_ok v = true -> wapp (Timer_write v) (enc (Timer_recs v ++ [endb])).
Proof.
  intros H. unfold Timer_ok in H. split_ok H. unfold Timer_write, Timer_recs. recs_norm.
  wrec. wtimer. wrec. wrec. wshared Timer_shared. apply wapp_close.
Qed.
Lemma Timer_roundtrip v : Timer_ok v = true ->
  exists b, run_writer (Timer_write v) = Ok b /\ reads_as Timer_read b v.
Proof. intros H. exact (item_roundtrip Timer_write Timer_arms Timer_init Timer_recs v (Timer_wapp v H) ltac:(unfold Timer_write; closes) (Timer_steps v H)). Qed.
Lemma Timer_term : Term Timer_read.
Proof.
  apply Term_read_arms. unfold Timer_arms, Timer_own_arms, shared_arms. item_term.
Qed.
Lemma Timer_yields : Yields Timer_read (fun v => Timer_ok v = true).
Proof.
  apply Yields_read_arms; [|reflexivity]. unfold Timer_arms, Timer_own_arms, shared_arms.
  item_yields Timer_ok.
Qed.

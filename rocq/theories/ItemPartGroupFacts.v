(** Generated by tools/gen_items.py: what [PartGroup_write] produces and what [PartGroup_read] makes of it. *)
From Verif Require Import Base Text Biff Quantize Common Enums ItemBase ItemPartGroup.
From Verif Require Import BaseFacts TextFacts BiffFacts CommonFacts TermFacts QuantizeFacts EnumsFacts ItemBaseFacts.

(** The records that are written, in order. *)
Definition PartGroup_recs (v : PartGroup) : list rec :=
  R "NAME" (wstring_bytes (PartGroup_name v)) ::
  R "VCEN" (v2_bytes (PartGroup_center v)) ::
  R "TMON" (bool_bytes (td_is_enabled (PartGroup_timer v))) ::
  R "TMIN" (w32_bytes (td_interval (PartGroup_timer v))) ::
  R "BGLS" (bool_bytes (PartGroup_backglass v)) ::
  orec (PartGroup_visibility_mask v) (fun x => R "VMSK" (w32_bytes x)) ++
  orec (PartGroup_player_mode_visibility_mask v) (fun x => R "PMSK" (w32_bytes x)) ++
  R "SPRF" (w32_bytes (SpaceReference_to_u32 (PartGroup_space_reference v))) ::
  R "LOCK" (bool_bytes (PartGroup_is_locked v)) ::
  orec (PartGroup_editor_layer_visibility v) (fun x => R "LVIS" (bool_bytes x)) ++
  orec (PartGroup_editor_layer_name v) (fun x => R "LANR" (string_bytes x)) ++
  [].
(** The values that can be stored: see the components. *)
Definition PartGroup_ok (v : PartGroup) : bool :=
  wstr_ok (PartGroup_name v) && opt_ok str_ok (PartGroup_editor_layer_name v).
Lemma PartGroup_steps v : PartGroup_ok v = true -> Steps (dispatch PartGroup_arms) PartGroup_init (PartGroup_recs v) v.
Proof.
  intros H. unfold PartGroup_ok in H. split_ok H. eapply Steps_eq.
  - unfold PartGroup_recs.
    srec. srec. stimer PartGroup_timer set_PartGroup_timer. stimer PartGroup_timer set_PartGroup_timer. srec. sopt set_PartGroup_visibility_mask PartGroup_visibility_mask. sopt set_PartGroup_player_mode_visibility_mask PartGroup_player_mode_visibility_mask. srec_enum SpaceReference_roundtrip. srec. sopt set_PartGroup_editor_layer_visibility PartGroup_editor_layer_visibility. sopt set_PartGroup_editor_layer_name PartGroup_editor_layer_name.
    constructor.
  - destruct v as [? ? ? ? ? ? ? ? ? ?]. vm_compute. repeat match goal with t : TimerData |- _ => destruct t end. reflexivity.
Qed.
Lemma PartGroup_wapp v : PartGroup_ok v = true -> wapp (PartGroup_write v) (enc (PartGroup_recs v ++ [endb])).
Proof.
  intros H. unfold PartGroup_ok in H. split_ok H. unfold PartGroup_write, PartGroup_recs. recs_norm.
  wrec. wrec. wtimer. wrec. woptrec. woptrec. wrec. wrec. woptrec. woptrec. apply wapp_close.
Qed.
Lemma PartGroup_roundtrip v : PartGroup_ok v = true ->
  exists b, run_writer (PartGroup_write v) = Ok b /\ reads_as PartGroup_read b v.
Proof. intros H. exact (item_roundtrip PartGroup_write PartGroup_arms PartGroup_init PartGroup_recs v (PartGroup_wapp v H) ltac:(unfold PartGroup_write; closes) (PartGroup_steps v H)). Qed.
Lemma PartGroup_term : Term PartGroup_read.
Proof.
  apply Term_read_arms. unfold PartGroup_arms, PartGroup_own_arms. item_term.
Qed.
Lemma PartGroup_yields : Yields PartGroup_read (fun v => PartGroup_ok v = true).
Proof.
  apply Yields_read_arms; [|reflexivity]. unfold PartGroup_arms, PartGroup_own_arms.
  item_yields PartGroup_ok.
Qed.

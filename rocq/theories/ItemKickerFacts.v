(** Generated by tools/gen_items.py: what [Kicker_write] produces and what [Kicker_read] makes of it. *)
From Verif Require Import Base Text Biff Quantize Common Enums ItemBase ItemKicker.
From Verif Require Import BaseFacts TextFacts BiffFacts CommonFacts TermFacts QuantizeFacts EnumsFacts ItemBaseFacts.

(** The records that are written, in order. *)
Definition Kicker_recs (v : Kicker) : list rec :=
  R "VCEN" (v2_bytes (Kicker_center v)) ::
  R "RADI" (w32_bytes (Kicker_radius v)) ::
  R "TMON" (bool_bytes (td_is_enabled (Kicker_timer v))) ::
  R "TMIN" (w32_bytes (td_interval (Kicker_timer v))) ::
  R "MATR" (string_bytes (Kicker_material v)) ::
  R "SURF" (string_bytes (Kicker_surface v)) ::
  R "EBLD" (bool_bytes (Kicker_is_enabled v)) ::
  R "NAME" (wstring_bytes (Kicker_name v)) ::
  R "TYPE" (w32_bytes (KickerType_to_u32 (Kicker_kicker_type v))) ::
  R "KSCT" (w32_bytes (Kicker_scatter v)) ::
  R "KHAC" (w32_bytes (Kicker_hit_accuracy v)) ::
  orec (Kicker_hit_height v) (fun x => R "KHHI" (w32_bytes x)) ++
  R "KORI" (w32_bytes (Kicker_orientation v)) ::
  R "FATH" (bool_bytes (Kicker_fall_through v)) ::
  R "LEMO" (bool_bytes (Kicker_legacy_mode v)) ::
  R "LOCK" (bool_bytes (Kicker_is_locked v)) ::
  orec (Kicker_editor_layer v) (fun x => R "LAYR" (w32_bytes x)) ++
  orec (Kicker_editor_layer_name v) (fun x => R "LANR" (string_bytes x)) ++
  orec (Kicker_part_group_name v) (fun x => R "GRUP" (string_bytes x)) ++
  orec (Kicker_editor_layer_visibility v) (fun x => R "LVIS" (bool_bytes x)) ++
  [].
(** The values that can be stored: see the components. *)
Definition Kicker_ok (v : Kicker) : bool :=
  str_ok (Kicker_material v) && str_ok (Kicker_surface v) && wstr_ok (Kicker_name v) && opt_ok str_ok (Kicker_editor_layer_name v) && opt_ok str_ok (Kicker_part_group_name v).
Lemma Kicker_steps v : Kicker_ok v = true -> Steps (dispatch Kicker_arms) Kicker_init (Kicker_recs v) v.
Proof.
  intros H. unfold Kicker_ok in H. split_ok H. eapply Steps_eq.
  - unfold Kicker_recs.
    srec. srec. stimer Kicker_timer set_Kicker_timer. stimer Kicker_timer set_Kicker_timer. srec. srec. srec. srec. srec_enum KickerType_roundtrip. srec. srec. sopt set_Kicker_hit_height Kicker_hit_height. srec. srec. srec. srec. sopt set_Kicker_editor_layer Kicker_editor_layer. sopt set_Kicker_editor_layer_name Kicker_editor_layer_name. sopt set_Kicker_part_group_name Kicker_part_group_name. sopt set_Kicker_editor_layer_visibility Kicker_editor_layer_visibility.
    constructor.
  - destruct v as [? ? ? ? ? ? ? ? ? ? ? ? ? ? ? ? ? ? ?]. vm_compute. repeat match goal with t : TimerData |- _ => destruct t end. reflexivity.
Qed.
Lemma Kicker_wapp v : Kicker_ok v = true -> wapp (Kicker_write v) (enc (Kicker_recs v ++ [endb])).
Proof.
  intros H. unfold Kicker_ok in H. split_ok H. unfold Kicker_write, Kicker_recs. recs_norm.
  wrec. wrec. wtimer. wrec. wrec. wrec. wrec. wrec. wrec. wrec. woptrec. wrec. wrec. wrec. wshared Kicker_shared. apply wapp_close.
Qed.
Lemma Kicker_roundtrip v : Kicker_ok v = true ->
  exists b, run_writer (Kicker_write v) = Ok b /\ reads_as Kicker_read b v.
Proof. intros H. exact (item_roundtrip Kicker_write Kicker_arms Kicker_init Kicker_recs v (Kicker_wapp v H) ltac:(unfold Kicker_write; closes) (Kicker_steps v H)). Qed.
Lemma Kicker_term : Term Kicker_read.
Proof.
  apply Term_read_arms. unfold Kicker_arms, Kicker_own_arms, shared_arms. item_term.
Qed.
Lemma Kicker_yields : Yields Kicker_read (fun v => Kicker_ok v = true).
Proof.
  apply Yields_read_arms; [|reflexivity]. unfold Kicker_arms, Kicker_own_arms, shared_arms.
  item_yields Kicker_ok.
Qed.

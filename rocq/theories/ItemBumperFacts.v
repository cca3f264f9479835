(** Generated by tools/gen_items.py: what [Bumper_write] produces and what [Bumper_read] makes of it. *)
From Verif Require Import Base Text Biff Quantize Common Enums ItemBase ItemBumper.
From Verif Require Import BaseFacts TextFacts BiffFacts CommonFacts TermFacts QuantizeFacts EnumsFacts ItemBaseFacts.

(** The records that are written, in order. *)
Definition Bumper_recs (v : Bumper) : list rec :=
  R "VCEN" (v2_bytes (Bumper_center v)) ::
  R "RADI" (w32_bytes (Bumper_radius v)) ::
  R "TMON" (bool_bytes (td_is_enabled (Bumper_timer v))) ::
  R "TMIN" (w32_bytes (td_interval (Bumper_timer v))) ::
  R "THRS" (w32_bytes (Bumper_threshold v)) ::
  R "FORC" (w32_bytes (Bumper_force v)) ::
  orec (Bumper_scatter v) (fun x => R "BSCT" (w32_bytes x)) ++
  R "HISC" (w32_bytes (Bumper_height_scale v)) ::
  R "RISP" (w32_bytes (Bumper_ring_speed v)) ::
  R "ORIN" (w32_bytes (Bumper_orientation v)) ::
  orec (Bumper_ring_drop_offset v) (fun x => R "RDLI" (w32_bytes x)) ++
  R "MATR" (string_bytes (Bumper_cap_material v)) ::
  R "BAMA" (string_bytes (Bumper_base_material v)) ::
  R "SKMA" (string_bytes (Bumper_socket_material v)) ::
  orec (Bumper_ring_material v) (fun x => R "RIMA" (string_bytes x)) ++
  R "SURF" (string_bytes (Bumper_surface v)) ::
  R "NAME" (wstring_bytes (Bumper_name v)) ::
  R "CAVI" (bool_bytes (Bumper_is_cap_visible v)) ::
  R "BSVS" (bool_bytes (Bumper_is_base_visible v)) ::
  orec (Bumper_is_ring_visible v) (fun x => R "RIVS" (bool_bytes x)) ++
  orec (Bumper_is_socket_visible v) (fun x => R "SKVS" (bool_bytes x)) ++
  orec (Bumper_hit_event v) (fun x => R "HAHE" (bool_bytes x)) ++
  orec (Bumper_is_collidable v) (fun x => R "COLI" (bool_bytes x)) ++
  orec (Bumper_is_reflection_enabled v) (fun x => R "REEN" (bool_bytes x)) ++
  R "LOCK" (bool_bytes (Bumper_is_locked v)) ::
  orec (Bumper_editor_layer v) (fun x => R "LAYR" (w32_bytes x)) ++
  orec (Bumper_editor_layer_name v) (fun x => R "LANR" (string_bytes x)) ++
  orec (Bumper_part_group_name v) (fun x => R "GRUP" (string_bytes x)) ++
  orec (Bumper_editor_layer_visibility v) (fun x => R "LVIS" (bool_bytes x)) ++
  [].
(** The values that can be stored: see the components. *)
Definition Bumper_ok (v : Bumper) : bool :=
  str_ok (Bumper_cap_material v) && str_ok (Bumper_base_material v) && str_ok (Bumper_socket_material v) && opt_ok str_ok (Bumper_ring_material v) && str_ok (Bumper_surface v) && wstr_ok (Bumper_name v) && opt_ok str_ok (Bumper_editor_layer_name v) && opt_ok str_ok (Bumper_part_group_name v).
Lemma Bumper_steps v : Bumper_ok v = true -> Steps (dispatch Bumper_arms) Bumper_init (Bumper_recs v) v.
Proof.
  intros H. unfold Bumper_ok in H. split_ok H. eapply Steps_eq.
  - unfold Bumper_recs.
    srec. srec. stimer Bumper_timer set_Bumper_timer. stimer Bumper_timer set_Bumper_timer. srec. srec. sopt set_Bumper_scatter Bumper_scatter. srec. srec. srec. sopt set_Bumper_ring_drop_offset Bumper_ring_drop_offset. srec. srec. srec. sopt set_Bumper_ring_material Bumper_ring_material. srec. srec. srec. srec. sopt set_Bumper_is_ring_visible Bumper_is_ring_visible. sopt set_Bumper_is_socket_visible Bumper_is_socket_visible. sopt set_Bumper_hit_event Bumper_hit_event. sopt set_Bumper_is_collidable Bumper_is_collidable. sopt set_Bumper_is_reflection_enabled Bumper_is_reflection_enabled. srec. sopt set_Bumper_editor_layer Bumper_editor_layer. sopt set_Bumper_editor_layer_name Bumper_editor_layer_name. sopt set_Bumper_part_group_name Bumper_part_group_name. sopt set_Bumper_editor_layer_visibility Bumper_editor_layer_visibility.
    constructor.
  - destruct v as [? ? ? ? ? ? ? ? ? ? ? ? ? ? ? ? ? ? ? ? ? ? ? ? ? ? ? ?]. vm_compute. repeat match goal with t : TimerData |- _ => destruct t end. reflexivity.
Qed.
Lemma Bumper_wapp v : Bumper_ok v = true -> wapp (Bumper_write v) (enc (Bumper_recs v ++ [endb])).
Proof.
  intros H. unfold Bumper_ok in H. split_ok H. unfold Bumper_write, Bumper_recs. recs_norm.
  wrec. wrec. wtimer. wrec. wrec. woptrec. wrec. wrec. wrec. woptrec. wrec. wrec. wrec. woptrec. wrec. wrec. wrec. wrec. woptrec. woptrec. woptrec. woptrec. woptrec. wshared Bumper_shared. apply wapp_close.
Qed.
Lemma Bumper_roundtrip v : Bumper_ok v = true ->
  exists b, run_writer (Bumper_write v) = Ok b /\ reads_as Bumper_read b v.
Proof. intros H. exact (item_roundtrip Bumper_write Bumper_arms Bumper_init Bumper_recs v (Bumper_wapp v H) ltac:(unfold Bumper_write; closes) (Bumper_steps v H)). Qed.
Lemma Bumper_term : Term Bumper_read.
Proof.
  apply Term_read_arms. unfold Bumper_arms, Bumper_own_arms, shared_arms. item_term.
Qed.
Lemma Bumper_yields : Yields Bumper_read (fun v => Bumper_ok v = true).
Proof.
  apply Yields_read_arms; [|reflexivity]. unfold Bumper_arms, Bumper_own_arms, shared_arms.
  item_yields Bumper_ok.
Qed.

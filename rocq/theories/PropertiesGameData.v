(** C02 (game data), C03 (game data), C17, C18: game data. *)
From Verif Require Import Base Text Biff Quantize Common Enums StructMaterial StructRenderProbe Structs.
From Verif Require Import GDBounds GDDesktop GDCabinet GDPhysics GDScene GameData.
From Verif Require Import SpecBiff SpecItems SpecStructs RecordFacts StructsFacts GameDataFacts StructsProps GameDataProps.

(** Game data with two legacy materials, two 10.8 materials, a probe with trailing bytes, a lock, a script and strings. *)
Definition example_legacy_material : SaveMaterial :=
  mkSaveMaterial (lit "Metal") (mkColor x01 x02 x03 x04) (mkColor x05 x06 x07 x00) (mkColor xff xfe xfd xfc) (Z_to_w32 1065353216) true
    (Z_to_w32 7) x10 (Z_to_w32 2143289344) x20 (Z_to_w32 9) x81.
Definition example_tail : GDTail :=
  set_gt_materials_size (Z_to_w32 2) (set_gt_materials_old [example_legacy_material; example_legacy_material]
    (set_gt_materials_physics_old (Some [mkSavePhysicsMaterial (lit "Metal") (Z_to_w32 1) (Z_to_w32 2) (Z_to_w32 3) (Z_to_w32 4);
                                         mkSavePhysicsMaterial [] (Z_to_w32 5) (Z_to_w32 6) (Z_to_w32 7) (Z_to_w32 8)])
      (set_gt_materials (Some [Material_default; set_Material_name (lit "M") Material_default])
        (set_gt_render_probes (Some [mkRenderProbeG (set_RenderProbe_name (lit "P") RenderProbe_default) [x01; x02]])
          (set_gt_name (lit "T" ++ [0x20AC]%N)
            (set_gt_code (swe_of_bytes [x41; x0d; x0a; xe9]) (set_gt_locked (Some (Z_to_w32 3)) GDTail_default))))))).
Definition example_game_data : GameData :=
  set_gd_tail example_tail (set_gd_bg_enable_fss (Some true)
    (set_gd_physics (set_GDPhysics_image (lit "playfield") (set_GDPhysics_notes (Some (lit "notes")) GDPhysics_default)) GameData_default)).
Example example_game_data_storable : storable example_game_data.
Proof.
  assert (L : forall s, latin1_ok s = true -> Forall latin1_char s) by (intros s; apply latin1_ok_chars).
  assert (F : forall s : rstring, (zlen s <? 1000) = true -> size_fits (zlen s)) by (intros s; unfold size_fits; lia).
  assert (SF : forall s : rstring, latin1_ok s && (zlen s <? 1000) = true -> string_fits s).
  { intros s H. apply andb_true_iff in H. split; [apply L|apply F]; apply H. }
  assert (SN : forall s : rstring, latin1_ok s && (zlen s <=? 31) = true -> short_name s).
  { intros s H. apply andb_true_iff in H. split; [apply L, H|]. destruct H. lia. }
  split; [|split; [|split]].
  - split; reflexivity.
  - split; [reflexivity|]. split; [reflexivity|]. split; repeat (apply Forall_cons; [reflexivity|]); apply Forall_nil.
  - unfold strings_fit. do 11 (split; [first [exact I | apply SF; reflexivity]|]).
    split; [|split; [|split; [|split; [|split; [|split; [exact I|]]]]]].
    + repeat (apply Forall_cons; [apply SN; reflexivity|]). apply Forall_nil.
    + cbn [option_all]. repeat (apply Forall_cons; [apply SN; reflexivity|]). apply Forall_nil.
    + repeat (apply Forall_cons; [apply SF; reflexivity|]). apply Forall_nil.
    + repeat (apply Forall_cons; [apply SF; reflexivity|]). apply Forall_nil.
    + apply wide_fits_iff. reflexivity.
    + exists [x41; x0d; x0a; xe9]. split; [|split; reflexivity].
      intros H. repeat destruct H as [H|H]; try discriminate; exact H.
  - split; [|split; [discriminate|reflexivity]]. exists (Z_to_w32 255). split; [vm_compute; discriminate|]. vm_compute. reflexivity.
Qed.

(** * C02 *)
Theorem C02_game_data_read_terminates : forall version checked input, GameData_read version checked input <> OutOfFuel.
Proof. exact game_data_terminates. Qed.
Print Assumptions C02_game_data_read_terminates.

(** * C03 *)
(** Unknown records anywhere do not change what is read, except that one directly before the record EFSS makes the reader
    take a 1080 file for a beta file, see C18. *)
Theorem C03_game_data_unknown_records : forall version v, storable v ->
  exists before script after,
    GameData_write version v = Ok (game_data_layout before script after) /\
    forall before' after' checked,
      InsertedBut "EFSS" GameData_tags before before' -> InsertedBut "EFSS" GameData_tags after after' ->
      GameData_read version checked (game_data_layout before' script after') = Ok (GameData_stored version v).
Proof. exact game_data_inserted. Qed.
Print Assumptions C03_game_data_unknown_records.
Example C03_game_data_example : ~ In "XYZ"%string GameData_tags /\ List.length GameData_tags = 153%nat.
Proof. split; [|reflexivity]. intros H. vm_compute in H. repeat destruct H as [H|H]; try discriminate H; exact H. Qed.

(** * C17: round trip *)
(** Game data that fits is read back equal, at every file version, if empty lists of 10.8 materials and probes are given
    as absent and the beta flag is in agreement with the version ([C18] for the flag). *)
Theorem C17_game_data_round_trip : forall version v, storable v ->
  gt_materials (gd_tail v) <> Some [] -> gt_render_probes (gd_tail v) <> Some [] ->
  (gd_beta v = true -> version = 1080 /\ gd_bg_enable_fss v <> None) ->
  (version = 1080 -> gd_bg_enable_fss v <> None -> GDBounds_camera_layout_mode (gd_bounds v) <> None -> gd_beta v = true) ->
  exists b, GameData_write version v = Ok b /\ forall checked, GameData_read version checked b = Ok v.
Proof. exact game_data_equal. Qed.
Print Assumptions C17_game_data_round_trip.
Example C17_example : storable example_game_data /\ gt_materials (gd_tail example_game_data) <> Some [] /\
  gt_render_probes (gd_tail example_game_data) <> Some [] /\ gd_beta example_game_data = false /\
  GDBounds_camera_layout_mode (gd_bounds example_game_data) = None /\ gd_bg_enable_fss example_game_data = Some true.
Proof. split; [exact example_game_data_storable|]. repeat split; discriminate. Qed.
(** In general empty lists become absent and the flag becomes what C18 says; nothing else changes. *)
Theorem C17_game_data_stored_form : forall version v, storable v ->
  exists b, GameData_write version v = Ok b /\ forall checked, GameData_read version checked b = Ok (GameData_stored version v).
Proof. exact game_data_stored. Qed.
Print Assumptions C17_game_data_stored_form.
Theorem C17_stored_form_differs_only_in : forall version v,
  let v' := GameData_stored version v in
  gd_bounds v' = gd_bounds v /\ gd_desktop v' = gd_desktop v /\ gd_cabinet v' = gd_cabinet v /\ gd_physics v' = gd_physics v /\
  gd_scene v' = gd_scene v /\ gd_bg_enable_fss v' = gd_bg_enable_fss v /\
  gd_tail v' = set_gt_materials (gt_materials (gd_tail v')) (set_gt_render_probes (gt_render_probes (gd_tail v')) (gd_tail v)) /\
  list_of (gt_materials (gd_tail v')) = list_of (gt_materials (gd_tail v)) /\
  list_of (gt_render_probes (gd_tail v')) = list_of (gt_render_probes (gd_tail v)).
Proof. exact stored_form_differs. Qed.
Print Assumptions C17_stored_form_differs_only_in.
(** Saving game data that was read from any bytes and reading it again changes at most the beta flag. *)
Theorem C17_game_data_resave : forall version checked input v, size_fits (zlen input) ->
  GameData_read version checked input = Ok v -> counters_agree v -> blocks_fit v ->
  exists output, GameData_write version v = Ok output /\
    forall checked', GameData_read version checked' output = Ok (set_gd_beta (beta_stored version v) v).
Proof. exact game_data_resave. Qed.
Print Assumptions C17_game_data_resave.
(** The counter of materials is needed: a table with a wrong count is written without complaint and cannot be read. *)
Theorem C17_wrong_counter_refuted : exists v b, blocks_fit v /\ strings_fit v /\ scalars_fit v /\
  GameData_write 1081 v = Ok b /\ forall checked, GameData_read 1081 checked b = Panic.
Proof. exact wrong_counter. Qed.
Print Assumptions C17_wrong_counter_refuted.

(** * C18: the position of EFSS *)
(** The record is written before the record ROTA of the desktop settings from 10.8 on, and after it before 10.8 and when
    the beta flag is set. *)
Theorem C18_position_written : forall version v x, storable v -> gd_bg_enable_fss v = Some x ->
  exists r1 r2 script after,
    GameData_write version v = Ok (game_data_layout (r1 ++ ("EFSS"%string, bool_payload x) :: r2) script after) /\
    (late_position version v <-> In "ROTA"%string (map fst r1)) /\
    (~ late_position version v <-> In "ROTA"%string (map fst r2)).
Proof. exact efss_position. Qed.
Print Assumptions C18_position_written.
(** Without a camera layout mode the flag and with it the position survive, and saving again gives the same bytes. *)
Theorem C18_position_survives : forall version v, storable v -> version <= 1080 -> (version < 1080 -> gd_beta v = false) ->
  gd_bg_enable_fss v <> None -> (version = 1080 -> GDBounds_camera_layout_mode (gd_bounds v) = None) ->
  exists b v', GameData_write version v = Ok b /\ (forall checked, GameData_read version checked b = Ok v') /\
    gd_bg_enable_fss v' = gd_bg_enable_fss v /\ gd_beta v' = gd_beta v /\ GameData_write version v' = Ok b.
Proof. exact efss_kept. Qed.
Print Assumptions C18_position_survives.
(** The flag in general. *)
Theorem C18_flag_after_reading : forall version v, storable v ->
  exists b v', GameData_write version v = Ok b /\ (forall checked, GameData_read version checked b = Ok v') /\
    (gd_beta v' = true <-> version = 1080 /\ gd_bg_enable_fss v <> None /\
       (gd_beta v = true \/ GDBounds_camera_layout_mode (gd_bounds v) <> None)).
Proof. exact flag_after_reading. Qed.
Print Assumptions C18_flag_after_reading.
(** So a 10.8 file with a camera layout mode is taken for a beta file and the next save moves the record. *)
Theorem C18_camera_layout_mode_refuted : exists v b v' b',
  storable v /\ gd_beta v = false /\ GameData_write 1080 v = Ok b /\ (forall checked, GameData_read 1080 checked b = Ok v') /\
  gd_beta v' = true /\ GameData_write 1080 v' = Ok b' /\ b <> b'.
Proof. exact camera_layout_mode. Qed.
Print Assumptions C18_camera_layout_mode_refuted.
Example C18_example : storable example_game_data /\ storable (set_gd_beta true example_game_data).
Proof. split; exact example_game_data_storable. Qed.

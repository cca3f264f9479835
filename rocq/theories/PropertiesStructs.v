(** C02 (structures), C03 (structures), C13, C14, C15, C19, C20, C22: collections, fonts, info tags, materials, probes. *)
From Coq Require Import SpecFloat.
From Verif Require Import Base Text Biff Quantize Common Enums ItemBase StructMaterial StructRenderProbe Structs.
From Verif Require Import SpecBiff SpecItems RecordFacts SpecStructs LegacyFacts StructsProps.

(** * C02: reading any byte string ends *)
Theorem C02_collection_read_terminates : forall checked input, Collection_read checked input <> OutOfFuel.
Proof. exact collection_terminates. Qed.
Print Assumptions C02_collection_read_terminates.
Theorem C02_font_read_terminates : forall checked input, FontData_read checked input <> OutOfFuel.
Proof. exact font_terminates. Qed.
Print Assumptions C02_font_read_terminates.
Theorem C02_info_tags_read_terminates : forall checked input, CustomInfoTags_read checked input <> OutOfFuel.
Proof. exact info_tags_terminates. Qed.
Print Assumptions C02_info_tags_read_terminates.

(** * C13: collections *)
(** A collection is stored as one record per attribute and item, and is read back equal, also when records with unknown
    tags have been put between its records. *)
Theorem C13_collection_round_trip : forall v,
  wide_fits (co_name v) -> Forall wide_fits (co_items v) ->
  Collection_write v = Ok (stream_bytes (collection_records v)) /\
  forall rs checked, Inserted (map fst Collection_arms) (collection_records v) rs ->
    Collection_read checked (stream_bytes rs) = Ok v.
Proof. exact collection_stored. Qed.
Print Assumptions C13_collection_round_trip.
Example C13_example : exists v, List.length (co_items v) = 3%nat /\ wide_fits (co_name v) /\ Forall wide_fits (co_items v) /\
  Inserted (map fst Collection_arms) (collection_records v) (("NEW "%string, [x01]) :: collection_records v).
Proof.
  exists (mkCollection (lit "Lights" ++ [0x1F600]%N) [lit "a"; []; lit "a"] true false true).
  split; [reflexivity|]. split; [apply wide_fits_iff; reflexivity|]. split; [repeat constructor; apply wide_fits_iff; reflexivity|].
  constructor; [| |apply Inserted_refl].
  - repeat split; cbn; try lia; try discriminate. intros H. repeat destruct H as [H|H]; try discriminate; exact H.
  - vm_compute. intros H. repeat destruct H as [H|H]; try discriminate; exact H.
Qed.
(** Saving a collection that was read from any bytes and reading it again returns the same collection. *)
Theorem C13_collection_resave : forall checked input v,
  size_fits (zlen input) -> Collection_read checked input = Ok v ->
  exists output, Collection_write v = Ok output /\ forall checked', Collection_read checked' output = Ok v.
Proof. exact collection_resave. Qed.
Print Assumptions C13_collection_resave.

(** * C14: fonts *)
Theorem C14_font_round_trip : forall v,
  string_fits (fo_name v) -> string_fits (fo_path v) -> data_fits (fo_data v) ->
  FontData_write v = Ok (stream_bytes (font_records v)) /\
  forall rs checked, Inserted (map fst FontData_arms) (font_records v) rs -> FontData_read checked (stream_bytes rs) = Ok v.
Proof. exact font_stored. Qed.
Print Assumptions C14_font_round_trip.
(** Font bytes that look like the end of the stream. *)
Example C14_example : let v := mkFontData (lit "F") (lit "C:\f.ttf") (stream_bytes [("ENDB"%string, [x00])]) in
  string_fits (fo_name v) /\ string_fits (fo_path v) /\ data_fits (fo_data v).
Proof. cbn [fo_name fo_path fo_data]. repeat split; try (apply latin1_ok_chars; reflexivity); apply size_fits_iff; reflexivity. Qed.
Theorem C14_font_resave : forall checked input v,
  size_fits (zlen input) -> FontData_read checked input = Ok v ->
  exists output, FontData_write v = Ok output /\ forall checked', FontData_read checked' output = Ok v.
Proof. exact font_resave. Qed.
Print Assumptions C14_font_resave.

(** * C15: custom info tags *)
Theorem C15_info_tags_round_trip : forall l, Forall string_fits l ->
  CustomInfoTags_write l = Ok (stream_bytes (map (fun s => ("CUST"%string, string_payload s)) l)) /\
  forall rs checked, Inserted ["CUST"%string] (map (fun s => ("CUST"%string, string_payload s)) l) rs ->
    CustomInfoTags_read checked (stream_bytes rs) = Ok l.
Proof. exact info_tags_stored. Qed.
Print Assumptions C15_info_tags_round_trip.
Example C15_example : Forall string_fits [lit "b"; lit "a"; []; lit "b"].
Proof. repeat (apply Forall_cons; [apply string_fits_iff; reflexivity|]). apply Forall_nil. Qed.
Theorem C15_info_tags_resave : forall checked input l,
  size_fits (zlen input) -> CustomInfoTags_read checked input = Ok l ->
  exists output, CustomInfoTags_write l = Ok output /\ forall checked', CustomInfoTags_read checked' output = Ok l.
Proof. exact info_tags_resave. Qed.
Print Assumptions C15_info_tags_resave.

(** * C19: materials *)
(** The 10.8 form: a stream of records. *)
Theorem C19_material_round_trip : forall m, string_fits (Material_name m) ->
  run_writer (Material_write m) = Ok (stream_bytes (material_records m)) /\
  forall rs checked, Inserted (map fst Material_arms) (material_records m) rs ->
    run_reader Material_read checked (stream_bytes rs) = Ok m.
Proof. exact material_stored. Qed.
Print Assumptions C19_material_round_trip.
Theorem C19_material_resave : forall checked input m,
  size_fits (zlen input) -> run_reader Material_read checked input = Ok m ->
  exists output, run_writer (Material_write m) = Ok output /\ forall checked', run_reader Material_read checked' output = Ok m.
Proof. exact material_resave. Qed.
Print Assumptions C19_material_resave.
(** The legacy forms: blocks of 76 and 48 bytes, one after the other; whatever follows is left for the next reader. *)
Theorem C19_legacy_materials_round_trip : forall l, Forall (fun m => short_name (sm_name m)) l ->
  concat_res SaveMaterial_write l = Ok (flat_map legacy_material_layout l) /\
  forall rest, cu_repeat (List.length l) SaveMaterial_read (flat_map legacy_material_layout l ++ rest) = Ok (l, rest).
Proof. exact legacy_materials_stored. Qed.
Print Assumptions C19_legacy_materials_round_trip.
Theorem C19_legacy_physics_materials_round_trip : forall l, Forall (fun m => short_name (sp_name m)) l ->
  concat_res SavePhysicsMaterial_write l = Ok (flat_map legacy_physics_layout l) /\
  forall rest, cu_repeat (List.length l) SavePhysicsMaterial_read (flat_map legacy_physics_layout l ++ rest) = Ok (l, rest).
Proof. exact legacy_physics_stored. Qed.
Print Assumptions C19_legacy_physics_materials_round_trip.
Definition example_legacy (s : rstring) : SaveMaterial :=
  mkSaveMaterial s (mkColor x01 x02 x03 x04) (mkColor x05 x06 x07 x00) (mkColor xff xfe xfd xfc) (Z_to_w32 1065353216) true
    (Z_to_w32 7) x10 (Z_to_w32 2143289344) x20 (Z_to_w32 9) x81.
Example C19_example : Forall (fun m => short_name (sm_name m))
    [example_legacy (lit "Metal"); example_legacy (lit "0123456789012345678901234567890"); example_legacy []] /\
  Forall (fun m => short_name (sp_name m)) [mkSavePhysicsMaterial (lit "P" ++ [0xE9]%N) (Z_to_w32 1) (Z_to_w32 2) (Z_to_w32 3) (Z_to_w32 4)].
Proof. split; repeat (apply Forall_cons; [apply short_name_iff; reflexivity|]); apply Forall_nil. Qed.
Example C19_example_size : zlen (legacy_material_layout (example_legacy (lit "Metal"))) = 76.
Proof. reflexivity. Qed.
(** Longer names are cut to 31 characters; everything else is kept. *)
Theorem C19_legacy_names_are_cut : forall m, Forall latin1_char (sm_name m) ->
  exists b, SaveMaterial_write m = Ok b /\
    forall rest, SaveMaterial_read (b ++ rest) = Ok (set_sm_name (firstn 31 (sm_name m)) m, rest).
Proof. exact legacy_name_cut. Qed.
Print Assumptions C19_legacy_names_are_cut.

(** * C20: from 10.8 materials to legacy materials *)
(** Unless a quantised parameter is NaN the conversion succeeds, keeps the other fields bit for bit and produces codes in
    range: the thickness is at least the code of 0.05, the edge alpha is a 7-bit code above the flag. *)
Theorem C20_legacy_form : forall m,
  is_nan (Material_glossy_image_lerp m) = false -> is_nan (Material_thickness m) = false ->
  is_nan (Material_edge_alpha m) = false ->
  exists s, SaveMaterial_of m = Ok s /\
    sm_name s = Material_name m /\ sm_base_color s = Material_base_color m /\ sm_glossy_color s = Material_glossy_color m /\
    sm_clearcoat_color s = Material_clearcoat_color m /\ sm_wrap_lighting s = Material_wrap_lighting m /\
    sm_roughness s = Material_roughness m /\ sm_edge s = Material_edge m /\ sm_opacity s = Material_opacity m /\
    (sm_is_metal s = true <-> Material_type_ m = MaterialType_Metal) /\
    Z.odd (byte_to_Z (sm_opacity_active_edge_alpha s)) = Material_opacity_active m /\
    12 <= byte_to_Z (sm_thickness s) <= 255 /\
    0 <= byte_to_Z (sm_glossy_image_lerp s) <= 255 /\
    0 <= byte_to_Z (sm_opacity_active_edge_alpha s) / 2 <= 127.
Proof. exact legacy_form. Qed.
Print Assumptions C20_legacy_form.
(** Parameters that were read from a legacy file give the codes they came from; the glossy code is stored inverted. *)
Theorem C20_legacy_codes_are_stable : forall m g t a, 0 <= g <= 255 -> 13 <= t <= 255 -> 0 <= a <= 127 ->
  Material_glossy_image_lerp m = dequantize_u8 8 (Z_to_byte g) -> Material_thickness m = dequantize_u8 8 (Z_to_byte t) ->
  Material_edge_alpha m = dequantize_u8 7 (Z_to_byte a) ->
  exists s, SaveMaterial_of m = Ok s /\ byte_to_Z (sm_glossy_image_lerp s) = 255 - g /\ byte_to_Z (sm_thickness s) = t /\
    byte_to_Z (sm_opacity_active_edge_alpha s) / 2 = a.
Proof. exact legacy_codes_stable. Qed.
Print Assumptions C20_legacy_codes_are_stable.
(** A NaN in one of the three aborts the program. *)
Theorem C20_legacy_form_panics_on_NaN : forall m,
  is_nan (Material_glossy_image_lerp m) = true \/ is_nan (Material_thickness m) = true \/ is_nan (Material_edge_alpha m) = true ->
  SaveMaterial_of m = Panic.
Proof. exact legacy_nan. Qed.
Print Assumptions C20_legacy_form_panics_on_NaN.
Definition example_material : Material :=
  set_Material_glossy_image_lerp (dequantize_u8 8 (Z_to_byte 200)) (set_Material_thickness (dequantize_u8 8 (Z_to_byte 13))
    (set_Material_edge_alpha (dequantize_u8 7 (Z_to_byte 127)) (set_Material_opacity_active true Material_default))).
Example C20_example : is_nan (Material_glossy_image_lerp example_material) = false /\ is_nan (Material_thickness example_material) = false /\
  is_nan (Material_edge_alpha example_material) = false /\
  match SaveMaterial_of example_material with
  | Ok s => sm_glossy_image_lerp s = x37 /\ sm_thickness s = x0d /\ sm_opacity_active_edge_alpha s = xff
  | _ => False
  end.
Proof. vm_compute. repeat split. Qed.

(** * C22: render probes *)
(** The bytes of a probe are a record stream followed by its trailing bytes, and reading returns both, also with other
    trailing bytes and with extra records. *)
Theorem C22_render_probe_keeps_trailing_bytes : forall p, string_fits (RenderProbe_name (rp_probe p)) ->
  exists rs, run_writer (RenderProbeG_write p) = Ok (stream_bytes rs ++ rp_trailing p) /\
  forall rs' trailing checked, Inserted (map fst RenderProbe_arms) rs rs' ->
    run_reader RenderProbeG_read checked (stream_bytes rs' ++ trailing) = Ok (mkRenderProbeG (rp_probe p) trailing).
Proof. exact probe_stored. Qed.
Print Assumptions C22_render_probe_keeps_trailing_bytes.
(** In particular for bytes that were written and for any file: *)
Theorem C22_render_probe_resave : forall checked input p,
  size_fits (zlen input) -> run_reader RenderProbeG_read checked input = Ok p ->
  exists output, run_writer (RenderProbeG_write p) = Ok output /\ forall checked', run_reader RenderProbeG_read checked' output = Ok p.
Proof. exact probe_resave. Qed.
Print Assumptions C22_render_probe_resave.
Example C22_example : let p := mkRenderProbeG (set_RenderProbe_name (lit "Playfield Reflections") RenderProbe_default)
                                (stream_bytes [("TYPE"%string, [x00])] ++ [xde; xad]) in
  string_fits (RenderProbe_name (rp_probe p)).
Proof. apply string_fits_iff. reflexivity. Qed.

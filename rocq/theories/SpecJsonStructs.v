(** What the JSON forms of the structures other than game items must keep. *)
From Verif Require Import Base Text Biff Common Enums StructMaterial StructRenderProbe Structs Image Sound SpecSound TableInfo JsonFloat SpecJson SpecJsonRecords.

(** Floats that have no JSON form unless they are finite *)
Definition Material_finite (m : Material) : Prop :=
  finite (Material_wrap_lighting m) /\ finite (Material_roughness m) /\ finite (Material_glossy_image_lerp m) /\ finite (Material_thickness m) /\
  finite (Material_edge m) /\ finite (Material_edge_alpha m) /\ finite (Material_opacity m).
Definition SaveMaterial_finite (m : SaveMaterial) : Prop :=
  finite (sm_wrap_lighting m) /\ finite (sm_roughness m) /\ finite (sm_edge m) /\ finite (sm_opacity m).
Definition RenderProbe_finite (p : RenderProbeWithGarbage) : Prop := Vertex4D_finite (RenderProbe_reflection_plane (rp_probe p)).

(** The properties are a map whose keys are texts. *)
Definition info_is_map (t : TableInfo) : Prop :=
  NoDup (map fst (ti_properties t)) /\ Forall (fun e => is_rstring (fst e) = true) (ti_properties t).

(** What the index leaves to the sound's file: the samples and their format *)
Definition sound_entry (s : SoundData) : SoundData :=
  mkSoundData (so_name s) (so_path s) WaveForm_new [] (so_internal_name s) (so_fade s) (so_volume s) (so_balance s) (so_output_target s).
Definition font_entry (f : FontData) : FontData := mkFontData (fo_name f) (fo_path f) [].
(** What the index leaves to the image's file: the encoded file, the bitmap and the size *)
Definition image_entry (v : ImageData) : ImageData :=
  set_im_jpeg (option_map (fun j => mkImageDataJpeg (ij_path j) (ij_name j) (ij_internal_name j) []) (im_jpeg v)) v.
(** Images whose index entry tells whether there is an encoded file: there is one unless the path ends in .bmp or the image is a link.
    The hash has 16 bytes and the alpha test value has a JSON form. *)
Definition image_regular (v : ImageData) : Prop :=
  match im_md5_hash v with Some h => zlen h = 16 | None => True end /\ finite (im_alpha_test_value v) /\
  (im_jpeg v = None <-> im_link v = Some (Z_to_w32 1) \/ lower_case (path_ext (im_path v)) = lit "bmp").

(** The keys with a meaning in one of these structures *)
Definition struct_keys : list string := [
  "name"; "type"; "type_"; "wrap_lighting"; "roughness"; "glossy_image_lerp"; "thickness"; "edge"; "edge_alpha"; "opacity"; "base_color";
  "glossy_color"; "clearcoat_color"; "opacity_active"; "elasticity"; "elasticity_falloff"; "friction"; "scatter_angle"; "refraction_tint";
  "is_metal"; "opacity_active_edge_alpha"; "roughness_clear"; "reflection_plane"; "reflection_mode"; "disable_light_reflection";
  "trailing_data"; "items"; "fire_events"; "stop_single_events"; "group_elements"; "table_name"; "author_name"; "table_blurb"; "table_rules";
  "author_email"; "release_date"; "table_save_rev"; "table_version"; "author_website"; "table_save_date"; "table_description"; "properties";
  "properties_order"; "path"; "internal_name"; "fade"; "volume"; "balance"; "output_target"; "name_dedup"; "width"; "height"; "link";
  "alpha_test_value"; "is_opaque"; "is_signed"; "jpeg_name"; "jpeg_internal_name"; "jpeg_path"; "md5_hash"]%string.

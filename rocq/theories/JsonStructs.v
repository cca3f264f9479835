(** The JSON forms of the structures other than game items: materials, render probes, collections, the table information, and the
    entries of the indices of images, sounds and fonts. *)
From Verif Require Import Base Text Biff Common Enums StructMaterial StructRenderProbe Structs Image Sound TableInfo ExpandedAssets Json JsonItems.

Section Structs.
Context {L : json_lib}.

(** material.rs:535-602 [MaterialJson], [from_material], [to_material] *)
Definition jc_Material : jcodec Material :=
  jc_record (fun m => object [
      put "name" jc_string (Material_name m); put "type" jc_MaterialType (Material_type_ m);
      put "wrap_lighting" jc_f32 (Material_wrap_lighting m); put "roughness" jc_f32 (Material_roughness m);
      put "glossy_image_lerp" jc_f32 (Material_glossy_image_lerp m); put "thickness" jc_f32 (Material_thickness m);
      put "edge" jc_f32 (Material_edge m); put "edge_alpha" jc_f32 (Material_edge_alpha m); put "opacity" jc_f32 (Material_opacity m);
      put "base_color" jc_Color (Material_base_color m); put "glossy_color" jc_Color (Material_glossy_color m);
      put "clearcoat_color" jc_Color (Material_clearcoat_color m); put "opacity_active" jc_bool (Material_opacity_active m);
      put "elasticity" jc_f32_nan_inf (Material_elasticity m); put "elasticity_falloff" jc_f32_nan_inf (Material_elasticity_falloff m);
      put "friction" jc_f32_nan_inf (Material_friction m); put "scatter_angle" jc_f32_nan_inf (Material_scatter_angle m);
      put "refraction_tint" jc_Color (Material_refraction_tint m)])
    (fun o =>
      name <~ get o ["name"%string] jc_string ;; type_ <~ get o ["type"%string; "type_"%string] jc_MaterialType ;;
      wrap_lighting <~ get o ["wrap_lighting"%string] jc_f32 ;; roughness <~ get o ["roughness"%string] jc_f32 ;;
      glossy_image_lerp <~ get o ["glossy_image_lerp"%string] jc_f32 ;; thickness <~ get o ["thickness"%string] jc_f32 ;;
      edge <~ get o ["edge"%string] jc_f32 ;; edge_alpha <~ get o ["edge_alpha"%string] jc_f32 ;; opacity <~ get o ["opacity"%string] jc_f32 ;;
      base_color <~ get o ["base_color"%string] jc_Color ;; glossy_color <~ get o ["glossy_color"%string] jc_Color ;;
      clearcoat_color <~ get o ["clearcoat_color"%string] jc_Color ;; opacity_active <~ get o ["opacity_active"%string] jc_bool ;;
      elasticity <~ get o ["elasticity"%string] jc_f32_nan_inf ;; elasticity_falloff <~ get o ["elasticity_falloff"%string] jc_f32_nan_inf ;;
      friction <~ get o ["friction"%string] jc_f32_nan_inf ;; scatter_angle <~ get o ["scatter_angle"%string] jc_f32_nan_inf ;;
      refraction_tint <~ get o ["refraction_tint"%string] jc_Color ;;
      Ok (mkMaterial name type_ wrap_lighting roughness glossy_image_lerp thickness edge edge_alpha opacity base_color glossy_color clearcoat_color
            opacity_active elasticity elasticity_falloff friction scatter_angle refraction_tint)).
(** material.rs:216-264 [SaveMaterialJson], [from_save_material], [to_save_material] *)
Definition jc_SaveMaterial : jcodec SaveMaterial :=
  jc_record (fun m => object [
      put "name" jc_string (sm_name m); put "base_color" jc_Color (sm_base_color m); put "glossy_color" jc_Color (sm_glossy_color m);
      put "clearcoat_color" jc_Color (sm_clearcoat_color m); put "wrap_lighting" jc_f32 (sm_wrap_lighting m); put "is_metal" jc_bool (sm_is_metal m);
      put "roughness" jc_f32 (sm_roughness m); put "glossy_image_lerp" jc_u8 (sm_glossy_image_lerp m); put "edge" jc_f32 (sm_edge m);
      put "thickness" jc_u8 (sm_thickness m); put "opacity" jc_f32 (sm_opacity m);
      put "opacity_active_edge_alpha" jc_u8 (sm_opacity_active_edge_alpha m)])
    (fun o =>
      name <~ get o ["name"%string] jc_string ;; base_color <~ get o ["base_color"%string] jc_Color ;;
      glossy_color <~ get o ["glossy_color"%string] jc_Color ;; clearcoat_color <~ get o ["clearcoat_color"%string] jc_Color ;;
      wrap_lighting <~ get o ["wrap_lighting"%string] jc_f32 ;; is_metal <~ get o ["is_metal"%string] jc_bool ;;
      roughness <~ get o ["roughness"%string] jc_f32 ;; glossy_image_lerp <~ get o ["glossy_image_lerp"%string] jc_u8 ;;
      edge <~ get o ["edge"%string] jc_f32 ;; thickness <~ get o ["thickness"%string] jc_u8 ;; opacity <~ get o ["opacity"%string] jc_f32 ;;
      opacity_active_edge_alpha <~ get o ["opacity_active_edge_alpha"%string] jc_u8 ;;
      Ok (mkSaveMaterial name base_color glossy_color clearcoat_color wrap_lighting is_metal roughness glossy_image_lerp edge thickness opacity
            opacity_active_edge_alpha)).
(** material.rs:362-389 [SavePhysicsMaterialJson], [from_save_physics_material], [to_save_physics_material] *)
Definition jc_SavePhysicsMaterial : jcodec SavePhysicsMaterial :=
  jc_record (fun m => object [
      put "name" jc_string (sp_name m); put "elasticity" jc_f32_nan_inf (sp_elasticity m);
      put "elasticity_falloff" jc_f32_nan_inf (sp_elasticity_falloff m); put "friction" jc_f32_nan_inf (sp_friction m);
      put "scatter_angle" jc_f32_nan_inf (sp_scatter_angle m)])
    (fun o =>
      name <~ get o ["name"%string] jc_string ;; elasticity <~ get o ["elasticity"%string] jc_f32_nan_inf ;;
      elasticity_falloff <~ get o ["elasticity_falloff"%string] jc_f32_nan_inf ;; friction <~ get o ["friction"%string] jc_f32_nan_inf ;;
      scatter_angle <~ get o ["scatter_angle"%string] jc_f32_nan_inf ;;
      Ok (mkSavePhysicsMaterial name elasticity elasticity_falloff friction scatter_angle)).
(** renderprobe.rs:254-304 [RenderProbeJson], [from_renderprobe], [to_renderprobe] *)
Definition jc_RenderProbe : jcodec RenderProbeWithGarbage :=
  jc_record (fun g => let p := rp_probe g in object [
      put "type" jc_RenderProbeType (RenderProbe_type_ p); put "name" jc_string (RenderProbe_name p);
      put "roughness" jc_u32 (RenderProbe_roughness p); put_some "roughness_clear" jc_u32 (RenderProbe_roughness_clear p);
      put "reflection_plane" jc_Vertex4D (RenderProbe_reflection_plane p); put "reflection_mode" jc_ReflectionMode (RenderProbe_reflection_mode p);
      put_some "disable_light_reflection" jc_bool (RenderProbe_disable_light_reflection p);
      put_some "trailing_data" (jc_list jc_u8) (match rp_trailing g with [] => None | d => Some d end)])
    (fun o =>
      type_ <~ get o ["type"%string; "type_"%string] jc_RenderProbeType ;; name <~ get o ["name"%string] jc_string ;;
      roughness <~ get o ["roughness"%string] jc_u32 ;; roughness_clear <~ get o ["roughness_clear"%string] (jc_option jc_u32) ;;
      reflection_plane <~ get o ["reflection_plane"%string] jc_Vertex4D ;; reflection_mode <~ get o ["reflection_mode"%string] jc_ReflectionMode ;;
      disable_light_reflection <~ get o ["disable_light_reflection"%string] (jc_option jc_bool) ;;
      trailing_data <~ get o ["trailing_data"%string] (jc_option (jc_list jc_u8)) ;;
      Ok (mkRenderProbeG (mkRenderProbe type_ name roughness roughness_clear reflection_plane reflection_mode disable_light_reflection)
            (match trailing_data with Some d => d | None => [] end))).
(** jsonmodel.rs:10-17, 84-119 [collections_json], [json_to_collections]: one collection *)
Definition jc_Collection : jcodec Collection :=
  jc_record (fun c => object [
      put "name" jc_string (co_name c); put "items" (jc_list jc_string) (co_items c); put "fire_events" jc_bool (co_fire_events c);
      put "stop_single_events" jc_bool (co_stop_single_events c); put "group_elements" jc_bool (co_group_elements c)])
    (fun o =>
      name <~ get o ["name"%string] jc_string ;; items <~ get o ["items"%string] (jc_list jc_string) ;;
      fire_events <~ get o ["fire_events"%string] jc_bool ;; stop_single_events <~ get o ["stop_single_events"%string] jc_bool ;;
      group_elements <~ get o ["group_elements"%string] jc_bool ;;
      Ok (mkCollection name items fire_events stop_single_events group_elements)).
(** [HashMap<String, String>]: an object; its keys as UTF-8, in the order of the map.  A repeated key replaces the one before. *)
Definition key_of (s : rstring) : string := string_of_list_byte (utf8_encode s).
Fixpoint read_map (o : list (string * json)) (m : list (rstring * rstring)) : res (list (rstring * rstring)) :=
  match o with
  | [] => Ok m
  | (k, j) :: o' =>
      match utf8_decode (list_byte_of_string k) with
      | Some k => v <~ jc_of jc_string j ;; read_map o' (map_insert k v m)
      | None => Err
      end
  end.
Definition jc_map : jcodec (list (rstring * rstring)) :=
  mkCodec (fun m => Jobj (map (fun e => (key_of (fst e), Jstr (snd e))) m)) (fun j => o <~ fields_of j ;; read_map o []) None.
(** jsonmodel.rs:23-38 [TableInfoJson], 40-61 [info_to_json], 63-83 [json_to_info]: the table information, without the screenshot, and
    the custom information tags *)
Definition jc_TableInfo : jcodec (TableInfo * list rstring) :=
  jc_record (fun x => let t := fst x in object [
      put "table_name" (jc_option jc_string) (ti_table_name t); put "author_name" (jc_option jc_string) (ti_author_name t);
      put "table_blurb" (jc_option jc_string) (ti_table_blurb t); put "table_rules" (jc_option jc_string) (ti_table_rules t);
      put "author_email" (jc_option jc_string) (ti_author_email t); put "release_date" (jc_option jc_string) (ti_release_date t);
      put "table_save_rev" (jc_option jc_string) (ti_table_save_rev t); put "table_version" (jc_option jc_string) (ti_table_version t);
      put "author_website" (jc_option jc_string) (ti_author_website t); put "table_save_date" (jc_option jc_string) (ti_table_save_date t);
      put "table_description" (jc_option jc_string) (ti_table_description t); put "properties" jc_map (ti_properties t);
      put "properties_order" (jc_list jc_string) (snd x)])
    (fun o =>
      table_name <~ get o ["table_name"%string] (jc_option jc_string) ;; author_name <~ get o ["author_name"%string] (jc_option jc_string) ;;
      table_blurb <~ get o ["table_blurb"%string] (jc_option jc_string) ;; table_rules <~ get o ["table_rules"%string] (jc_option jc_string) ;;
      author_email <~ get o ["author_email"%string] (jc_option jc_string) ;; release_date <~ get o ["release_date"%string] (jc_option jc_string) ;;
      table_save_rev <~ get o ["table_save_rev"%string] (jc_option jc_string) ;; table_version <~ get o ["table_version"%string] (jc_option jc_string) ;;
      author_website <~ get o ["author_website"%string] (jc_option jc_string) ;; table_save_date <~ get o ["table_save_date"%string] (jc_option jc_string) ;;
      table_description <~ get o ["table_description"%string] (jc_option jc_string) ;; properties <~ get o ["properties"%string] jc_map ;;
      properties_order <~ get o ["properties_order"%string] (jc_list jc_string) ;;
      Ok (mkTableInfo table_name author_name None table_blurb table_rules author_email release_date table_save_rev table_version author_website
            table_save_date table_description properties, properties_order)).
(** [serde(default)]: what a missing field gives *)
Definition jc_default {A} (d : A) (c : jcodec A) : jcodec A := mkCodec (jc_to c) (jc_of c) (Some d).
(** sound.rs:122-140 [SoundDataJson] *)
Definition jc_SoundDataJson : jcodec SoundDataJson :=
  jc_record (fun s => object [
      put "name" jc_string (sj_name s); put "path" jc_string (sj_path s); put "internal_name" (jc_default [] jc_string) (sj_internal_name s);
      put "fade" jc_u32 (sj_fade s); put "volume" jc_u32 (sj_volume s); put "balance" jc_u32 (sj_balance s);
      put "output_target" jc_OutputTarget (sj_output_target s); put_some "name_dedup" jc_string (sj_name_dedup s)])
    (fun o =>
      name <~ get o ["name"%string] jc_string ;; path <~ get o ["path"%string] jc_string ;;
      internal_name <~ get o ["internal_name"%string] (jc_default [] jc_string) ;;
      fade <~ get o ["fade"%string] jc_u32 ;; volume <~ get o ["volume"%string] jc_u32 ;; balance <~ get o ["balance"%string] jc_u32 ;;
      output_target <~ get o ["output_target"%string] jc_OutputTarget ;; name_dedup <~ get o ["name_dedup"%string] (jc_option jc_string) ;;
      Ok (mkSoundDataJson name path internal_name fade volume balance output_target name_dedup)).
(** image.rs:183-217 [ImageDataJson] *)
Definition jc_ImageDataJson : jcodec ImageDataJson :=
  jc_record (fun i => object [
      put "name" jc_string (aj_name i); put_some "internal_name" jc_string (aj_internal_name i); put "path" jc_string (aj_path i);
      put_some "width" jc_u32 (aj_width i); put_some "height" jc_u32 (aj_height i); put_some "link" jc_u32 (aj_link i);
      put_some "alpha_test_value" jc_f32 (aj_alpha_test_value i); put_some "is_opaque" jc_bool (aj_is_opaque i);
      put_some "is_signed" jc_bool (aj_is_signed i); put_some "jpeg_name" jc_string (aj_jpeg_name i);
      put_some "jpeg_internal_name" jc_string (aj_jpeg_internal_name i); put_some "jpeg_path" jc_string (aj_jpeg_path i);
      put_some "name_dedup" jc_string (aj_name_dedup i); put_some "md5_hash" jc_string (aj_md5_hash i)])
    (fun o =>
      name <~ get o ["name"%string] jc_string ;; internal_name <~ get o ["internal_name"%string] (jc_option jc_string) ;;
      path <~ get o ["path"%string] jc_string ;; width <~ get o ["width"%string] (jc_option jc_u32) ;;
      height <~ get o ["height"%string] (jc_option jc_u32) ;; link <~ get o ["link"%string] (jc_option jc_u32) ;;
      alpha_test_value <~ get o ["alpha_test_value"%string] (jc_option jc_f32) ;; is_opaque <~ get o ["is_opaque"%string] (jc_option jc_bool) ;;
      is_signed <~ get o ["is_signed"%string] (jc_option jc_bool) ;; jpeg_name <~ get o ["jpeg_name"%string] (jc_option jc_string) ;;
      jpeg_internal_name <~ get o ["jpeg_internal_name"%string] (jc_option jc_string) ;;
      jpeg_path <~ get o ["jpeg_path"%string] (jc_option jc_string) ;; name_dedup <~ get o ["name_dedup"%string] (jc_option jc_string) ;;
      md5_hash <~ get o ["md5_hash"%string] (jc_option jc_string) ;;
      Ok (mkImageDataJson name internal_name path width height link alpha_test_value is_opaque is_signed jpeg_name jpeg_internal_name jpeg_path
            name_dedup md5_hash)).
(** font.rs:15-35 [FontDataJson] *)
Definition jc_FontDataJson : jcodec FontDataJson :=
  jc_record (fun f => object [put "name" jc_string (fj_name f); put "path" jc_string (fj_path f)])
    (fun o => name <~ get o ["name"%string] jc_string ;; path <~ get o ["path"%string] jc_string ;; Ok (mkFontDataJson name path)).
End Structs.

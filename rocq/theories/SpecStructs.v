(** The specification used by the statements about collections, fonts, info tags, materials, render probes and game data:
    which values can be stored, and how they are laid out. *)
From Coq Require Import SpecFloat.
From Verif Require Import Base Text Biff Quantize Common Enums SpecBiff.
From Verif Require Import StructMaterial StructRenderProbe Structs GDBounds GDDesktop GDCabinet GDPhysics GDScene GameData.

(** ** Values that can be stored *)
(** Sizes that fit the 32-bit length of a record with its tag and a length prefix. *)
Definition size_fits (n : Z) : Prop := n < 2 ^ 32 - 8.
(** Latin-1 strings without NUL. *)
Definition string_fits (s : rstring) : Prop := Forall latin1_char s /\ size_fits (zlen s).
(** Unicode strings. *)
Definition wide_fits (s : rstring) : Prop := Forall scalar_value s /\ size_fits (zlen (encode_utf16le s)).
Definition data_fits (d : bytes) : Prop := size_fits (zlen d).
(** Names in the fixed 32-byte fields of the legacy materials. *)
Definition short_name (s : rstring) : Prop := Forall latin1_char s /\ zlen s <= 31.
Definition option_all {A} (P : A -> Prop) (o : option A) : Prop := match o with Some x => P x | None => True end.

(** ** Layout *)
Definition latin1_text (s : rstring) : bytes := map (fun c => Z_to_byte (Z.of_N c)) s.
(** A length and the characters. *)
Definition string_payload (s : rstring) : bytes := le32 (zlen s) ++ latin1_text s.
Definition wide_payload (s : rstring) : bytes := le32 (zlen (encode_utf16le s)) ++ encode_utf16le s.
Definition bool_payload (b : bool) : bytes := le32 (if b then 1 else 0).
Definition collection_records (v : Collection) : list (string * bytes) :=
  [("NAME"%string, wide_payload (co_name v))] ++ map (fun x => ("ITEM"%string, wide_payload x)) (co_items v) ++
  [("EVNT"%string, bool_payload (co_fire_events v)); ("SSNG"%string, bool_payload (co_stop_single_events v));
   ("GREL"%string, bool_payload (co_group_elements v))].
Definition font_records (v : FontData) : list (string * bytes) :=
  [("NAME"%string, string_payload (fo_name v)); ("PATH"%string, string_payload (fo_path v));
   ("SIZE"%string, le32 (zlen (fo_data v))); ("DATA"%string, fo_data v)].
(** A color on disk: red, green, blue, unused. *)
Definition color_ref (c : Color) : bytes := [c_r c; c_g c; c_b c; c_unused c].
Definition material_records (m : Material) : list (string * bytes) :=
  [("TYPE"%string, le32 (match Material_type_ m with MaterialType_Basic => 0 | MaterialType_Metal => 1 | MaterialType_Unknown => -1 end));
   ("NAME"%string, string_payload (Material_name m));
   ("WLIG"%string, w32_bytes (Material_wrap_lighting m)); ("ROUG"%string, w32_bytes (Material_roughness m));
   ("GIML"%string, w32_bytes (Material_glossy_image_lerp m)); ("THCK"%string, w32_bytes (Material_thickness m));
   ("EDGE"%string, w32_bytes (Material_edge m)); ("EALP"%string, w32_bytes (Material_edge_alpha m));
   ("OPAC"%string, w32_bytes (Material_opacity m)); ("BASE"%string, color_ref (Material_base_color m));
   ("GLOS"%string, color_ref (Material_glossy_color m)); ("COAT"%string, color_ref (Material_clearcoat_color m));
   ("RTNT"%string, color_ref (Material_refraction_tint m)); ("EOPA"%string, bool_payload (Material_opacity_active m));
   ("ELAS"%string, w32_bytes (Material_elasticity m)); ("ELFO"%string, w32_bytes (Material_elasticity_falloff m));
   ("FRIC"%string, w32_bytes (Material_friction m)); ("SCAT"%string, w32_bytes (Material_scatter_angle m))].
(** A text in a field of 32 bytes, filled up with NUL. *)
Definition name32 (s : rstring) : bytes := latin1_text s ++ repeat x00 (Z.to_nat (32 - zlen s)).
Definition u8_word (b : byte) : bytes := [b; x00; x00; x00].
Definition legacy_material_layout (m : SaveMaterial) : bytes :=
  name32 (sm_name m) ++ color_ref (sm_base_color m) ++ color_ref (sm_glossy_color m) ++ color_ref (sm_clearcoat_color m) ++
  w32_bytes (sm_wrap_lighting m) ++ u8_word (if sm_is_metal m then x01 else x00) ++ w32_bytes (sm_roughness m) ++
  u8_word (sm_glossy_image_lerp m) ++ w32_bytes (sm_edge m) ++ u8_word (sm_thickness m) ++ w32_bytes (sm_opacity m) ++
  u8_word (sm_opacity_active_edge_alpha m).
Definition legacy_physics_layout (m : SavePhysicsMaterial) : bytes :=
  name32 (sp_name m) ++ w32_bytes (sp_elasticity m) ++ w32_bytes (sp_elasticity_falloff m) ++ w32_bytes (sp_friction m) ++
  w32_bytes (sp_scatter_angle m).

(** ** Game data *)
(** A script that is the text of some bytes without NUL. *)
Definition script_fits (s : StringWithEncoding) : Prop :=
  exists d, ~ In x00 d /\ data_fits d /\ s = swe_of_bytes d.
(** The counters agree with the lists they count. *)
Definition counters_agree (v : GameData) : Prop :=
  w32_to_Z (gt_materials_size (gd_tail v)) = zlen (gt_materials_old (gd_tail v)) /\
  option_all (fun l => w32_to_Z (gt_materials_size (gd_tail v)) = zlen l) (gt_materials_physics_old (gd_tail v)).
(** The lengths of the nested streams fit: a legacy material takes 76 bytes and a legacy physics material 48; a 10.8
    material and a render probe take less than 300 bytes besides their names and trailing bytes. *)
Definition list_of {A} (o : option (list A)) : list A := match o with Some l => l | None => [] end.
Definition blocks_fit (v : GameData) : Prop :=
  size_fits (76 * zlen (gt_materials_old (gd_tail v))) /\
  option_all (fun l => size_fits (48 * zlen l)) (gt_materials_physics_old (gd_tail v)) /\
  Forall (fun m => size_fits (zlen (Material_name m) + 300)) (list_of (gt_materials (gd_tail v))) /\
  Forall (fun p => size_fits (zlen (RenderProbe_name (rp_probe p)) + zlen (rp_trailing p) + 300)) (list_of (gt_render_probes (gd_tail v))).
Definition strings_fit (v : GameData) : Prop :=
  string_fits (GDPhysics_image (gd_physics v)) /\
  string_fits (GDPhysics_backglass_image_full_desktop (gd_physics v)) /\
  string_fits (GDPhysics_backglass_image_full_fullscreen (gd_physics v)) /\
  option_all string_fits (GDPhysics_backglass_image_full_single_screen (gd_physics v)) /\
  string_fits (GDPhysics_image_color_grade (gd_physics v)) /\
  string_fits (GDPhysics_ball_image (gd_physics v)) /\
  string_fits (GDPhysics_ball_image_front (gd_physics v)) /\
  option_all string_fits (GDPhysics_env_image (gd_physics v)) /\
  option_all string_fits (GDPhysics_notes (gd_physics v)) /\
  string_fits (GDPhysics_screen_shot (gd_physics v)) /\
  string_fits (GDScene_playfield_material (gd_scene v)) /\
  Forall (fun m => short_name (sm_name m)) (gt_materials_old (gd_tail v)) /\
  option_all (Forall (fun m => short_name (sp_name m))) (gt_materials_physics_old (gd_tail v)) /\
  Forall (fun m => string_fits (Material_name m)) (list_of (gt_materials (gd_tail v))) /\
  Forall (fun p => string_fits (RenderProbe_name (rp_probe p))) (list_of (gt_render_probes (gd_tail v))) /\
  wide_fits (gt_name (gd_tail v)) /\
  option_all data_fits (gt_protection_data (gd_tail v)) /\
  script_fits (gt_code (gd_tail v)).
(** Fields with fewer values on disk than in memory: the reflection strength is stored as one byte, a tone mapper is
    stored as its number, and there are always 16 custom colors. *)
Definition scalars_fit (v : GameData) : Prop :=
  (exists q, w32_to_Z q <= 255 /\ GDScene_playfield_reflection_strength (gd_scene v) = dequantize_unsigned_8 q) /\
  (forall n, GDScene_tone_mapper (gd_scene v) = Some (ToneMapper_Other n) -> 5 <= w32_to_Z n) /\
  zlen (gt_custom_colors (gd_tail v)) = 16.
Definition storable (v : GameData) : Prop := counters_agree v /\ blocks_fit v /\ strings_fit v /\ scalars_fit v.

(** The record EFSS is in the place used before 10.8 and by the first four betas of 10.8, that is after the desktop and
    before the cabinet settings. *)
Definition late_position (ver : Z) (v : GameData) : Prop := ver < 1080 \/ gd_beta v = true.

(** The layout of game data: records, then the script with a header of size 4, then records, then the end marker. *)
Definition game_data_layout (before : list (string * bytes)) (script : bytes) (after : list (string * bytes)) : bytes :=
  flat_map record_bytes before ++ (le32 4 ++ tag4 "CODE" ++ le32 (zlen script) ++ script) ++ flat_map record_bytes after ++
  record_bytes ("ENDB"%string, []).
(** [InsertedBut t known rs rs']: [rs'] is [rs] with extra unknown records anywhere except immediately before a record [t]. *)
Inductive InsertedBut (t : string) (known : list string) : list (string * bytes) -> list (string * bytes) -> Prop :=
| InsertedBut_nil : InsertedBut t known [] []
| InsertedBut_same r rs rs' : InsertedBut t known rs rs' -> InsertedBut t known (r :: rs) (r :: rs')
| InsertedBut_extra r rs rs' :
    valid_record r -> ~ In (fst r) known -> match rs' with (t', _) :: _ => t' <> t | [] => True end ->
    InsertedBut t known rs rs' -> InsertedBut t known rs (r :: rs').

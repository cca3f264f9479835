(** What extracting a table into a directory and assembling it again must keep. *)
From Coq Require Import Permutation.
From Verif Require Import Base Text Biff Quantize Common Enums ItemPrimitive StructMaterial Structs GameItem GameData Image Sound Cfb
  TableInfo Vpx FileSystem ExpandedItems SpecExpanded SpecAssets JsonFloat Json SpecJson SpecJsonRecords SpecJsonGameItem SpecJsonStructs SpecJsonGameData
  Mesh SpecMesh Gltf SpecGltf Extract.

(** ** The libraries *)
(** JSON texts are parsed to the value they were printed from (also with spaces after a compact text), zlib restores what it compressed, numbers survive being printed, and the
    threads write every file of every item once. *)
Definition toolbox_ok (B : toolbox) : Prop :=
  lib_ok (tb_json B) /\ (forall j, tb_parse B (tb_print B j) = Ok j) /\
  (forall j k, tb_parse B (tb_compact B j ++ repeat x20 k) = Ok j) /\
  keeps_numbers (jl_lower (tb_json B)) /\ tb_alphanumeric B 46%N = false /\
  number_texts (tb_print32 B) (tb_print64 B) (tb_parse64 B) /\ (forall d, tb_decompress B (tb_compress B d) = Ok d) /\
  (forall l, Permutation (tb_schedule B l) l).

Section SpecExtract.
Variable B : toolbox.

(** ** Game items *)
(** The vertices of every animation frame of a primitive *)
Definition frames_decode (p : Primitive) (decoded : list (list frame_vertex)) : Prop :=
  match Primitive_compressed_animation_vertices_data p, Primitive_compressed_animation_vertices_len p with
  | None, _ => decoded = []
  | Some ds, Some ns => List.length ds = List.length ns /\
      Forall2 (fun f d => read_animation_frame (tb_decompress B) (fst f) (snd f) = Ok d) (combine ds ns) decoded
  | Some _, None => False
  end.
(** OBJ files of an object with this name are parsed to the lines they were printed from.  (A line break in the name, say, breaks it.) *)
Definition obj_text_kept (name : rstring) : Prop :=
  forall vs fs, let ls := write_obj (tb_num B) (tb_print32 B) (tb_print64 B) (tb_digits B) (tb_parse64 B) (tb_estimate B) name vs fs in
    tb_obj_parse B (tb_obj_print B ls) = Ok ls.
(** The conditions of a format on a mesh with frames: texts that are kept and no NaN in frames for OBJ files; no NaN among the normals of
    frames for the others; less than 4 GiB for GLB files *)
Definition format_fits (m : mesh_format) (name : rstring) (vs : list wrapper) (fs : list face) (frames : list (list frame_vertex)) : Prop :=
  match m with
  | FmtObj => obj_text_kept name /\ Forall no_nan frames
  | FmtGlb => Forall no_nan_normals frames /\ Forall (fun vs' => zlen (write_glb (tb_compact B) name vs' fs) < 2 ^ 32) (vs :: map (replace_vertices vs) frames)
  | FmtGltf => Forall no_nan_normals frames
  end.
(** Items with finite floats.  A primitive does not have a name that could be taken for something else; its mesh, if it has one, can be
    decoded; its frames can be decoded and have no more vertices than the mesh.  There are no frames without a mesh. *)
Definition extractable_item (m : mesh_format) (i : GameItem) : Prop :=
  GI_finite i /\
  match i with
  | GI_Primitive p =>
      clear_name (tb_alphanumeric B) (mkXitem [] (GI_name i) [] None) /\
      exists mesh frames, read_mesh (tb_decompress B) (mesh_of p) = Ok mesh /\ frames_decode p frames /\
        match mesh with
        | None => frames = []
        | Some (vs, fs) => format_fits m (GI_name i) vs fs frames /\
            Forall (fun d => (List.length d <= List.length vs)%nat /\ zlen (tb_compress B (flat_map write_frame_vertex d)) < 2 ^ 32) frames
        end
  | _ => True
  end.
(** The lengths stored beside compressed data are right. *)
Definition lengths_stored (p : Primitive) : Prop :=
  let length_of o := option_map (fun d : bytes => Z_to_w32 (zlen d)) o in
  Primitive_compressed_vertices_len p = length_of (Primitive_compressed_vertices_data p) /\
  Primitive_compressed_indices_len p = length_of (Primitive_compressed_indices_data p).
(** The same item, with the same mesh and the same frames (compressed anew) *)
Definition same_item (i i' : GameItem) : Prop :=
  GI_without_mesh i' = GI_without_mesh i /\
  match i, i' with
  | GI_Primitive p, GI_Primitive p' =>
      read_mesh (tb_decompress B) (mesh_of p') = read_mesh (tb_decompress B) (mesh_of p) /\
      (forall frames, frames_decode p frames -> frames_decode p' frames) /\ lengths_stored p'
  | _, _ => True
  end.

(** ** The game data *)
(** The counts are those of the lists; the materials of older versions are those computed from the materials, if there are any. *)
Definition counts_agree (v : VPX) : Prop :=
  let g := gd_tail (vpx_gamedata v) in
  gt_gameitems_size g = Z_to_w32 (zlen (vpx_gameitems v)) /\ gt_images_size g = Z_to_w32 (zlen (vpx_images v)) /\
  gt_sounds_size g = Z_to_w32 (zlen (vpx_sounds v)) /\ gt_fonts_size g = Z_to_w32 (zlen (vpx_fonts v)) /\
  gt_collections_size g = Z_to_w32 (zlen (vpx_collections v)).
Definition materials_agree (g : GDTail) : Prop :=
  match gt_materials g with
  | Some ms => Forall2 (fun m s => SaveMaterial_of m = Ok s) ms (gt_materials_old g) /\
               gt_materials_physics_old g = Some (map SavePhysicsMaterial_of ms) /\ gt_materials_size g = Z_to_w32 (zlen ms)
  | None => gt_materials_size g = Z_to_w32 (zlen (gt_materials_old g))
  end.
Definition extractable_data (d : GameData) : Prop :=
  let g := gd_tail d in
  GameData_finite d /\ (exists script, gt_code g = swe_of_bytes script) /\ for_some (Forall Material_finite) (gt_materials g) /\
  (gt_materials g = None -> Forall SaveMaterial_finite (gt_materials_old g)) /\ for_some (Forall RenderProbe_finite) (gt_render_probes g).

(** ** Tables *)
Definition font_files_differ (fonts : list FontData) : Prop :=
  NoDup (map (fun f => tb_key B (tb_sanitize B (fo_name f) ++ lit "." ++ path_ext (fo_path f))) fonts).
Definition extractable (m : mesh_format) (v : VPX) : Prop :=
  info_is_map (vpx_info v) /\ Forall (extractable_item m) (vpx_gameitems v) /\
  Forall (extractable_image (tb_lzw_encode B) (tb_lzw_decode B) (tb_bmp_encode B) (tb_load B)) (vpx_images v) /\
  Forall (fun i => finite (im_alpha_test_value i)) (vpx_images v) /\
  Forall extractable_sound (vpx_sounds v) /\ font_files_differ (vpx_fonts v) /\ extractable_data (vpx_gamedata v).
(** Everything but the game data *)
Definition same_lists (v v' : VPX) : Prop :=
  vpx_custominfotags v' = vpx_custominfotags v /\ vpx_info v' = vpx_info v /\ vpx_version v' = vpx_version v /\
  Forall2 same_item (vpx_gameitems v) (vpx_gameitems v') /\ Forall2 (same_image (tb_lzw_decode B)) (vpx_images v) (vpx_images v') /\
  vpx_sounds v' = vpx_sounds v /\ vpx_fonts v' = vpx_fonts v /\ vpx_collections v' = vpx_collections v.
(** The game data of [v'] is that of [v], except for what is counted or computed from the rest: the counts, and the materials of older
    versions if there are materials. *)
Definition same_data (v v' : VPX) : Prop :=
  let g := gd_tail (vpx_gamedata v) in let g' := gd_tail (vpx_gamedata v') in
  GameData_json_part (vpx_gamedata v') = GameData_json_part (vpx_gamedata v) /\ gt_code g' = gt_code g /\
  gt_materials g' = gt_materials g /\ gt_render_probes g' = gt_render_probes g /\
  (gt_materials g = None -> gt_materials_old g' = gt_materials_old g /\ gt_materials_physics_old g' = gt_materials_physics_old g).
(** Names of images and sounds for which file names are found (see C32) *)
Definition ordinary_names (v : VPX) : Prop :=
  keeps_dedup (jl_lower (tb_json B)) /\ tells_apart (tb_key B) (jl_lower (tb_json B)) /\
  Forall (ordinary_name (tb_sanitize B) (jl_lower (tb_json B))) (map im_name (vpx_images v)) /\
  Forall (ordinary_name (tb_sanitize B) (jl_lower (tb_json B))) (map so_name (vpx_sounds v)).
End SpecExtract.

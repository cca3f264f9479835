(** Whole tables as directories of files: src/vpx/expanded/mod.rs (write_fs, read_fs), metadata.rs, materials.rs, gameitems.rs and the
    part of primitives.rs that puts meshes into files and back.

    The subdirectories are taken to be separate (see C32 for names that lead out of them).  Meshes are written as
    OBJ, GLB or glTF files.  Derived meshes (a debugging option) are left out.  Of several failures, the one
    that is reported may differ from the program's. *)
From Verif Require Import Base Text Biff Quantize Common Enums ItemPrimitive StructMaterial Structs GameItem GameData Image Sound Cfb
  TableInfo Vpx FileSystem ExpandedItems ExpandedAssets JsonFloat Json JsonItems JsonGameItem JsonStructs JsonGameData Mesh Gltf.

(** The libraries the code relies on *)
Record toolbox : Type := mkToolbox {
  tb_json : json_lib;
  tb_print : @json tb_json -> bytes;                       (* [serde_json::to_writer_pretty], [to_vec_pretty] *)
  tb_compact : @json tb_json -> bytes;                     (* [serde_json::to_string] *)
  tb_parse : bytes -> res (@json tb_json);                 (* [serde_json::from_reader], [from_slice] *)
  tb_alphanumeric : uchar -> bool;                         (* [char::is_alphanumeric] *)
  tb_sanitize : rstring -> rstring;                        (* [sanitize_filename::sanitize] *)
  tb_key : rstring -> rstring;                             (* the file a name denotes *)
  tb_num : Type;                                           (* numbers as texts, see Mesh.v *)
  tb_print32 : f32 -> tb_num;
  tb_print64 : f64 -> tb_num;
  tb_digits : nat -> f64 -> tb_num;
  tb_parse64 : tb_num -> option f64;
  tb_estimate : f32 -> nat;
  tb_obj_print : list (line tb_num) -> bytes;              (* the OBJ crate *)
  tb_obj_parse : bytes -> res (list (line tb_num));
  tb_compress : bytes -> bytes;                            (* zlib *)
  tb_decompress : bytes -> res bytes;
  tb_dimensions : rstring -> bytes -> option (u32 * u32);  (* images, see ExpandedAssets.v *)
  tb_lzw_encode : bytes -> res bytes;
  tb_lzw_decode : bytes -> res bytes;
  tb_bmp_encode : dyn_image -> res bytes;
  tb_load : bytes -> res dyn_image;
  tb_schedule : files -> files;                            (* the order in which the threads write the files of the items *)
  tb_checked : bool }.                                     (* overflow checks *)

(** The directory and its subdirectories "gameitems", "images", "sounds" and "fonts" *)
Record tree : Type := mkTree { t_root : files; t_items : files; t_images : files; t_sounds : files; t_fonts : files }.
Definition empty_tree : tree := mkTree [] [] [] [] [].

Existing Class toolbox.
Local Existing Instance tb_json.

Section Extract.
Variable B : toolbox.
Notation lower := (jl_lower (tb_json B)).
Notation write_obj := (write_obj (tb_num B) (tb_print32 B) (tb_print64 B) (tb_digits B) (tb_parse64 B) (tb_estimate B)).

(** ** Game items *)
Definition mesh_of (p : Primitive) : mesh_fields :=
  mkMeshFields (Primitive_num_vertices p) (Primitive_compressed_vertices_data p) (Primitive_num_indices p) (Primitive_compressed_indices_data p).
(** expanded/primitives.rs:67-96, 621-642: what is written for a mesh, given the name of its file without the extension *)
Definition mesh_file (m : mesh_format) (name : rstring) (vs : list wrapper) (fs : list face) : mesh_data := fun stem =>
  match m with
  | FmtObj => (tb_obj_print B (write_obj name vs fs), [])
  | FmtGlb => (write_glb (tb_compact B) name vs fs, [])
  | FmtGltf => write_gltf (tb_compact B) name vs fs (bin_file_name stem)
  end.
(** expanded/primitives.rs:597-645 [write_animation_frames_to_meshes] *)
Fixpoint frame_meshes (m : mesh_format) (name : rstring) (vs : list wrapper) (fs : list face) (frames : list (bytes * u32)) : res (list mesh_data) :=
  match frames with
  | [] => Ok []
  | (d, n) :: frames' =>
      fvs <~ read_animation_frame (tb_decompress B) d n ;;
      r <~ frame_meshes m name vs fs frames' ;; Ok (mesh_file m name (replace_vertices vs fvs) fs :: r)
  end.
(** expanded/primitives.rs:58-110 [write_gameitem_binaries]: the contents of the mesh file and of the frame files *)
Definition mesh_files (m : mesh_format) (i : GameItem) : res (option (mesh_data * list mesh_data)) :=
  match i with
  | GI_Primitive p =>
      mesh <~ read_mesh (tb_decompress B) (mesh_of p) ;;
      match mesh with
      | None => Ok None
      | Some (vs, fs) =>
          frames <~ match Primitive_compressed_animation_vertices_data p with
                    | None => Ok []
                    | Some ds =>
                        match Primitive_compressed_animation_vertices_len p with
                        | Some ns => frame_meshes m (GI_name i) vs fs (combine ds ns)
                        | None => Err
                        end
                    end ;;
          Ok (Some (mesh_file m (GI_name i) vs fs, frames))
      end
  | _ => Ok None
  end.
(** expanded/gameitems.rs:105-115: what is written for an item *)
Definition xitem_of (m : mesh_format) (i : GameItem) : res xitem :=
  mesh <~ mesh_files m i ;; Ok (mkXitem (GI_type_name i) (GI_name i) (tb_print B (GameItem_to_json i)) mesh).
(** expanded/primitives.rs:706-722 *)
Definition set_mesh (m : mesh_fields) (p : Primitive) : Primitive :=
  let len o := option_map (fun d : bytes => Z_to_w32 (zlen d)) o in
  set_Primitive_compressed_indices_data (mf_indices m) (set_Primitive_compressed_indices_len (len (mf_indices m))
    (set_Primitive_num_indices (mf_num_indices m) (set_Primitive_compressed_vertices_data (mf_vertices m)
      (set_Primitive_compressed_vertices_len (len (mf_vertices m)) (set_Primitive_num_vertices (mf_num_vertices m) p))))).
(** expanded/primitives.rs:776-777 *)
Definition set_frames (frames : list (bytes * u32)) (p : Primitive) : Primitive :=
  set_Primitive_compressed_animation_vertices_data (Some (map fst frames)) (set_Primitive_compressed_animation_vertices_len (Some (map snd frames)) p).
(** expanded/primitives.rs:696-722, 797-866: a mesh from a file; [fetch]: the file with this name beside it *)
Definition mesh_from (fetch : rstring -> option bytes) (m : mesh_format) (d : bytes) : res mesh_fields :=
  match m with
  | FmtObj => ls <~ tb_obj_parse B d ;; read_obj_and_compress (tb_num B) (tb_parse64 B) (tb_compress B) ls
  | FmtGlb => x <~ read_glb (tb_parse B) d ;; Ok (gltf_mesh (tb_compress B) x)
  | FmtGltf => x <~ read_gltf (tb_parse B) d fetch ;; Ok (gltf_mesh (tb_compress B) x)
  end.
(** expanded/primitives.rs:902-963 [read_mesh_as_frame], [read_obj_as_frame], [read_gltf_as_frame] *)
Definition frame_from (fetch : rstring -> option bytes) (m : mesh_format) (d : bytes) : res (list frame_vertex) :=
  match m with
  | FmtObj => ls <~ tb_obj_parse B d ;; read_obj_as_frame (tb_num B) (tb_parse64 B) ls
  | FmtGlb => x <~ read_glb (tb_parse B) d ;; Ok (gltf_frame x)
  | FmtGltf => x <~ read_gltf (tb_parse B) d fetch ;; Ok (gltf_frame x)
  end.
(** expanded/primitives.rs:753-777: the frames read back and compressed, with their lengths *)
Fixpoint frames_from (fetch : rstring -> option bytes) (m : mesh_format) (l : list bytes) : res (list (bytes * u32)) :=
  match l with
  | [] => Ok []
  | d :: l' => fvs <~ frame_from fetch m d ;; r <~ frames_from fetch m l' ;;
               let c := tb_compress B (flat_map write_frame_vertex fvs) in Ok ((c, Z_to_w32 (zlen c)) :: r)
  end.
(** expanded/primitives.rs:687-781 [read_gameitem_binaries], given the contents of the files *)
Definition attach_mesh (fetch : rstring -> option bytes) (mesh : option (mesh_format * bytes)) (frames : option (mesh_format * list bytes)) (i : GameItem) : res GameItem :=
  match i with
  | GI_Primitive p =>
      p <~ match mesh with Some (m, d) => f <~ mesh_from fetch m d ;; Ok (set_mesh f p) | None => Ok p end ;;
      p <~ match frames with Some (m, ds) => fs <~ frames_from fetch m ds ;; Ok (set_frames fs p) | None => Ok p end ;;
      Ok (GI_Primitive p)
  | _ => Ok i
  end.
Definition json_is_primitive (d : bytes) : bool :=
  match j <~ tb_parse B d ;; GameItem_of_json j with Ok (GI_Primitive _) => true | _ => false end.
(** expanded/gameitems.rs:178-202 [read_game_item], given what the files hold *)
Definition assemble_item (dir : files) (e : GameItemInfo * read_item) : res GameItem :=
  let '(info, (d, mesh, frames)) := e in
  j <~ tb_parse B d ;; i <~ GameItem_of_json j ;; attach_mesh (fun uri => hget uri dir) mesh frames (restore_item info i).

(** ** Writing *)
Definition document {A} (name : string) (c : jcodec A) (x : A) : rstring * bytes := (lit name, tb_print B (jc_to c x)).
Definition when {A} (f : A -> rstring * bytes) (o : option A) : files := match o with Some x => [f x] | None => [] end.
(** materials.rs:13-27, 46-69, 88-107 and mod.rs:222-238 *)
Definition material_files (g : GDTail) : files :=
  match gt_materials g with
  | Some ms => [document "materials.json" (jc_list jc_Material) ms]
  | None => document "materials-old.json" (jc_list jc_SaveMaterial) (gt_materials_old g) ::
            when (document "materials-physics-old.json" (jc_list jc_SavePhysicsMaterial)) (gt_materials_physics_old g)
  end.
(** mod.rs:171-244 [write_fs], with metadata.rs:18-33, 54-66, 83-94, 109-125; writing a file replaces it *)
Definition write_fs (m : mesh_format) (v : VPX) (t : tree) : res tree :=
  xs <~ try_map (xitem_of m) (vpx_gameitems v) ;;
  '(names, per_item) <~ write_gameitems lower (tb_alphanumeric B) m xs (t_items t) ;;
  '(images, images_dir) <~ write_images (tb_sanitize B) lower (tb_key B) (tb_dimensions B) (tb_lzw_decode B) (tb_bmp_encode B) (vpx_images v) (t_images t) ;;
  '(sounds, sounds_dir) <~ write_sounds (tb_sanitize B) lower (tb_key B) (tb_checked B) (vpx_sounds v) (t_sounds t) ;;
  let '(fonts, fonts_dir) := write_fonts (tb_sanitize B) (tb_key B) (vpx_fonts v) (t_fonts t) in
  let g := gd_tail (vpx_gamedata v) in
  script <~ swe_to_bytes (gt_code g) ;;
  Ok (mkTree
    (write_all (
       [(lit "version.txt", utf8_encode (Version_text (vpx_version v)))] ++
       when (fun d => (lit "screenshot.png", d)) (ti_screenshot (vpx_info v)) ++
       [document "info.json" jc_TableInfo (vpx_info v, vpx_custominfotags v);
        document "collections.json" (jc_list jc_Collection) (vpx_collections v);
        document "gameitems.json" (jc_list jc_GameItemInfo) (map (fun e => GameItem_info (fst e) (snd e)) (combine names (vpx_gameitems v)));
        document "images.json" (jc_list jc_ImageDataJson) images;
        document "sounds.json" (jc_list jc_SoundDataJson) sounds;
        document "fonts.json" (jc_list jc_FontDataJson) fonts;
        document "gamedata.json" jc_GameData (vpx_gamedata v);
        (lit "script.vbs", script)] ++
       material_files g ++
       when (document "renderprobes.json" (jc_list jc_RenderProbe)) (gt_render_probes g)) (t_root t))
    (write_all (tb_schedule B (List.concat per_item)) (t_items t)) images_dir sounds_dir fonts_dir).

(** ** Reading *)
(** util.rs:19-38 [read_json], after [fs.exists] *)
Definition read_document {A} (name : string) (c : jcodec A) (root : files) : res (option A) :=
  match hget (lit name) root with
  | Some d => j <~ tb_parse B d ;; x <~ jc_of c j ;; Ok (Some x)
  | None => Ok None
  end.
Definition required {A} (o : option A) : res A := match o with Some x => Ok x | None => Err end.
(** gameitems.rs:146-175 [read_gameitems] *)
Definition assemble_items (t : tree) : res (list GameItem) :=
  index <~ read_document "gameitems.json" (jc_list jc_GameItemInfo) (t_root t) ;;
  match index with
  | None => Ok []
  | Some infos =>
      found <~ read_gameitems json_is_primitive (map gi_file_name infos) (t_items t) ;; try_map (assemble_item (t_items t)) (combine infos found)
  end.
(** mod.rs:338-362, materials.rs:29-44, 71-86, 109-125 *)
Definition assemble_materials (root : files) (g : GDTail) : res GDTail :=
  materials <~ read_document "materials.json" (jc_list jc_Material) root ;;
  match materials with
  | Some ms =>
      old <~ try_map SaveMaterial_of ms ;;
      Ok (set_gt_materials (Some ms) (set_gt_materials_size (Z_to_w32 (zlen ms))
            (set_gt_materials_physics_old (Some (map SavePhysicsMaterial_of ms)) (set_gt_materials_old old g))))
  | None =>
      old <~ read_document "materials-old.json" (jc_list jc_SaveMaterial) root ;;
      match old with
      | Some old =>
          physics <~ read_document "materials-physics-old.json" (jc_list jc_SavePhysicsMaterial) root ;;
          Ok (set_gt_materials_size (Z_to_w32 (zlen old)) (set_gt_materials_physics_old physics (set_gt_materials_old old g)))
      | None => Ok g
      end
  end.
(** mod.rs:282-377 [read_fs], with metadata.rs:35-52, 68-81, 96-107, 127-138 *)
Definition read_fs (t : tree) : res VPX :=
  let root := t_root t in
  text <~ required (hget (lit "version.txt") root) ;;
  text <~ required (utf8_decode text) ;;
  version <~ Version_parse text ;;
  let screenshot := hget (lit "screenshot.png") root in
  info <~ read_document "info.json" jc_TableInfo root ;;
  let '(info, tags) := match info with Some (i, tags) => (set_ti_screenshot screenshot i, tags) | None => (TableInfo_new, []) end in
  collections <~ read_document "collections.json" (jc_list jc_Collection) root ;;
  let collections := or_else collections [] in
  items <~ assemble_items t ;;
  images <~ read_document "images.json" (jc_list jc_ImageDataJson) root ;;
  images <~ read_images (tb_key B) (tb_dimensions B) (tb_lzw_encode B) (tb_load B) (tb_checked B) images (t_images t) ;;
  sounds <~ read_document "sounds.json" (jc_list jc_SoundDataJson) root ;;
  sounds <~ read_sounds (tb_key B) sounds (t_sounds t) ;;
  fonts <~ read_document "fonts.json" (jc_list jc_FontDataJson) root ;;
  fonts <~ read_fonts (tb_sanitize B) (tb_key B) fonts (t_fonts t) ;;
  data <~ read_document "gamedata.json" jc_GameData root ;;
  data <~ required data ;;
  script <~ required (hget (lit "script.vbs") root) ;;
  let size {A} (l : list A) := Z_to_w32 (zlen l) in
  let g := set_gt_fonts_size (size fonts) (set_gt_sounds_size (size sounds) (set_gt_images_size (size images)
             (set_gt_gameitems_size (size items) (set_gt_collections_size (size collections) (set_gt_code (swe_of_bytes script) (gd_tail data)))))) in
  g <~ assemble_materials root g ;;
  probes <~ read_document "renderprobes.json" (jc_list jc_RenderProbe) root ;;
  Ok (mkVPX tags info version (set_gd_tail (set_gt_render_probes probes g) data) items images sounds fonts collections).
End Extract.

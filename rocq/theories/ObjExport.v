(** Exporting a table to Wavefront OBJ: src/vpx/export/obj_export.rs.  What the OBJ crate does with the lines is left out: a file is the list of the
    lines it is told to write.  Errors of the file system are left out. *)
From Coq Require Import Floats.SpecFloat.
From Verif Require Import Base Text Biff Json Image Quantize ColorText Cfb JsonFloat Mesh Browser Common Enums Structs StructMaterial GameItem GDBounds GDScene GDPhysics GDCabinet GDDesktop GameData.
From Verif Require Import ItemWall ItemRamp ItemRubber ItemBumper ItemPlunger ItemFlipper ItemGate ItemKicker ItemSpinner ItemHitTarget ItemTrigger ItemPrimitive.
From Verif Require Import Sound Vpx Compat Builtin Polygon Smooth FileSystem Walls RubberMesh Ramps Transform ExpandedItems Extract.

Definition mesh : Type := (list wrapper * list face)%type.
(** The libraries the code relies on, and the meshes of the items that Builtin.v, Walls.v, RubberMesh.v and Ramps.v do not cover *)
Record export_tools : Type := mkTools {
  et_sin : f32 -> f32; et_cos : f32 -> f32;                (* [f32::sin], [f32::cos] *)
  et_sanitize : rstring -> rstring;                        (* [sanitize_filename::sanitize] *)
  et_lower : rstring -> rstring;                           (* [str::to_lowercase] *)
  et_decompress : bytes -> res bytes;                      (* zlib *)
  et_lzw_decode : bytes -> res bytes;                      (* weezl *)
  et_bmp : dyn_image -> res bytes;                         (* [DynamicImage::write_to] for BMP *)
  et_bumper : Bumper -> option mesh * option mesh * option mesh * option mesh;                  (* bumpers.rs [build_bumper_meshes]: base, ring, socket, cap *)
  et_flipper : Flipper -> option (mesh * option mesh * Vec3);                                   (* flippers.rs [build_flipper_meshes_unchecked] at height 0: base, rubber, centre *)
  et_gate : Gate -> option (option mesh * mesh);                                                (* gates.rs [build_gate_meshes_unchecked]: bracket, wire *)
  et_kicker : Kicker -> option mesh * option mesh;                                              (* kickers.rs [build_kicker_meshes]: plate, kicker *)
  et_spinner : Spinner -> option mesh * mesh;                                                   (* spinners.rs [build_spinner_meshes]: bracket, plate *)
  et_target : HitTarget -> option mesh;                                                         (* hittargets.rs [build_hit_target_mesh_unchecked] *)
  et_trigger : Trigger -> option mesh;                                                          (* triggers.rs [build_trigger_mesh] *)
  et_plunger : Plunger -> option mesh * option mesh * option mesh * option mesh * option mesh;  (* plungers.rs [build_plunger_meshes]: flat rod, rod, spring, ring, tip *)
  et_fuel : nat }.                                                                              (* depth of the subdivision of curves, see Smooth.v *)

(** obj_export.rs:76-125 [ObjExportOptions], 126-135 [default], 141-148 [vpinball_strict] *)
Record ObjExportOptions : Set := mkObjOptions { oo_dedup_mtl_blocks : bool; oo_extract_textures : bool; oo_units : ExportUnits; oo_include_plunger : bool }.
Definition obj_default_options : ObjExportOptions := mkObjOptions true true Units_M true.
Definition vpinball_strict : ObjExportOptions := mkObjOptions false false Units_Vpu false.

(** The lines of the two files *)
Inductive obj_line : Type :=
| OComment (text : rstring) | OMtlLib (file : rstring) | OObject (name : rstring)
| OVertex (x y z : f32) | OTexture (u v : f32) | ONormal (x y z : f32)
| OUse (material : rstring) | OSmooth (group : Z) | OFace (corners : list (Z * option Z * option Z)).
Inductive mtl_line : Type :=
| MComment (text : rstring) | MNew (name : rstring) | MSpecularExponent (x : f32)
| MAmbient (r g b : f32) | MDiffuse (r g b : f32) | MSpecular (r g b : f32)
| MOpticalDensity (x : f32) | MDissolve (x : f32) | MIllumination (n : Z)
| MMapDiffuse (path : rstring) | MMapAmbient (path : rstring).

(** obj_export.rs:1257-1265 [Block] *)
Record Block : Type := mkBlock {
  bl_name : rstring; bl_vertices : list wrapper; bl_faces : list face; bl_translation : Vec3;
  bl_material : option rstring; bl_texture : option rstring; bl_smoothing : bool }.

(** obj_export.rs:237-243 [MaterialView] *)
Record MaterialView : Type := mkMaterialView { mv_base : Color; mv_glossy : Color; mv_opacity : f32; mv_opacity_active : bool; mv_is_metal : bool }.
(** [name.is_empty()], and [Some] of a name that is not empty *)
Definition some_name (s : rstring) : option rstring := match s with [] => None | _ => Some s end.
(** obj_export.rs:319-348 [material_view_by_name] *)
Definition view_of (m : Material) : MaterialView :=
  mkMaterialView (Material_base_color m) (Material_glossy_color m) (Material_opacity m) (Material_opacity_active m)
    match Material_type_ m with MaterialType_Metal => true | _ => false end.
Definition view_of_old (m : SaveMaterial) : MaterialView :=
  mkMaterialView (sm_base_color m) (sm_glossy_color m) (sm_opacity m) (Z.odd (byte_to_Z (sm_opacity_active_edge_alpha m))) (sm_is_metal m).
Definition material_view_by_name (v : VPX) (name : rstring) : option MaterialView :=
  if is_empty name then None else
  let old := option_map view_of_old (find (fun m => eq_ignore_ascii_case (sm_name m) name) (gt_materials_old (gd_tail (vpx_gamedata v)))) in
  match gt_materials (gd_tail (vpx_gamedata v)) with
  | None => old
  | Some l => match find (fun m => eq_ignore_ascii_case (Material_name m) name) l with Some m => Some (view_of m) | None => old end
  end.
(** obj_export.rs:350-358 [image_by_name] *)
Definition image_by_name (v : VPX) (name : rstring) : option ImageData :=
  if is_empty name then None else find (fun i => eq_ignore_ascii_case (im_name i) name) (vpx_images v).
(** gamedata.rs:1557-1565 [effective_detail_level] *)
Definition effective_detail_level (g : GameData) : Z :=
  match GDScene_overwrite_global_detail_level (gd_scene g), GDScene_user_detail_level (gd_scene g) with
  | Some true, Some d => w32_to_Z d
  | _, _ => 10
  end.
(** obj_export.rs:292-297 *)
Definition table_dimensions (v : VPX) : TableDimensions :=
  let b := gd_bounds (vpx_gamedata v) in mkTableDimensions (GDBounds_left b) (GDBounds_top b) (GDBounds_right b) (GDBounds_bottom b).

Section Items.
Variable T : export_tools.
Notation sin := (et_sin T). Notation cos := (et_cos T). Notation fuel := (et_fuel T).

(** obj_export.rs:360-376 [surface_height] *)
Fixpoint find_surface (items : list GameItem) (name : rstring) (x y : f32) : res f32 :=
  match items with
  | [] => Ok f32_zero
  | GI_Wall w :: r => if eq_ignore_ascii_case (Wall_name w) name then Ok (Wall_height_top w) else find_surface r name x y
  | GI_Ramp p :: r => if eq_ignore_ascii_case (Ramp_name p) name then ramp_surface_height fuel p x y else find_surface r name x y
  | _ :: r => find_surface r name x y
  end.
Definition surface_height (v : VPX) (name : rstring) (at_ : Vertex2D) : res f32 :=
  if is_empty name then Ok f32_zero else find_surface (vpx_gameitems v) name (v2_x at_) (v2_y at_).

(** builtin_primitive.rs:53-83 [effective_primitive_mesh] *)
Definition effective_primitive_mesh (p : Primitive) : res (option mesh) :=
  if Primitive_use_3d_mesh p then read_mesh (et_decompress T) (mesh_of p)
  else Ok (build_builtin sin cos (Primitive_sides p) (Primitive_draw_textures_inside p)).
(** [f32::to_radians] *)
Definition to_radians (x : f32) : f32 := mul32 x (div32 f32_pi f32_180).
(** obj_export.rs:557-571 [primitive_world_matrix] *)
Definition primitive_world_matrix (p : Primitive) : Matrix :=
  let rt := times (times (times (times (times (times
    (translation (Primitive_rot_and_tra_3 p) (Primitive_rot_and_tra_4 p) (Primitive_rot_and_tra_5 p))
    (rotate_z sin cos (to_radians (Primitive_rot_and_tra_2 p)))) (rotate_y sin cos (to_radians (Primitive_rot_and_tra_1 p))))
    (rotate_x sin cos (to_radians (Primitive_rot_and_tra_0 p)))) (rotate_z sin cos (to_radians (Primitive_rot_and_tra_8 p))))
    (rotate_y sin cos (to_radians (Primitive_rot_and_tra_7 p)))) (rotate_x sin cos (to_radians (Primitive_rot_and_tra_6 p))) in
  let s := Primitive_size p in let t := Primitive_position p in
  times (times (scaling (v3_x s) (v3_y s) (v3_z s)) rt) (translation (v3_x t) (v3_y t) (v3_z t)).
(** obj_export.rs:487-508: one vertex; the stored bytes stay as they are *)
Definition placed (m : Matrix) (w : wrapper) : wrapper :=
  let v := w_vertex w in
  let p := transform_vertex m (mkVec3 (v_x v) (v_y v) (v_z v)) in
  let n0 := mkVec3 (v_nx v) (v_ny v) (v_nz v) in
  let n := if negb (f32_is_nan (v_nx v)) && negb (f32_is_nan (v_ny v)) && negb (f32_is_nan (v_nz v))
           then let n := transform_normal m n0 in let len := length3 n in
                if lt32 f32_zero len then mkVec3 (div32 (vec_x n) len) (div32 (vec_y n) len) (div32 (vec_z n) len) else n0
           else n0 in
  mkWrapper (w_bytes w) (mkVtx (vec_x p) (vec_y p) (vec_z p) (vec_x n) (vec_y n) (vec_z n) (v_tu v) (v_tv v)).

Section Table.
Variable v : VPX.
Variable o : ObjExportOptions.
Notation game := (vpx_gamedata v).
Notation td := (table_dimensions v).
Notation detail := (effective_detail_level game).

(** obj_export.rs:383-425 [write_playfield] *)
Definition playfield_block : Block :=
  let b := gd_bounds game in let '(vs, fs) := build_playfield_mesh (GDBounds_left b) (GDBounds_top b) (GDBounds_right b) (GDBounds_bottom b) in
  mkBlock (gt_name (gd_tail game)) vs fs vec_zero (Some (GDScene_playfield_material (gd_scene game))) (some_name (GDPhysics_image (gd_physics game))) true.
(** obj_export.rs:464-543 [write_primitive]; an error while the mesh is read is only logged *)
Definition primitive_blocks (p : Primitive) : res (list Block) :=
  if negb (primitive_is_visible p (vpx_version v)) then Ok [] else
  match effective_primitive_mesh p with
  | Err => Ok []
  | Fail e => Fail e
  | Ok None => Ok []
  | Ok (Some (vs, fs)) =>
      let '(material, texture) := if is_playfield p then (GDScene_playfield_material (gd_scene game), some_name (GDPhysics_image (gd_physics game)))
                                  else (Primitive_material p, some_name (Primitive_image p)) in
      Ok [mkBlock (Primitive_name p) (map (placed (primitive_world_matrix p)) vs) fs vec_zero (Some material) texture false]
  end.
(** obj_export.rs:573-742 [write_wall] *)
Definition wall_blocks (w : Wall) : res (list Block) :=
  m <~ build_wall_meshes fuel w td ;;
  Ok match m with
     | None => []
     | Some m =>
         match Wall_is_top_bottom_visible w, Wall_is_side_visible w, wm_top m, wm_side m with
         | true, false, Some (vs, fs), _ =>
             let '(material, texture) := if is_empty (Wall_image w) then (lit "none", None) else (Wall_image w, Some (Wall_image w)) in
             [mkBlock (Wall_name w) vs fs vec_zero (Some material) texture false]
         | false, true, _, Some (vs, fs) => [mkBlock (Wall_name w) vs fs vec_zero (Some (Wall_side_material w)) (some_name (Wall_side_image w)) false]
         | true, true, Some (top_v, top_i), Some (side_v, side_i) =>
             if oo_extract_textures o
             then [mkBlock (Wall_name w ++ lit "Side") side_v side_i vec_zero (Some (Wall_side_material w)) (some_name (Wall_side_image w)) true;
                   mkBlock (Wall_name w ++ lit "Top") top_v top_i vec_zero (Some (Wall_top_material w)) (some_name (Wall_image w)) true]
             else [mkBlock (Wall_name w) (side_v ++ top_v) (side_i ++ map (shifted (zlen side_v)) top_i) vec_zero (Some (Wall_top_material w)) None true]
         | _, _, _, _ => []
         end
     end.
(** obj_export.rs:744-790 [write_ramp] *)
Definition ramp_blocks (r : Ramp) : res (list Block) :=
  if negb (Ramp_is_visible r) then Ok [] else
  let material_opacity_active := match material_view_by_name v (Ramp_material r) with Some m => mv_opacity_active m | None => false end in
  m <~ build_ramp_mesh sin cos fuel r td detail material_opacity_active ;;
  Ok match m with Some (vs, fs) => [mkBlock (Ramp_name r) vs fs vec_zero (Some (Ramp_material r)) (some_name (Ramp_image r)) true] | None => [] end.
(** obj_export.rs:792-821 [write_rubber] *)
Definition rubber_blocks (r : Rubber) : res (list Block) :=
  if negb (Rubber_is_visible r) then Ok [] else
  m <~ build_rubber_mesh sin cos fuel r detail ;;
  Ok match m with Some (vs, fs, centre) => [mkBlock (Rubber_name r) vs fs centre (Some (Rubber_material r)) None true] | None => [] end.
(** A block for a part that there is *)
Definition part_block (name : rstring) (m : option mesh) (t : Vec3) (material texture : option rstring) : list Block :=
  match m with Some (vs, fs) => [mkBlock name vs fs t material texture true] | None => [] end.
(** obj_export.rs:823-909 [write_bumper] *)
Definition bumper_blocks (b : Bumper) : res (list Block) :=
  h <~ surface_height v (Bumper_surface b) (Bumper_center b) ;;
  let t := mkVec3 (v2_x (Bumper_center b)) (v2_y (Bumper_center b)) h in
  let '(base, ring, socket, cap) := et_bumper T b in
  Ok (part_block (Bumper_name b ++ lit "Base") base t (Some (Bumper_base_material b)) None ++
      part_block (Bumper_name b ++ lit "Ring") ring t None None ++
      part_block (Bumper_name b ++ lit "Skirt") socket t (Some (Bumper_socket_material b)) None ++
      part_block (Bumper_name b ++ lit "Cap") cap t (Some (Bumper_cap_material b)) None).
(** obj_export.rs:911-970 [write_plunger] *)
Definition plunger_blocks (p : Plunger) : res (list Block) :=
  if negb (Plunger_is_visible p) then Ok [] else
  h <~ surface_height v (Plunger_surface p) (Plunger_center p) ;;
  let t := mkVec3 (v2_x (Plunger_center p)) (v2_y (Plunger_center p)) (add32 h (Plunger_z_adjust p)) in
  let '(flat, rod, spring, ring, tip) := et_plunger T p in
  let part (suffix : string) (m : option mesh) := part_block (Plunger_name p ++ lit suffix) m t (some_name (Plunger_material p)) (some_name (Plunger_image p)) in
  Ok (part "Flat"%string flat ++ part "Rod"%string rod ++ part "Spring"%string spring ++ part "Ring"%string ring ++ part "Tip"%string tip).
(** obj_export.rs:972-1023 [write_flipper] *)
Definition flipper_blocks (f : Flipper) : res (list Block) :=
  Ok match et_flipper T f with
     | None => []
     | Some (base, rubber, centre) =>
         part_block (Flipper_name f ++ lit "Base") (Some base) centre (Some (Flipper_material f)) (match Flipper_image f with Some s => some_name s | None => None end) ++
         part_block (Flipper_name f ++ lit "Rubber") rubber centre (Some (Flipper_rubber_material f)) None
     end.
(** obj_export.rs:1025-1072 [write_gate] *)
Definition gate_blocks (g : Gate) : res (list Block) :=
  h <~ surface_height v (Gate_surface g) (Gate_center g) ;;
  let t := mkVec3 (v2_x (Gate_center g)) (v2_y (Gate_center g)) (add32 h (Gate_height g)) in
  Ok match et_gate T g with
     | None => []
     | Some (bracket, wire) =>
         part_block (Gate_name g ++ lit "Bracket") bracket t (Some (Gate_material g)) None ++ part_block (Gate_name g ++ lit "Wire") (Some wire) t (Some (Gate_material g)) None
     end.
(** obj_export.rs:1074-1126 [write_kicker] *)
Definition kicker_blocks (k : Kicker) : res (list Block) :=
  match Kicker_kicker_type k with
  | KickerType_Invisible => Ok []
  | _ =>
      h <~ surface_height v (Kicker_surface k) (Kicker_center k) ;;
      let t := mkVec3 (v2_x (Kicker_center k)) (v2_y (Kicker_center k)) h in
      let '(plate, kicker) := et_kicker T k in
      Ok (part_block (Kicker_name k ++ lit "Plate") plate t (Some (Kicker_material k)) None ++ part_block (Kicker_name k) kicker t (Some (Kicker_material k)) None)
  end.
(** obj_export.rs:1128-1183 [write_spinner] *)
Definition spinner_blocks (s : Spinner) : res (list Block) :=
  h <~ surface_height v (Spinner_surface s) (Spinner_center s) ;;
  let t := mkVec3 (v2_x (Spinner_center s)) (v2_y (Spinner_center s)) (add32 h (Spinner_height s)) in
  let '(bracket, plate) := et_spinner T s in
  Ok (part_block (Spinner_name s ++ lit "Bracket") bracket t (Some (Spinner_material s)) None ++ part_block (Spinner_name s ++ lit "Plate") (Some plate) t None None).
(** obj_export.rs:1185-1218 [write_hittarget] *)
Definition target_blocks (h : HitTarget) : res (list Block) :=
  let p := HitTarget_position h in
  Ok (part_block (HitTarget_name h) (et_target T h) (mkVec3 (v3_x p) (v3_y p) (v3_z p)) (Some (HitTarget_material h)) (some_name (HitTarget_image h))).
(** obj_export.rs:1220-1251 [write_trigger] *)
Definition trigger_blocks (t : Trigger) : res (list Block) :=
  if negb (Trigger_is_visible t) then Ok [] else
  h <~ surface_height v (Trigger_surface t) (Trigger_center t) ;;
  Ok (part_block (Trigger_name t) (et_trigger T t) (mkVec3 (v2_x (Trigger_center t)) (v2_y (Trigger_center t)) h) (Some (Trigger_material t)) None).
(** obj_export.rs:427-462 [write_gameitem]: the blocks it writes, in order.  The code writes each block before it builds the mesh of the next one. *)
Definition item_blocks (i : GameItem) : res (list Block) :=
  match i with
  | GI_Primitive p => primitive_blocks p
  | GI_Wall w => wall_blocks w
  | GI_Ramp r => ramp_blocks r
  | GI_Rubber r => rubber_blocks r
  | GI_Bumper b => bumper_blocks b
  | GI_Flipper f => flipper_blocks f
  | GI_Gate g => gate_blocks g
  | GI_Kicker k => kicker_blocks k
  | GI_Spinner s => spinner_blocks s
  | GI_HitTarget h => target_blocks h
  | GI_Trigger t => trigger_blocks t
  | GI_Plunger p => if oo_include_plunger o then plunger_blocks p else Ok []
  | _ => Ok []
  end.

(** ** Materials and images *)
(** obj_export.rs:249-286 [WriterState]: what changes.  [images_written] is left out: it always holds the names in [image_filenames].  The last three
    are the two files and the files written to the directory "images", in the order they are written. *)
Record WriterState : Type := mkWriterState {
  ws_face_offset : Z; ws_image_filenames : list (rstring * rstring); ws_used_lower_filenames : list rstring; ws_image_dedup_counter : N;
  ws_seen_mtl_pairs : list (rstring * rstring); ws_obj : list obj_line; ws_mtl : list mtl_line; ws_images : list (rstring * bytes) }.
Definition put_obj (l : list obj_line) (s : WriterState) : WriterState :=
  mkWriterState (ws_face_offset s) (ws_image_filenames s) (ws_used_lower_filenames s) (ws_image_dedup_counter s) (ws_seen_mtl_pairs s) (ws_obj s ++ l) (ws_mtl s) (ws_images s).
Definition put_mtl (l : list mtl_line) (s : WriterState) : WriterState :=
  mkWriterState (ws_face_offset s) (ws_image_filenames s) (ws_used_lower_filenames s) (ws_image_dedup_counter s) (ws_seen_mtl_pairs s) (ws_obj s) (ws_mtl s ++ l) (ws_images s).
Definition put_seen (k : rstring * rstring) (s : WriterState) : WriterState :=
  mkWriterState (ws_face_offset s) (ws_image_filenames s) (ws_used_lower_filenames s) (ws_image_dedup_counter s) (k :: ws_seen_mtl_pairs s) (ws_obj s) (ws_mtl s) (ws_images s).
Definition put_offset (z : Z) (s : WriterState) : WriterState :=
  mkWriterState z (ws_image_filenames s) (ws_used_lower_filenames s) (ws_image_dedup_counter s) (ws_seen_mtl_pairs s) (ws_obj s) (ws_mtl s) (ws_images s).
Definition put_image (name on_disk : rstring) (count : N) (d : bytes) (s : WriterState) : WriterState :=
  mkWriterState (ws_face_offset s) ((name, on_disk) :: ws_image_filenames s) (et_lower T on_disk :: ws_used_lower_filenames s) count (ws_seen_mtl_pairs s) (ws_obj s) (ws_mtl s)
    (ws_images s ++ [(on_disk, d)]).
Definition lookup (k : rstring) (l : list (rstring * rstring)) : option rstring := option_map snd (find (fun e => rstring_eqb (fst e) k) l).
Definition seen (k : rstring * rstring) (l : list (rstring * rstring)) : bool := existsb (fun e => rstring_eqb (fst e) (fst k) && rstring_eqb (snd e) (snd k)) l.
(** obj_export.rs:1555-1566 [sanitized_image_filename]; [String::to_lowercase] may map different names to one, but not without end *)
Fixpoint free_name (fuel : nat) (used : list rstring) (base ext : rstring) (count : N) : res (rstring * N) :=
  match fuel with
  | O => OutOfFuel
  | S fuel' =>
      let name := base ++ lit "_dedup" ++ dec_text (count + 1) ++ lit "." ++ ext in
      if contains used (et_lower T name) then free_name fuel' used base ext (count + 1) else Ok (name, count + 1)%N
  end.
Definition sanitized_image_filename (s : WriterState) (name ext : rstring) : res (rstring * N) :=
  let base := et_sanitize T name in
  let filename := base ++ lit "." ++ ext in
  if contains (ws_used_lower_filenames s) (et_lower T filename)
  then free_name (S (List.length (ws_used_lower_filenames s))) (ws_used_lower_filenames s) base ext (ws_image_dedup_counter s)
  else Ok (filename, ws_image_dedup_counter s).
(** obj_export.rs:1496-1544 [ensure_image_written], 1568-1583 [write_image_bmp]: the file name, without "images/" *)
Definition ensure_image_written (name : rstring) (s : WriterState) : res (option rstring * WriterState) :=
  match lookup name (ws_image_filenames s) with
  | Some f => Ok (Some f, s)
  | None =>
      match image_by_name v name with
      | None => Ok (None, s)
      | Some i =>
          match im_jpeg i, im_bits i with
          | None, None => Ok (None, s)
          | jpeg, bits =>
              '(on_disk, count) <~ sanitized_image_filename s (im_name i) (ImageData_ext i) ;;
              d <~ match jpeg, bits with
                   | Some j, _ => Ok (ij_data j)
                   | None, Some b => write_image_bmp (et_lzw_decode T) (et_bmp T) b (w32_to_Z (im_width i)) (w32_to_Z (im_height i))
                   | None, None => Ok []
                   end ;;
              Ok (Some on_disk, put_image name on_disk count d s)
          end
      end
  end.
(** obj_export.rs:1434-1436 [sanitize_material_name] *)
Definition sanitize_material_name (s : rstring) : rstring := filter (fun c => negb (c =? 32)%N) s.
(** obj_export.rs:1400-1411: the name of a material in the files *)
Definition mtl_name_of (material : rstring) (texture : option rstring) : rstring :=
  match texture with
  | Some (c :: t) => if oo_extract_textures o then sanitize_material_name material ++ lit "__" ++ et_sanitize T (c :: t) else sanitize_material_name material
  | _ => sanitize_material_name material
  end.
(** obj_export.rs:1472-1490 [color_to_kd], [color_to_ks] *)
Definition channel (b : byte) : f32 := div32 (int32 (byte_to_Z b)) (int32 255).
Definition channels (c : Color) : f32 * f32 * f32 := (channel (c_r c), channel (c_g c), channel (c_b c)).
(** obj_export.rs:1438-1470 [write_mtl_block] *)
Definition mtl_block (mtl_name material : rstring) (image : option rstring) : list mtl_line :=
  let '(kd, ks, opacity) :=
    match material_view_by_name v material with
    | Some m => (channels (mv_base m), channels (if mv_is_metal m then mv_base m else mv_glossy m), if mv_opacity_active m then mv_opacity m else f32_one)
    | None => ((f32_one, f32_one, f32_one), (f32_zero, f32_zero, f32_zero), f32_one)
    end in
  let '(dr, dg, db) := kd in let '(sr, sg, sb) := ks in
  [MNew mtl_name; MSpecularExponent (Z_to_w32 0x40fafafa); MAmbient f32_zero f32_zero f32_zero; MDiffuse dr dg db; MSpecular sr sg sb;
   MOpticalDensity (Z_to_w32 0x3fc00000); MDissolve opacity; MIllumination 5] ++
  match image with Some f => [MMapDiffuse (lit "images/" ++ f); MMapAmbient (lit "images/" ++ f)] | None => [] end.
(** obj_export.rs:1375-1431 [emit_mtl_block]; [texture.unwrap_or("")] *)
Definition emit_mtl_block (material : rstring) (texture : option rstring) (s : WriterState) : res (rstring * WriterState) :=
  '(map_path, s) <~ match texture with
                    | Some t => if oo_extract_textures o then ensure_image_written t s else Ok (None, s)
                    | None => Ok (None, s)
                    end ;;
  let mtl_name := mtl_name_of material texture in
  let key := (material, match texture with Some t => t | None => [] end) in
  let force_dedup := oo_extract_textures o && match map_path with Some _ => true | None => false end in
  if oo_dedup_mtl_blocks o || force_dedup then
    if seen key (ws_seen_mtl_pairs s) then Ok (mtl_name, s)
    else Ok (mtl_name, put_mtl (mtl_block mtl_name material map_path) (put_seen key s))
  else Ok (mtl_name, put_mtl (mtl_block mtl_name material map_path) s).

(** ** Blocks *)
(** obj_export.rs:1281-1288 *)
Definition position_line (b : Block) (w : wrapper) : obj_line :=
  let s := units_scale (oo_units o) in let p := w_vertex w in let t := bl_translation b in
  OVertex (mul32 (add32 (v_x p) (vec_x t)) s) (mul32 (add32 (v_y p) (vec_y t)) s) (neg_f32 (mul32 (add32 (v_z p) (vec_z t)) s)).
(** obj_export.rs:1290-1302 *)
Definition or_zero (test x : f32) : f32 := if f32_is_nan test then f32_zero else x.
Definition texture_line (w : wrapper) : obj_line := let p := w_vertex w in OTexture (or_zero (v_tu p) (v_tu p)) (or_zero (v_tv p) (sub32 f32_one (v_tv p))).
(** obj_export.rs:1304-1321 *)
Definition normal_line (w : wrapper) : obj_line :=
  let p := w_vertex w in ONormal (or_zero (v_nx p) (v_nx p)) (or_zero (v_ny p) (v_ny p)) (or_zero (v_nz p) (neg_f32 (v_nz p))).
(** obj_export.rs:1337-1341: [face.i as u32 + 1 + offset], with overflow checks *)
Definition corner_of (checked : bool) (offset i : Z) : res Z :=
  let n := i mod 4294967296 + 1 + offset in if n <? 4294967296 then Ok n else if checked then Panic else Ok (n mod 4294967296).
Definition face_line (checked : bool) (offset : Z) (f : face) : res obj_line :=
  a <~ corner_of checked offset (f_2 f) ;; b <~ corner_of checked offset (f_1 f) ;; c <~ corner_of checked offset (f_0 f) ;;
  Ok (OFace [(a, Some a, Some a); (b, Some b, Some b); (c, Some c, Some c)]).
(** obj_export.rs:1267-1352 [write_block] *)
Definition write_block (checked : bool) (b : Block) (s : WriterState) : res WriterState :=
  if is_empty (bl_vertices b) || is_empty (bl_faces b) then Ok s else
  let s := put_obj ([OObject (bl_name b)] ++ map (position_line b) (bl_vertices b) ++ map texture_line (bl_vertices b) ++ map normal_line (bl_vertices b)) s in
  s <~ match bl_material b with
       | Some material => '(name, s) <~ emit_mtl_block material (bl_texture b) s ;; Ok (put_obj [OUse name] s)
       | None => Ok s
       end ;;
  let s := if bl_smoothing b then put_obj [OSmooth 1] s else s in
  faces <~ map_res (face_line checked (ws_face_offset s)) (bl_faces b) ;;
  Ok (put_offset (Z.min 4294967295 (ws_face_offset s + zlen (bl_vertices b) mod 4294967296)) (put_obj faces s)).
Fixpoint write_blocks (checked : bool) (bs : list Block) (s : WriterState) : res WriterState :=
  match bs with [] => Ok s | b :: r => s <~ write_block checked b s ;; write_blocks checked r s end.
(** All blocks: the playfield, and those of the items in their order *)
Fixpoint items_blocks (l : list GameItem) : res (list Block) := match l with [] => Ok [] | i :: r => a <~ item_blocks i ;; b <~ items_blocks r ;; Ok (a ++ b) end.
Definition table_blocks : res (list Block) := r <~ items_blocks (vpx_gameitems v) ;; Ok (playfield_block :: r).
(** obj_export.rs:176-229 [export_obj], given the name of the material file *)
Definition export_obj (checked : bool) (mtl_file : rstring) : res WriterState :=
  bs <~ table_blocks ;;
  write_blocks checked bs (mkWriterState 0 [] [] 0 [] [OComment (lit "VPin table OBJ file"); OMtlLib mtl_file] [MComment (lit "VPin table mat file")] []).
End Table.
End Items.

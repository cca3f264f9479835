(** What exporting a table to OBJ must guarantee, read with small readers of the two formats. *)
From Verif Require Import Base Text Biff Json Image Quantize ColorText Cfb JsonFloat Mesh SpecMesh Browser Common Enums Structs StructMaterial GameItem GDBounds GDScene GDPhysics GDCabinet GDDesktop GameData.
From Verif Require Import ItemWall ItemRamp ItemRubber ItemBumper ItemPlunger ItemFlipper ItemGate ItemKicker ItemSpinner ItemHitTarget ItemTrigger ItemPrimitive.
From Verif Require Import Sound Vpx Compat Builtin Polygon Smooth FileSystem Walls RubberMesh Ramps Transform ObjExport.

(** ** Reading an OBJ file *)
(** Numbers in faces count the v, vt and vn lines of the whole file from 1.  An o, usemtl or s line holds for all faces after it, until the next one. *)
Record corner : Type := mkCorner { cr_position : f32 * f32 * f32; cr_texture : f32 * f32; cr_normal : f32 * f32 * f32 }.
Record shape : Type := mkShape { sh_object : rstring; sh_material : option rstring; sh_smooth : bool; sh_corners : list corner }.
Record seen_so_far : Type := mkSeen {
  so_positions : list (f32 * f32 * f32); so_textures : list (f32 * f32); so_normals : list (f32 * f32 * f32);
  so_object : rstring; so_material : option rstring; so_smooth : bool }.
Definition numbered {A} (l : list A) (n : Z) : option A := if 1 <=? n then nth_error l (Z.to_nat (n - 1)) else None.
Definition read_corner (s : seen_so_far) (c : Z * option Z * option Z) : option corner :=
  match c with
  | (p, Some t, Some n) =>
      match numbered (so_positions s) p, numbered (so_textures s) t, numbered (so_normals s) n with
      | Some p, Some t, Some n => Some (mkCorner p t n)
      | _, _, _ => None
      end
  | _ => None
  end.
Fixpoint all_some {A} (l : list (option A)) : option (list A) :=
  match l with [] => Some [] | Some x :: r => option_map (cons x) (all_some r) | None :: _ => None end.
Fixpoint read_shapes (s : seen_so_far) (ls : list obj_line) : option (list shape) :=
  match ls with
  | [] => Some []
  | l :: r =>
      match l with
      | OComment _ | OMtlLib _ => read_shapes s r
      | OObject n => read_shapes (mkSeen (so_positions s) (so_textures s) (so_normals s) n (so_material s) (so_smooth s)) r
      | OVertex x y z => read_shapes (mkSeen (so_positions s ++ [(x, y, z)]) (so_textures s) (so_normals s) (so_object s) (so_material s) (so_smooth s)) r
      | OTexture u v => read_shapes (mkSeen (so_positions s) (so_textures s ++ [(u, v)]) (so_normals s) (so_object s) (so_material s) (so_smooth s)) r
      | ONormal x y z => read_shapes (mkSeen (so_positions s) (so_textures s) (so_normals s ++ [(x, y, z)]) (so_object s) (so_material s) (so_smooth s)) r
      | OUse m => read_shapes (mkSeen (so_positions s) (so_textures s) (so_normals s) (so_object s) (Some m) (so_smooth s)) r
      | OSmooth g => read_shapes (mkSeen (so_positions s) (so_textures s) (so_normals s) (so_object s) (so_material s) (negb (g =? 0))) r
      | OFace cs =>
          match all_some (map (read_corner s) cs), read_shapes s r with
          | Some cs, Some r => Some (mkShape (so_object s) (so_material s) (so_smooth s) cs :: r)
          | _, _ => None
          end
      end
  end.
Definition read_obj_file (ls : list obj_line) : option (list shape) := read_shapes (mkSeen [] [] [] [] None false) ls.

(** ** Reading an MTL file *)
(** A newmtl line begins a material; the lines up to the next one belong to it. *)
Fixpoint up_to_next (ls : list mtl_line) : list mtl_line := match ls with [] => [] | MNew _ :: _ => [] | l :: r => l :: up_to_next r end.
Fixpoint read_mtl_file (ls : list mtl_line) : list (rstring * list mtl_line) :=
  match ls with [] => [] | MNew n :: r => (n, up_to_next r) :: read_mtl_file r | _ :: r => read_mtl_file r end.

(** ** What must be in the files *)
(** A part with at least one triangle *)
Definition drawn (b : Block) : bool := match bl_vertices b, bl_faces b with [], _ | _, [] => false | _, _ => true end.
Definition in_range (b : Block) : Prop := Forall (face_within 0 (zlen (bl_vertices b) - 1)) (bl_faces b).
Definition vertex_count (bs : list Block) : Z := fold_right (fun b n => zlen (bl_vertices b) + n) 0 bs.
(** Where a vertex must be: moved, scaled, and mirrored in z; a texture coordinate counts upwards, and a number that is not one is 0 *)
Definition number_or_zero (x : f32) (y : f32) : f32 := if f32_is_nan x then f32_zero else y.
Definition exported_vertex (u : ExportUnits) (t : Vec3) (p : Vtx) : corner :=
  let s := units_scale u in
  mkCorner (mul32 (add32 (v_x p) (vec_x t)) s, mul32 (add32 (v_y p) (vec_y t)) s, neg_f32 (mul32 (add32 (v_z p) (vec_z t)) s))
    (number_or_zero (v_tu p) (v_tu p), number_or_zero (v_tv p) (sub32 f32_one (v_tv p)))
    (number_or_zero (v_nx p) (v_nx p), number_or_zero (v_ny p) (v_ny p), number_or_zero (v_nz p) (neg_f32 (v_nz p))).
(** The name of a material in the files: without its spaces, and followed by the texture when textures are exported *)
Definition exported_material (sanitize : rstring -> rstring) (textures : bool) (material : rstring) (texture : option rstring) : rstring :=
  filter (fun c => negb (c =? 32)%N) material ++
  match texture with Some (c :: t) => if textures then lit "__" ++ sanitize (c :: t) else [] | _ => [] end.
(** The shape a triangle of a part is exported as: its corners in reverse order, because of the mirroring *)
Definition shows (u : ExportUnits) (b : Block) (material : option rstring) (f : face) (s : shape) : Prop :=
  sh_object s = bl_name b /\ sh_material s = material /\
  exists v0 v1 v2, nth_error (bl_vertices b) (Z.to_nat (f_0 f)) = Some v0 /\ nth_error (bl_vertices b) (Z.to_nat (f_1 f)) = Some v1 /\
    nth_error (bl_vertices b) (Z.to_nat (f_2 f)) = Some v2 /\ sh_corners s = map (fun w => exported_vertex u (bl_translation b) (w_vertex w)) [v2; v1; v0].
(** The shapes of the parts in their order.  A part without a material gets that of the part before. *)
Fixpoint shown (sanitize : rstring -> rstring) (o : ObjExportOptions) (material : option rstring) (bs : list Block) (shapes : list shape) : Prop :=
  match bs with
  | [] => shapes = []
  | b :: r =>
      let material' := match bl_material b with Some m => Some (exported_material sanitize (oo_extract_textures o) m (bl_texture b)) | None => material end in
      exists these others, shapes = these ++ others /\ Forall2 (shows (oo_units o) b material') (bl_faces b) these /\ shown sanitize o material' r others
  end.

(** The first one with a name, whatever the case of its letters *)
Definition first_named {A} (name_of : A -> rstring) (name : rstring) (l : list A) (x : A) : Prop :=
  name <> [] /\ exists before after, l = before ++ x :: after /\ eq_ignore_ascii_case (name_of x) name = true /\ Forall (fun y => eq_ignore_ascii_case (name_of y) name = false) before.
Definition none_named {A} (name_of : A -> rstring) (name : rstring) (l : list A) : Prop := name = [] \/ Forall (fun y => eq_ignore_ascii_case (name_of y) name = false) l.
(** The lines for a material *)
Definition part_of_255 (b : byte) : f32 := div32 (int32 (byte_to_Z b)) (int32 255).
Definition with_colours (base glossy : Color) (metal : bool) (opacity : f32) (transparent : bool) : list mtl_line :=
  let shine := if metal then base else glossy in
  [MSpecularExponent (Z_to_w32 0x40fafafa); MAmbient f32_zero f32_zero f32_zero;
   MDiffuse (part_of_255 (c_r base)) (part_of_255 (c_g base)) (part_of_255 (c_b base)); MSpecular (part_of_255 (c_r shine)) (part_of_255 (c_g shine)) (part_of_255 (c_b shine));
   MOpticalDensity (Z_to_w32 0x3fc00000); MDissolve (if transparent then opacity else f32_one); MIllumination 5].
Definition new_materials (v : VPX) : list Material := match gt_materials (gd_tail (vpx_gamedata v)) with Some l => l | None => [] end.
Definition old_materials (v : VPX) : list SaveMaterial := gt_materials_old (gd_tail (vpx_gamedata v)).
Inductive material_lines (v : VPX) (name : rstring) : list mtl_line -> Prop :=
| New_material : forall m, first_named Material_name name (new_materials v) m ->
    material_lines v name (with_colours (Material_base_color m) (Material_glossy_color m) (match Material_type_ m with MaterialType_Metal => true | _ => false end)
      (Material_opacity m) (Material_opacity_active m))
| Old_material : forall m, none_named Material_name name (new_materials v) -> first_named sm_name name (old_materials v) m ->
    material_lines v name (with_colours (sm_base_color m) (sm_glossy_color m) (sm_is_metal m) (sm_opacity m) (Z.odd (byte_to_Z (sm_opacity_active_edge_alpha m))))
| No_material : none_named Material_name name (new_materials v) -> none_named sm_name name (old_materials v) ->
    material_lines v name [MSpecularExponent (Z_to_w32 0x40fafafa); MAmbient f32_zero f32_zero f32_zero; MDiffuse f32_one f32_one f32_one; MSpecular f32_zero f32_zero f32_zero;
      MOpticalDensity (Z_to_w32 0x3fc00000); MDissolve f32_one; MIllumination 5].
(** What an image's file must hold *)
Definition image_file (lzw_decode : bytes -> res bytes) (bmp : dyn_image -> res bytes) (i : ImageData) (d : bytes) : Prop :=
  match im_jpeg i, im_bits i with
  | Some j, _ => d = ij_data j
  | None, Some b => write_image_bmp lzw_decode bmp b (w32_to_Z (im_width i)) (w32_to_Z (im_height i)) = Ok d
  | None, None => False
  end.
Definition has_data (i : ImageData) : Prop := im_jpeg i <> None \/ im_bits i <> None.
(** The lines for a texture, given the files: none if there is no such image or it has no data *)
Inductive texture_lines (T : export_tools) (v : VPX) (textures : bool) (texture : option rstring) (files : list (rstring * bytes)) : list mtl_line -> Prop :=
| Textured : forall t i file d, textures = true -> texture = Some t -> first_named im_name t (vpx_images v) i -> In (file, d) files ->
    image_file (et_lzw_decode T) (et_bmp T) i d ->
    texture_lines T v textures texture files [MMapDiffuse (lit "images/" ++ file); MMapAmbient (lit "images/" ++ file)]
| Untextured : (textures = true -> forall t, texture = Some t -> none_named im_name t (vpx_images v) \/ exists i, first_named im_name t (vpx_images v) i /\ ~ has_data i) ->
    texture_lines T v textures texture files [].

(** ** Items *)
(** Where an item stands: on the first wall or ramp with the name of its surface *)
Definition is_surface (name : rstring) (i : GameItem) : bool :=
  match i with GI_Wall w => eq_ignore_ascii_case (Wall_name w) name | GI_Ramp r => eq_ignore_ascii_case (Ramp_name r) name | _ => false end.
Inductive stands_at (fuel : nat) (v : VPX) (name : rstring) (x y : f32) : f32 -> Prop :=
| On_wall : forall before w after, name <> [] -> vpx_gameitems v = before ++ GI_Wall w :: after -> is_surface name (GI_Wall w) = true ->
    Forall (fun i => is_surface name i = false) before -> stands_at fuel v name x y (Wall_height_top w)
| On_ramp : forall before r after h, name <> [] -> vpx_gameitems v = before ++ GI_Ramp r :: after -> is_surface name (GI_Ramp r) = true ->
    Forall (fun i => is_surface name i = false) before -> ramp_surface_height fuel r x y = Ok h -> stands_at fuel v name x y h
| On_playfield : name = [] \/ Forall (fun i => is_surface name i = false) (vpx_gameitems v) -> stands_at fuel v name x y f32_zero.
(** The parts an item is exported as, in their order: what follows its name, the material, the texture, and the mesh if there is one *)
Definition named (s : rstring) : option rstring := match s with [] => None | _ => Some s end.
Definition row : Type := (rstring * option rstring * option rstring * res (option mesh))%type.
Definition part_rows (T : export_tools) (v : VPX) (o : ObjExportOptions) (i : GameItem) : list row :=
  let game := vpx_gamedata v in let detail := effective_detail_level game in
  match i with
  | GI_Primitive p =>
      let '(material, texture) := if eq_ignore_ascii_case (Primitive_name p) (lit "playfield_mesh")
                                  then (GDScene_playfield_material (gd_scene game), GDPhysics_image (gd_physics game)) else (Primitive_material p, Primitive_image p) in
      [([], Some material, named texture, m <~ effective_primitive_mesh T p ;; Ok (option_map (fun m => (map (placed (primitive_world_matrix T p)) (fst m), snd m)) m))]
  | GI_Wall w =>
      let meshes := build_wall_meshes (et_fuel T) w (table_dimensions v) in
      let top := m <~ meshes ;; Ok (match m with Some m => wm_top m | None => None end) in
      let side := m <~ meshes ;; Ok (match m with Some m => wm_side m | None => None end) in
      (* both or none *)
      let top' := t <~ top ;; s <~ side ;; Ok (match s with Some _ => t | None => None end) in
      let side' := t <~ top ;; s <~ side ;; Ok (match t with Some _ => s | None => None end) in
      let joined := t <~ top ;; s <~ side ;; Ok (match t, s with Some (tv, tf), Some (sv, sf) => Some (sv ++ tv, sf ++ map (shifted (zlen sv)) tf) | _, _ => None end) in
      match Wall_is_top_bottom_visible w, Wall_is_side_visible w with
      | true, true => if oo_extract_textures o then [(lit "Side", Some (Wall_side_material w), named (Wall_side_image w), side'); (lit "Top", Some (Wall_top_material w), named (Wall_image w), top')]
                      else [([], Some (Wall_top_material w), None, joined)]
      | true, false => [([], Some (match Wall_image w with [] => lit "none" | n => n end), named (Wall_image w), top)]
      | false, true => [([], Some (Wall_side_material w), named (Wall_side_image w), side)]
      | false, false => []
      end
  | GI_Ramp r =>
      let transparent := match material_view_by_name v (Ramp_material r) with Some m => mv_opacity_active m | None => false end in
      [([], Some (Ramp_material r), named (Ramp_image r), build_ramp_mesh (et_sin T) (et_cos T) (et_fuel T) r (table_dimensions v) detail transparent)]
  | GI_Rubber r => [([], Some (Rubber_material r), None, m <~ build_rubber_mesh (et_sin T) (et_cos T) (et_fuel T) r detail ;; Ok (option_map fst m))]
  | GI_Bumper b =>
      let '(base, ring, socket, cap) := et_bumper T b in
      [(lit "Base", Some (Bumper_base_material b), None, Ok base); (lit "Ring", None, None, Ok ring); (lit "Skirt", Some (Bumper_socket_material b), None, Ok socket); (lit "Cap", Some (Bumper_cap_material b), None, Ok cap)]
  | GI_Plunger p =>
      let '(flat, rod, spring, ring, tip) := et_plunger T p in
      map (fun e => (fst e, named (Plunger_material p), named (Plunger_image p), Ok (snd e))) [(lit "Flat", flat); (lit "Rod", rod); (lit "Spring", spring); (lit "Ring", ring); (lit "Tip", tip)]
  | GI_Flipper f =>
      let meshes := et_flipper T f in
      [(lit "Base", Some (Flipper_material f), match Flipper_image f with Some s => named s | None => None end, Ok (match meshes with Some (base, _, _) => Some base | None => None end));
       (lit "Rubber", Some (Flipper_rubber_material f), None, Ok (match meshes with Some (_, rubber, _) => rubber | None => None end))]
  | GI_Gate g =>
      let meshes := et_gate T g in
      [(lit "Bracket", Some (Gate_material g), None, Ok (match meshes with Some (bracket, _) => bracket | None => None end)); (lit "Wire", Some (Gate_material g), None, Ok (option_map snd meshes))]
  | GI_Kicker k => let '(plate, kicker) := et_kicker T k in [(lit "Plate", Some (Kicker_material k), None, Ok plate); ([], Some (Kicker_material k), None, Ok kicker)]
  | GI_Spinner s => let '(bracket, plate) := et_spinner T s in [(lit "Bracket", Some (Spinner_material s), None, Ok bracket); (lit "Plate", None, None, Ok (Some plate))]
  | GI_HitTarget h => [([], Some (HitTarget_material h), named (HitTarget_image h), Ok (et_target T h))]
  | GI_Trigger t => [([], Some (Trigger_material t), None, Ok (et_trigger T t))]
  | _ => []
  end.
(** Items that are not exported *)
Definition hidden (v : VPX) (o : ObjExportOptions) (i : GameItem) : bool :=
  match i with
  | GI_Primitive p => negb (primitive_is_visible p (vpx_version v))
  | GI_Wall w => negb (Wall_is_top_bottom_visible w) && negb (Wall_is_side_visible w)
  | GI_Ramp r => negb (Ramp_is_visible r)
  | GI_Rubber r => negb (Rubber_is_visible r)
  | GI_Kicker k => match Kicker_kicker_type k with KickerType_Invisible => true | _ => false end
  | GI_Trigger t => negb (Trigger_is_visible t)
  | GI_Plunger p => negb (Plunger_is_visible p) || negb (oo_include_plunger o)
  | GI_Bumper _ | GI_Flipper _ | GI_Gate _ | GI_Spinner _ | GI_HitTarget _ => false
  | _ => true
  end.
(** Where the parts of an item are moved to; those of primitives, walls and ramps are built where they belong *)
Definition moved_to (T : export_tools) (v : VPX) (i : GameItem) (t : Vec3) : Prop :=
  let at_height (c : Vertex2D) (surface : rstring) (lift : f32 -> f32) := exists h, stands_at (et_fuel T) v surface (v2_x c) (v2_y c) h /\ t = mkVec3 (v2_x c) (v2_y c) (lift h) in
  match i with
  | GI_Bumper b => at_height (Bumper_center b) (Bumper_surface b) (fun h => h)
  | GI_Kicker k => at_height (Kicker_center k) (Kicker_surface k) (fun h => h)
  | GI_Trigger g => at_height (Trigger_center g) (Trigger_surface g) (fun h => h)
  | GI_Gate g => at_height (Gate_center g) (Gate_surface g) (fun h => add32 h (Gate_height g))
  | GI_Spinner s => at_height (Spinner_center s) (Spinner_surface s) (fun h => add32 h (Spinner_height s))
  | GI_Plunger p => at_height (Plunger_center p) (Plunger_surface p) (fun h => add32 h (Plunger_z_adjust p))
  | GI_HitTarget h => let p := HitTarget_position h in t = mkVec3 (v3_x p) (v3_y p) (v3_z p)
  | GI_Rubber r => exists d vs fs, build_rubber_mesh (et_sin T) (et_cos T) (et_fuel T) r d = Ok (Some (vs, fs, t))
  | GI_Flipper f => exists base rubber, et_flipper T f = Some (base, rubber, t)
  | _ => t = mkVec3 f32_zero f32_zero f32_zero
  end.
Definition item_name (i : GameItem) : rstring :=
  match i with
  | GI_Primitive p => Primitive_name p | GI_Wall w => Wall_name w | GI_Ramp r => Ramp_name r | GI_Rubber r => Rubber_name r | GI_Bumper b => Bumper_name b
  | GI_Plunger p => Plunger_name p | GI_Flipper f => Flipper_name f | GI_Gate g => Gate_name g | GI_Kicker k => Kicker_name k | GI_Spinner s => Spinner_name s
  | GI_HitTarget h => HitTarget_name h | GI_Trigger t => Trigger_name t | _ => []
  end.
(** The parts of an item: those rows that have a mesh *)
Definition present (name : rstring) (r : row) : list (rstring * option rstring * option rstring * mesh) :=
  match r with (suffix, material, texture, Ok (Some m)) => [(name ++ suffix, material, texture, m)] | _ => [] end.
Definition item_parts (T : export_tools) (v : VPX) (o : ObjExportOptions) (i : GameItem) (bs : list Block) : Prop :=
  map (fun b => (bl_name b, bl_material b, bl_texture b, (bl_vertices b, bl_faces b))) bs = (if hidden v o i then [] else flat_map (present (item_name i)) (part_rows T v o i)) /\
  Forall (fun b => moved_to T v i (bl_translation b)) bs.
(** Triangles between vertices there are *)
Definition good_mesh (m : mesh) : Prop := Forall (face_within 0 (zlen (fst m) - 1)) (snd m).
(** The meshes that are not modelled, and those stored in the table, have such triangles only *)
Definition good_items (T : export_tools) (v : VPX) (o : ObjExportOptions) : Prop := forall i suffix material texture m, In i (vpx_gameitems v) ->
  match i with GI_Primitive p => Primitive_use_3d_mesh p = true | GI_Wall _ | GI_Ramp _ | GI_Rubber _ => False | _ => True end ->
  In (suffix, material, texture, Ok (Some m)) (part_rows T v o i) -> good_mesh m.

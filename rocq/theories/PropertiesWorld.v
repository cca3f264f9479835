(** C66, continued: where the vertices of a primitive lie in an export.

    The code is in ObjExport.v; what the property means is in SpecWorld.v. *)
From Coq Require Import Reals Lra.
From Verif Require Import Base Text Biff Json Image Quantize ColorText Cfb JsonFloat Mesh SpecMesh Browser Common Enums Structs StructMaterial GameItem GDBounds GDScene GDPhysics GDCabinet GDDesktop GameData.
From Verif Require Import ItemWall ItemRamp ItemRubber ItemBumper ItemPlunger ItemFlipper ItemGate ItemKicker ItemSpinner ItemHitTarget ItemTrigger ItemPrimitive.
From Verif Require Import Sound Vpx Compat Builtin Polygon Smooth FileSystem Walls RubberMesh Ramps Transform TableInfo ExpandedItems BaseFacts SoundFacts ExpandedItemsFacts.
From Verif Require Import SpecBuiltin SpecPolygon SpecSmooth SpecWalls SpecRubber SpecRamps WallsFacts PropertiesBuiltin PropertiesPolygon PropertiesSmooth PropertiesWalls PropertiesRubber PropertiesRamps.
From Verif Require Import TransformReals ObjExport SpecObjExport ObjExportFacts.
From Verif Require Import Base Text Image Cfb Mesh SpecMesh Browser Common Enums GameItem ItemPrimitive Vpx Sound Builtin SpecBuiltin Polygon SpecPolygon Smooth SpecSmooth SpecRamps Transform Flats SpecFlats PropertiesFlats Shapes SpecShapes ShapeReals PropertiesShapes ObjExport SpecWorld WorldReals PropertiesObjExport.
Local Open Scope Z_scope.

(** A primitive that is exported keeps the triangles of its mesh, and each vertex lies, up to rounding, where the primitive puts it: scaled, moved by its translation, turned about z, y and x by its rotation and then by its object rotation, and moved to its position. *)
Theorem C66_placed : forall T v p block vs fs b size move, bounded_function (et_sin T) -> bounded_function (et_cos T) -> (1 <= b <= 1024)%R -> (1 <= size <= 1048576)%R -> (1 <= move <= 1048576)%R ->
  Forall moderate (primitive_angles p) -> Forall (up_to size) (primitive_sizes p) -> Forall (up_to move) (primitive_moves p) ->
  effective_primitive_mesh T p = Ok (Some (vs, fs)) -> Forall (fun w => Forall (up_to b) (coordinates_of (w_vertex w))) vs ->
  primitive_blocks T v p = Ok [block] ->
  bl_faces block = fs /\
  Forall2 (fun w w' => (let '(x, y, z) := place_in (w_vertex w') in finite32 x /\ finite32 y /\ finite32 z) /\ close_to ((b * size + move) / 2500) (reals (place_in (w_vertex w'))) (where_primitive_puts (et_sin T) (et_cos T) p (reals (place_in (w_vertex w)))) /\
                    v_tu (w_vertex w') = v_tu (w_vertex w) /\ v_tv (w_vertex w') = v_tv (w_vertex w)) vs (bl_vertices block).
Proof.
  intros T v p block vs fs b size move BS BC LB LS LM HA HS HM E U H. unfold primitive_blocks in H. destruct (negb (primitive_is_visible p (vpx_version v))); [discriminate H|]. rewrite E in H.
  destruct (if is_playfield p then _ else _) as [material texture]. injection H as <-. cbn [bl_faces bl_vertices]. split; [reflexivity|]. apply Forall2_mapped. intros w I. rewrite Forall_forall in U.
  destruct (primitive_vertex T BS BC b size move LB LS LM p HA HM HS w (U w I)) as [A B]. split; [exact A|]. split; [exact B|]. split; reflexivity.
Qed.
Print Assumptions C66_placed.

(** ** Cases *)
(** A box of the library's own shape, 20 by 30 by 40, moved *)
Definition crate : Primitive := set_Primitive_size (mkVertex3D (int32 20) (int32 30) (int32 40)) (set_Primitive_position (mkVertex3D (int32 100) (int32 200) (int32 0)) (set_Primitive_use_3d_mesh false Primitive_default)).
Definition small (n : Z) (x : f32) : bool := match f32_value x with SpecFloat.S754_finite _ _ _ | SpecFloat.S754_zero _ => Z.abs (exact x) <=? n * 2 ^ 149 | _ => false end.
Lemma small_up_to n x : small n x = true -> up_to (IZR n) x.
Proof. unfold small. intros H. apply up_to_whole; [|destruct (f32_value x); try discriminate H; apply Z.leb_le; exact H]. unfold finite32. destruct (f32_value x); try discriminate H; exact I. Qed.
Definition mesh_small (n : Z) (m : res (option mesh)) : bool := match m with Ok (Some (vs, _)) => forallb (fun w => forallb (small n) (coordinates_of (w_vertex w))) vs | _ => false end.
Example C66_placed_case : exists vs fs block, effective_primitive_mesh example_tools crate = Ok (Some (vs, fs)) /\ Forall (fun w => Forall (up_to 2) (coordinates_of (w_vertex w))) vs /\ zlen vs > 10 /\
  primitive_blocks example_tools example_export crate = Ok [block] /\ Forall moderate (primitive_angles crate) /\ Forall (up_to 100) (primitive_sizes crate) /\ Forall (up_to 200) (primitive_moves crate).
Proof.
  assert (S : mesh_small 2 (effective_primitive_mesh example_tools crate) = true) by (vm_compute; reflexivity).
  assert (L : match effective_primitive_mesh example_tools crate with Ok (Some (vs, _)) => zlen vs >? 10 | _ => false end = true) by (vm_compute; reflexivity).
  assert (V : negb (primitive_is_visible crate (vpx_version example_export)) = false) by (vm_compute; reflexivity).
  unfold primitive_blocks. rewrite V. destruct (effective_primitive_mesh example_tools crate) as [[[vs fs]|]|]; try discriminate S. exists vs, fs. destruct (if is_playfield crate then _ else _) as [material texture]. eexists. split; [reflexivity|]. split.
  - cbn [mesh_small] in S. rewrite forallb_forall in S. apply Forall_forall. intros w I. specialize (S w I). rewrite forallb_forall in S. apply Forall_forall. intros x J. apply small_up_to. exact (S x J).
  - split; [lia|]. split; [reflexivity|]. split; [apply Forall_forall; intros x I; cbn in I; repeat destruct I as [<-|I]; try contradiction; (split; vm_compute; (exact Logic.I || discriminate))|].
    split; (apply Forall_forall; intros x I; apply small_up_to; cbn [primitive_sizes primitive_moves In] in I; repeat destruct I as [<-|I]; try contradiction; vm_compute; reflexivity).
Qed.
(** The order matters: a point on the first axis, turned by a quarter about z and then about x, comes to the third axis *)
Example C66_placed_order :
  let T := mkTools quarter_sin quarter_cos kept_text kept_text (fun b => Ok b) (fun b => Ok b) (fun _ => Ok []) (fun _ => (None, Some tri, None, None)) (fun _ => None) (fun _ => None) (fun _ => (None, None)) (fun _ => (None, tri)) (fun _ => Some tri) (fun _ => None) (fun _ => (None, None, None, None, None)) 151 in
  let p := set_Primitive_rot_and_tra_0 (int32 90) (set_Primitive_rot_and_tra_2 (int32 90) (set_Primitive_size (mkVertex3D (int32 2) (int32 3) (int32 4)) Primitive_default)) in
  let w := w_vertex (placed (primitive_world_matrix T p) (corner_at 8 0 0)) in map exact [v_x w; v_y w; v_z w] = map exact [f32_zero; f32_zero; int32 16].
Proof. vm_compute. reflexivity. Qed.

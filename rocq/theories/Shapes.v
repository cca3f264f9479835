(** Meshes of hit targets, gates, spinners, kickers and triggers: copies of shapes that are built into the library, scaled and turned
    (src/vpx/mesh/hittargets/mod.rs, gates/mod.rs, spinners/mod.rs, kickers/mod.rs, triggers/mod.rs, and the 3x3 matrices of src/vpx/math/vec.rs).

    The shapes themselves (the constants in the files next to these) are an argument, and so are sine and cosine. *)
From Coq Require Import Floats.SpecFloat.
From Verif Require Import Base Text Json Image Sound Quantize ColorText Cfb JsonFloat Mesh Browser Common Enums ItemHitTarget ItemGate ItemSpinner ItemKicker ItemTrigger Builtin Polygon Smooth RubberMesh Transform Flats.

(** The names of the built-in shapes, by the constants of the modules named *)
Inductive Shape : Set :=
| Shape_DropTargetT2 | Shape_DropTargetT3 | Shape_DropTargetT4 | Shape_TargetRound | Shape_TargetRectangle | Shape_TargetFatRectangle | Shape_TargetFatSquare | Shape_TargetT1Slim
| Shape_TargetT2Slim | Shape_GateBracket | Shape_GateWire | Shape_GateWireRectangle | Shape_GatePlate | Shape_GateLongPlate | Shape_SpinnerBracket | Shape_SpinnerPlate
| Shape_KickerPlate | Shape_KickerCup | Shape_KickerWilliams | Shape_KickerGottlieb | Shape_KickerT1 | Shape_KickerHole | Shape_KickerSimpleHole
| Shape_TriggerSimple | Shape_TriggerWireD | Shape_TriggerStar | Shape_TriggerButton | Shape_TriggerInder.

(** [0.88], [0.87], [0.82], [-0.18], [90.0], [-23.0], [140.0], [5.0], [-19.0] *)
Definition f32_0_88 : f32 := Z_to_w32 0x3f6147ae.
Definition f32_0_87 : f32 := Z_to_w32 0x3f5eb852.
Definition f32_0_82 : f32 := Z_to_w32 0x3f51eb85.
Definition f32_minus_0_18 : f32 := Z_to_w32 0xbe3851ec.
Definition f32_minus_23 : f32 := Z_to_w32 0xc1b80000.
Definition f32_minus_19 : f32 := Z_to_w32 0xc1980000.

Section Shapes.
Variable sin cos : f32 -> f32.
(** The vertices and the indices of a shape *)
Variable library : Shape -> list Vtx * list Z.

Definition shape_mesh : Type := (list wrapper * list face)%type.
(** [indices.chunks(3)] and [chunk[0]], [chunk[1]], [chunk[2]], for example hittargets/mod.rs:139-147: a last chunk with fewer than three panics *)
Fixpoint triples (l : list Z) : res (list face) :=
  match l with
  | [] => Ok []
  | a :: b :: c :: r => fs <~ triples r ;; Ok (mkFace a b c :: fs)
  | _ => Panic
  end.
Definition copy_of (s : Shape) (f : Vtx -> Vtx) : res shape_mesh :=
  fs <~ triples (snd (library s)) ;; Ok (map (fun v => mkWrapper (repeat x00 32) (f v)) (fst (library s)), fs).
Definition place (v : Vtx) : Vec3 := mkVec3 (v_x v) (v_y v) (v_z v).
Definition normal (v : Vtx) : Vec3 := mkVec3 (v_nx v) (v_ny v) (v_nz v).
Definition with_place (p n : Vec3) (v : Vtx) : Vtx := mkVtx (vec_x p) (vec_y p) (vec_z p) (vec_x n) (vec_y n) (vec_z n) (v_tu v) (v_tv v).
Definition each_by (p : Vec3) (x y z : f32) : Vec3 := mkVec3 (mul32 (vec_x p) x) (mul32 (vec_y p) y) (mul32 (vec_z p) z).

(** vec.rs:157-172 [Mat3::rotate_z], [multiply_vector], 175-177 [multiply_vector_no_translate] *)
Definition turn3 (a : f32) (v : Vec3) : Vec3 :=
  let c := cos a in let s := sin a in
  mkVec3 (turned_row c (neg_f32 s) f32_zero (vec_x v) (vec_y v) (vec_z v)) (turned_row s c f32_zero (vec_x v) (vec_y v) (vec_z v)) (turned_row f32_zero f32_zero f32_one (vec_x v) (vec_y v) (vec_z v)).

(** hittargets/mod.rs:49-69 [get_mesh_for_type] *)
Definition target_shape (t : TargetType) : Shape :=
  match t with
  | TargetType_DropTargetBeveled => Shape_DropTargetT2
  | TargetType_DropTargetSimple => Shape_DropTargetT3
  | TargetType_DropTargetFlatSimple => Shape_DropTargetT4
  | TargetType_HitTargetRound => Shape_TargetRound
  | TargetType_HitTargetRectangle => Shape_TargetRectangle
  | TargetType_HitFatTargetRectangle => Shape_TargetFatRectangle
  | TargetType_HitFatTargetSquare => Shape_TargetFatSquare
  | TargetType_HitTargetSlim => Shape_TargetT1Slim
  | TargetType_HitFatTargetSlim => Shape_TargetT2Slim
  end.
(** hittargets/mod.rs:98-150 [build_hit_target_mesh_unchecked], 86-91 [build_hit_target_mesh] *)
Definition target_vertex (h : HitTarget) (v : Vtx) : Vtx :=
  let a := radians (HitTarget_rot_z h) in let s := HitTarget_size h in
  with_place (turn3 a (each_by (place v) (v3_x s) (v3_y s) (v3_z s))) (turn3 a (normal v)) v.
Definition build_hit_target_mesh_unchecked (h : HitTarget) : res shape_mesh := copy_of (target_shape (HitTarget_target_type h)) (target_vertex h).
Definition build_hit_target_mesh (h : HitTarget) : res (option shape_mesh) :=
  if negb (HitTarget_is_visible h) then Ok None else m <~ build_hit_target_mesh_unchecked h ;; Ok (Some m).

(** spinners/mod.rs:44-165 [build_spinner_meshes], [generate_bracket_mesh], [generate_plate_mesh]: bracket and plate *)
Definition spinner_vertex (s : Spinner) (v : Vtx) : Vtx :=
  let a := radians (Spinner_rotation s) in let l := Spinner_length s in with_place (each_by (turn3 a (place v)) l l l) (turn3 a (normal v)) v.
Definition build_spinner_meshes (s : Spinner) : res (option shape_mesh * shape_mesh) :=
  bracket <~ (if Spinner_show_bracket s then m <~ copy_of Shape_SpinnerBracket (spinner_vertex s) ;; Ok (Some m) else Ok None) ;;
  plate <~ copy_of Shape_SpinnerPlate (spinner_vertex s) ;;
  Ok (bracket, plate).

(** gates/mod.rs:45-53 [get_mesh_for_type], gate.rs:37 [UNKNOWN_FALLBACK] *)
Definition gate_shape (t : option GateType) : Shape :=
  match t with
  | Some GateType_WireRectangle => Shape_GateWireRectangle
  | Some GateType_Plate => Shape_GatePlate
  | Some GateType_LongPlate => Shape_GateLongPlate
  | Some GateType_WireW | Some (GateType_Unknown _) | None => Shape_GateWire
  end.
(** matrix.rs:28-46 [normalized] *)
Definition normalized (n : Vec3) : Vec3 :=
  let len := length3 n in if lt32 f32_zero len then let inv := div32 f32_one len in mkVec3 (mul32 (vec_x n) inv) (mul32 (vec_y n) inv) (mul32 (vec_z n) inv) else n.
(** gates/mod.rs:67-108 [generate_bracket_mesh], 123-168 [generate_wire_mesh] *)
Definition bracket_vertex (g : Gate) (v : Vtx) : Vtx :=
  let rot := rotate_z sin cos (radians (Gate_rotation g)) in
  let m := times rot (scaling (Gate_length g) (Gate_length g) (Gate_length g)) in
  with_place (transform_vertex m (place v)) (normalized (transform_normal rot (normal v))) v.
Definition wire_vertex (g : Gate) (v : Vtx) : Vtx :=
  let rot := rotate_z sin cos (radians (Gate_rotation g)) in
  with_place (transform_vertex rot (place v)) (normalized (transform_normal rot (normal v))) v.
(** gates/mod.rs:192-207 [build_gate_meshes_unchecked], 180-185 [build_gate_meshes] *)
Definition build_gate_meshes_unchecked (g : Gate) : res (option shape_mesh * shape_mesh) :=
  bracket <~ (if Gate_show_bracket g then m <~ copy_of Shape_GateBracket (bracket_vertex g) ;; Ok (Some m) else Ok None) ;;
  wire <~ copy_of (gate_shape (Gate_gate_type g)) (wire_vertex g) ;;
  Ok (bracket, wire).
Definition build_gate_meshes (g : Gate) : res (option (option shape_mesh * shape_mesh)) :=
  if negb (Gate_is_visible g) then Ok None else m <~ build_gate_meshes_unchecked g ;; Ok (Some m).

(** kickers/mod.rs:86-135 [generate_plate_mesh] *)
Definition plate_radius (k : Kicker) : f32 :=
  match Kicker_kicker_type k with
  | KickerType_Williams | KickerType_Gottlieb => mul32 (Kicker_radius k) f32_0_88
  | KickerType_Cup2 => mul32 (Kicker_radius k) f32_0_87
  | KickerType_Cup => Kicker_radius k
  | _ => mul32 (Kicker_radius k) f32_0_82
  end.
Definition plate_vertex (k : Kicker) (v : Vtx) : Vtx :=
  let r := plate_radius k in let p := each_by (place v) r r r in mkVtx (vec_x p) (vec_y p) (vec_z p) (v_nx v) (v_ny v) (v_nz v) f32_zero f32_zero.
(** kickers/mod.rs:144-238 [generate_kicker_mesh] *)
Definition body_of (k : Kicker) : Shape * f32 * f32 :=
  match Kicker_kicker_type k with
  | KickerType_Cup => (Shape_KickerCup, f32_minus_0_18, Kicker_orientation k)
  | KickerType_Williams => (Shape_KickerWilliams, f32_zero, add32 (Kicker_orientation k) (int32 90))
  | KickerType_Gottlieb => (Shape_KickerGottlieb, f32_zero, Kicker_orientation k)
  | KickerType_Cup2 => (Shape_KickerT1, f32_zero, Kicker_orientation k)
  | KickerType_Hole => (Shape_KickerHole, f32_zero, f32_zero)
  | KickerType_HoleSimple | KickerType_Invisible => (Shape_KickerSimpleHole, f32_zero, f32_zero)
  end.
Definition body_vertex (k : Kicker) (v : Vtx) : Vtx :=
  let '(_, offset, angle) := body_of k in let m := rotate_z sin cos (radians angle) in let r := Kicker_radius k in
  with_place (each_by (transform_vertex m (mkVec3 (v_x v) (v_y v) (add32 (v_z v) offset))) r r r) (transform_normal m (normal v)) v.
(** kickers/mod.rs:63-76 [build_kicker_meshes]: plate and body *)
Definition build_kicker_meshes (k : Kicker) : res (option shape_mesh * option shape_mesh) :=
  match Kicker_kicker_type k with
  | KickerType_Invisible => Ok (None, None)
  | _ => plate <~ copy_of Shape_KickerPlate (plate_vertex k) ;; body <~ copy_of (fst (fst (body_of k))) (body_vertex k) ;; Ok (Some plate, Some body)
  end.

(** triggers/mod.rs:40-52 [get_mesh_for_shape], 59-65 [get_z_offset], 77-87 [get_rotation_matrix], 97-99 [uses_radius_scaling], 107-116 [uses_wire_thickness] *)
Definition trigger_shape (s : TriggerShape) : option Shape :=
  match s with
  | TriggerShape_None => None
  | TriggerShape_WireA | TriggerShape_WireB | TriggerShape_WireC => Some Shape_TriggerSimple
  | TriggerShape_WireD => Some Shape_TriggerWireD
  | TriggerShape_Star => Some Shape_TriggerStar
  | TriggerShape_Button => Some Shape_TriggerButton
  | TriggerShape_Inder => Some Shape_TriggerInder
  end.
Definition trigger_offset (s : TriggerShape) : f32 := match s with TriggerShape_Button => int32 5 | TriggerShape_WireC => f32_minus_19 | _ => f32_zero end.
Definition trigger_matrix (s : TriggerShape) (rotation : f32) : Matrix :=
  match s with
  | TriggerShape_WireB => times (rotate_x sin cos (radians f32_minus_23)) (rotate_z sin cos (radians rotation))
  | TriggerShape_WireC => times (rotate_x sin cos (radians (int32 140))) (rotate_z sin cos (radians rotation))
  | _ => rotate_z sin cos (radians rotation)
  end.
Definition by_radius (s : TriggerShape) : bool := match s with TriggerShape_Button | TriggerShape_Star => true | _ => false end.
Definition has_thickness (s : TriggerShape) : bool :=
  match s with TriggerShape_WireA | TriggerShape_WireB | TriggerShape_WireC | TriggerShape_WireD | TriggerShape_Inder => true | _ => false end.
(** triggers/mod.rs:130-205 [build_trigger_mesh] *)
Definition trigger_vertex (t : Trigger) (v : Vtx) : Vtx :=
  let s := Trigger_shape t in let m := trigger_matrix s (Trigger_rotation t) in
  let p := transform_vertex m (place v) in
  let p := if by_radius s then each_by p (Trigger_radius t) (Trigger_radius t) (Trigger_radius t) else each_by p (Trigger_scale_x t) (Trigger_scale_y t) f32_one in
  let p := mkVec3 (vec_x p) (vec_y p) (add32 (vec_z p) (trigger_offset s)) in
  let n := normalized (transform_normal m (normal v)) in
  let w := match Trigger_wire_thickness t with Some w => w | None => f32_zero end in
  let p := if has_thickness s then mkVec3 (add32 (vec_x p) (mul32 (vec_x n) w)) (add32 (vec_y p) (mul32 (vec_y n) w)) (add32 (vec_z p) (mul32 (vec_z n) w)) else p in
  with_place p n v.
Definition build_trigger_mesh (t : Trigger) : res (option shape_mesh) :=
  if negb (Trigger_is_visible t) then Ok None
  else match trigger_shape (Trigger_shape t) with None => Ok None | Some s => m <~ copy_of s (trigger_vertex t) ;; Ok (Some m) end.
End Shapes.

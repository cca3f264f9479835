(** What the properties about GLB and glTF files say, apart from the code. *)
From Coq Require Import Floats.SpecFloat.
From Verif Require Import Base Text Quantize JsonFloat Json Mesh SpecMesh.

(** What becomes of a vertex: normals that are NaN are 0 for other programs *)
Definition shown (x : f32) : f32 := if f32_is_nan x then Z_to_w32 0 else x.
Definition shown_vertex (v : Vtx) : Vtx :=
  mkVtx (v_x v) (v_y v) (v_z v) (shown (v_nx v)) (shown (v_ny v)) (shown (v_nz v)) (v_tu v) (v_tv v).
(** The largest index that fits the width used for a mesh of this size *)
Definition largest_index (num_vertices : Z) : Z := if num_vertices <=? 65535 then 65535 else 4294967295.
(** No normal of a frame is NaN *)
Definition no_nan_normals (fvs : list frame_vertex) : Prop :=
  Forall (fun v => f32_is_nan (fv_nx v) = false /\ f32_is_nan (fv_ny v) = false /\ f32_is_nan (fv_nz v) = false) fvs.

(** The least and the greatest of a coordinate, of the vertices where it is a number *)
Definition least (c : Vtx -> f32) (vs : list wrapper) (m : f32) : Prop :=
  (exists w, In w vs /\ f32_is_nan (c (w_vertex w)) = false /\ c (w_vertex w) = m) /\
  forall w, In w vs -> f32_is_nan (c (w_vertex w)) = false -> SFleb (f32_value m) (f32_value (c (w_vertex w))) = true.
Definition greatest (c : Vtx -> f32) (vs : list wrapper) (m : f32) : Prop :=
  (exists w, In w vs /\ f32_is_nan (c (w_vertex w)) = false /\ c (w_vertex w) = m) /\
  forall w, In w vs -> f32_is_nan (c (w_vertex w)) = false -> SFleb (f32_value (c (w_vertex w))) (f32_value m) = true.

(** ** A reader that follows the glTF specification *)
Section Reader.
Context {L : json_lib}.
Fixpoint lookup (key : string) (fields : list (string * json)) : option json :=
  match fields with [] => None | (k, j) :: fields' => if (k =? key)%string then Some j else lookup key fields' end.
Definition field (key : string) (j : option json) : option json := match j with Some (Jobj fields) => lookup key fields | _ => None end.
Definition item (i : Z) (j : option json) : option json := match j with Some (Jarr l) => at_index l i | _ => None end.
Definition number (j : option json) : option Z := match j with Some (Jnum (NInt z)) => Some z | _ => None end.
(** The accessor with this index: component type, type, count, and the bytes of its buffer view *)
Definition accessor_data (doc : json) (bin : bytes) (index : option Z) : option (Z * rstring * Z * bytes) :=
  match index with
  | None => None
  | Some k =>
      let a := item k (field "accessors" (Some doc)) in
      match number (field "bufferView" a) with
      | None => None
      | Some v =>
          let view := item v (field "bufferViews" (Some doc)) in
          match number (field "componentType" a), field "type" a, number (field "count" a),
                number (field "byteOffset" view), number (field "byteLength" view) with
          | Some component, Some (Jstr kind), Some count, Some offset, Some length =>
              if (0 <=? offset) && (0 <=? length) && (offset + length <=? zlen bin) && (offset mod 4 =? 0)
              then Some (component, kind, count, firstn (Z.to_nat length) (skipn (Z.to_nat offset) bin)) else None
          | _, _, _, _, _ => None
          end
      end
  end.
(** The only mesh of the only node of the scene *)
Definition scene_mesh (doc : json) : option json :=
  let root := Some doc in
  match number (field "scene" root) with
  | None => None
  | Some s =>
      match number (item 0 (field "nodes" (item s (field "scenes" root)))) with
      | None => None
      | Some n => match number (field "mesh" (item n (field "nodes" root))) with Some m => item m (field "meshes" root) | None => None end
      end
  end.
Definition attribute (doc : json) (bin : bytes) (name : string) : option (Z * rstring * Z * bytes) :=
  accessor_data doc bin (number (field name (field "attributes" (item 0 (field "primitives" (scene_mesh doc)))))).
Definition triangles (doc : json) (bin : bytes) : option (Z * rstring * Z * bytes) :=
  let p := item 0 (field "primitives" (scene_mesh doc)) in
  match number (field "mode" p) with Some 4 => accessor_data doc bin (number (field "indices" p)) | _ => None end.
End Reader.

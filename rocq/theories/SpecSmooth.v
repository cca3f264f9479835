(** What the properties about smooth curves say, apart from the code. *)
From Coq Require Import Floats.SpecFloat.
From Verif Require Import Base Text Image Sound Quantize ColorText Cfb JsonFloat Mesh Browser Common Builtin SpecBuiltin Polygon SpecPolygon Smooth.

(** Coordinates up to 2^20, about a million: a table is a few thousand units wide *)
Definition moderate (x : f32) : Prop := finite32 x /\ Z.abs (exact x) <= 2 ^ 20 * 2 ^ 149.
Definition flat_coordinates (p : DragPoint) : list f32 := [dp_x p; dp_y p].
Definition coordinates (p : DragPoint) : list f32 := [dp_x p; dp_y p; dp_z p].

(** The drag point of an index beyond the ends: a closed curve goes round, an open one stops at its ends *)
Definition neighbour (closed : bool) (points : list DragPoint) (i : Z) : option DragPoint :=
  let n := zlen points in nth_error points (Z.to_nat (if closed then i mod n else Z.max 0 (Z.min (n - 1) i))).
(** The four points that control the curve from one drag point to the next: at a drag point that is not smooth, there is nothing beyond it *)
Definition controls (closed : bool) (points : list DragPoint) (i : Z) (p0 p1 p2 p3 : DragPoint) : Prop :=
  neighbour closed points i = Some p1 /\ neighbour closed points (i + 1) = Some p2 /\
  (if dp_smooth p1 then neighbour closed points (i - 1) = Some p0 else p0 = p1) /\
  (if dp_smooth p2 then neighbour closed points (i + 2) = Some p3 else p3 = p2).

(** Vertices along a curve, at the parameters [ts] in ascending order between the ends [t1], [t2] at which the vertices are [v1], [v2]: from each
    to the next one, the curve is so flat that its middle lies within the accuracy *)
Fixpoint follows {V} (at_ : f32 -> V) (flat : V -> V -> V -> bool) (t1 : f32) (v1 : V) (ts : list f32) (t2 : f32) (v2 : V) : Prop :=
  match ts with
  | [] => le32 t1 t2 /\ flat v1 v2 (at_ (mid_t t1 t2)) = true
  | t :: r => le32 t1 t /\ flat v1 (at_ t) (at_ (mid_t t1 t)) = true /\ follows at_ flat t (at_ t) r t2 v2
  end.
(** The vertex at a drag point: its coordinates, whether it is smooth, and the mark of a drag point *)
Definition corner_of (p : DragPoint) : RenderVertex := mkRV (dp_x p) (dp_y p) (dp_smooth p) true.
Definition corner3_of (p : DragPoint) : RenderVertex3 := mkRV3 (dp_x p) (dp_y p) (dp_z p) (dp_smooth p) true.
(** The vertices of one segment: none when its ends coincide; otherwise the drag point, and points of the curve *)
Definition segment (closed : bool) (points : list DragPoint) (accuracy : f32) (i : Z) (vs : list RenderVertex) : Prop :=
  exists p0 p1 p2 p3, controls closed points i p0 p1 p2 p3 /\
  if coincide p1 p2 then vs = [] else
  exists ts, vs = corner_of p1 :: map (curve_vertex (curve_new p0 p1 p2 p3)) ts /\
    follows (curve_vertex (curve_new p0 p1 p2 p3)) (flat accuracy) f32_zero (corner_of p1) ts f32_one (corner_of p2).
Definition segment3 (points : list DragPoint) (accuracy : f32) (i : Z) (vs : list RenderVertex3) : Prop :=
  exists p0 p1 p2 p3, controls false points i p0 p1 p2 p3 /\
  if coincide3 p1 p2 then vs = [] else
  exists ts, vs = corner3_of p1 :: map (curve3_vertex (curve3_new p0 p1 p2 p3)) ts /\
    follows (curve3_vertex (curve3_new p0 p1 p2 p3)) (flat3 accuracy) f32_zero (corner3_of p1) ts f32_one (corner3_of p2).
(** The segments of a curve *)
Definition segment_count (closed : bool) (points : list DragPoint) : Z := if closed then zlen points else zlen points - 1.
(** The drag points that do not coincide with the next one *)
Definition kept (near : DragPoint -> DragPoint -> bool) (closed : bool) (points : list DragPoint) : list DragPoint :=
  flat_map (fun i => match neighbour closed points i, neighbour closed points (i + 1) with
                     | Some p, Some q => if near p q then [] else [p] | _, _ => [] end) (steps (segment_count closed points)).

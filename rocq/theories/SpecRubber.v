(** What the properties about meshes of rubbers and of wires say, apart from the code. *)
From Coq Require Import Floats.SpecFloat.
From Verif Require Import Base Text Image Sound Quantize ColorText Cfb JsonFloat Mesh SpecMesh Browser Common Builtin SpecBuiltin Polygon SpecPolygon Smooth SpecSmooth SpecWalls.

(** All drag points are at one place, as far as the curve is concerned *)
Definition one_place (drag_points : list DragPoint) : Prop :=
  forall i p q, neighbour true drag_points i = Some p -> neighbour true drag_points (i + 1) = Some q -> coincide p q = true.
(** The vertex [j] of the ring [i] of a tube *)
Definition on_ring (segments k : Z) : Z * Z := (k / segments, k mod segments).
(** Once round a ring *)
Definition round (segments i : Z) : list ((Z * Z) * (Z * Z)) := map (fun j => ((i, j), (i, if j =? segments - 1 then 0 else j + 1))) (steps segments).
Definition on_rings (segments : Z) (es : list (Z * Z)) : list ((Z * Z) * (Z * Z)) := map (between (on_ring segments)) es.

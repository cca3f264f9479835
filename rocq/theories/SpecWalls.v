(** What the properties about meshes of walls say, apart from the code. *)
From Coq Require Import Floats.SpecFloat.
From Verif Require Import Base Text Image Sound Quantize ColorText Cfb JsonFloat Mesh SpecMesh Browser Common ItemWall Builtin SpecBuiltin Polygon SpecPolygon Smooth SpecSmooth.

(** A wall with the outline of n points has the corners [Bottom i] and [Top i]. Its sides are n rectangles with four vertices each: *)
Definition side_place (n k : Z) : place :=
  let i := k / 4 in let next := if i =? n - 1 then 0 else i + 1 in
  if k mod 4 =? 0 then Bottom i else if k mod 4 =? 1 then Top i else if k mod 4 =? 2 then Top next else Bottom next.
(** The vertices of the sides come first, [sides] of them, and then those of the top *)
Definition wall_place (n sides k : Z) : place := if k <? sides then side_place n k else Top (k - sides).
Definition corner_at (points : list RenderVertex) (bottom top : f32) (p : place) : option (f32 * f32 * f32) :=
  let at_ (i : Z) (z : f32) := match nth_error points (Z.to_nat i) with Some v => Some (rv_x v, rv_y v, z) | None => None end in
  match p with Top i => at_ i top | Bottom i => at_ i bottom | _ => None end.
(** What is shown of a wall: an invisible one is shown as a whole *)
Definition sides_shown (w : Wall) : bool := Wall_is_side_visible w || negb (Wall_is_top_bottom_visible w).
Definition top_shown (w : Wall) : bool := Wall_is_top_bottom_visible w || negb (Wall_is_side_visible w).
Definition side_vertex_count (w : Wall) (n : Z) : Z := if sides_shown w then 4 * n else 0.
Definition between {A B} (f : A -> B) (e : A * A) : B * B := (f (fst e), f (snd e)).
(** The outline at the foot of the wall, and the outline of the top *)
Definition bottom_outline (n : Z) : list (place * place) := map (between Bottom) (forwards n).
Definition top_outline (n : Z) : list (place * place) := map (between Top) (forwards n).

(** The horizontal texture coordinate of the sides at a point of the outline, as the first vertex of its rectangle has it *)
Definition side_coordinate (vs : list wrapper) (i : Z) (x : f32) : Prop := exists v, nth_error vs (Z.to_nat (4 * i)) = Some v /\ v_tu (w_vertex v) = x.
(** The vertex [i] of the outline is the drag point [j] *)
Definition is_drag_point (points : list RenderVertex) (i j : Z) : Prop :=
  exists v, nth_error points (Z.to_nat i) = Some v /\ rv_control_point v = true /\ zlen (filter rv_control_point (firstn (Z.to_nat i) points)) = j.
(** No drag point coincides with the next one *)
Definition apart_points (drag_points : list DragPoint) : Prop :=
  forall i p q, neighbour true drag_points i = Some p -> neighbour true drag_points (i + 1) = Some q -> coincide p q = false.
(** The coordinates on one axis are all the same, or some of them are at least 2^-100 apart *)
Definition spread (l : list f32) : Prop :=
  (forall a b, In a l -> In b l -> exact a = exact b) \/ (exists a b, In a l /\ In b l /\ exact a + 2 ^ 49 <= exact b).
Definition unit_interval (x : f32) : Prop := le32 f32_zero x /\ le32 x f32_one.

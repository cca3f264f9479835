(** What the properties about copies of built-in shapes say, apart from the code. *)
From Coq Require Import Reals Floats.SpecFloat.
From Verif Require Import Base Text Image Sound Quantize ColorText Cfb JsonFloat Mesh SpecMesh Browser Common Enums Builtin SpecBuiltin Polygon SpecPolygon Smooth SpecSmooth SpecRamps SpecFlats ItemHitTarget ItemGate ItemSpinner ItemKicker ItemTrigger Shapes.
Local Open Scope Z_scope.

(** The indices of a shape make whole triangles and name its vertices *)
Definition sound_shape (s : list Vtx * list Z) : Prop := zlen (snd s) mod 3 = 0 /\ Forall (fun i => 0 <= i < zlen (fst s)) (snd s).
(** A mesh with the triangles of a shape, in their order, and a vertex for each of its vertices that keeps the texture coordinates *)
Definition corners (f : face) : list Z := [f_0 f; f_1 f; f_2 f].
Definition same_triangles (s : list Vtx * list Z) (m : shape_mesh) : Prop := flat_map corners (snd m) = snd s /\ zlen (fst m) = zlen (fst s).
Definition same_picture (s : list Vtx * list Z) (m : shape_mesh) : Prop := Forall2 (fun v w => v_tu (w_vertex w) = v_tu v /\ v_tv (w_vertex w) = v_tv v) (fst s) (fst m).
Definition copy (s : list Vtx * list Z) (m : shape_mesh) : Prop := same_triangles s m /\ same_picture s m.

(** Which shape stands for which type *)
Definition targets : list (TargetType * Shape) :=
  [(TargetType_DropTargetBeveled, Shape_DropTargetT2); (TargetType_DropTargetSimple, Shape_DropTargetT3); (TargetType_DropTargetFlatSimple, Shape_DropTargetT4);
   (TargetType_HitTargetRound, Shape_TargetRound); (TargetType_HitTargetRectangle, Shape_TargetRectangle); (TargetType_HitFatTargetRectangle, Shape_TargetFatRectangle);
   (TargetType_HitFatTargetSquare, Shape_TargetFatSquare); (TargetType_HitTargetSlim, Shape_TargetT1Slim); (TargetType_HitFatTargetSlim, Shape_TargetT2Slim)].
Definition gates : list (GateType * Shape) :=
  [(GateType_WireW, Shape_GateWire); (GateType_WireRectangle, Shape_GateWireRectangle); (GateType_Plate, Shape_GatePlate); (GateType_LongPlate, Shape_GateLongPlate)].
Definition kickers : list (KickerType * Shape) :=
  [(KickerType_Cup, Shape_KickerCup); (KickerType_Williams, Shape_KickerWilliams); (KickerType_Gottlieb, Shape_KickerGottlieb); (KickerType_Cup2, Shape_KickerT1);
   (KickerType_Hole, Shape_KickerHole); (KickerType_HoleSimple, Shape_KickerSimpleHole)].
Definition triggers : list (TriggerShape * Shape) :=
  [(TriggerShape_WireA, Shape_TriggerSimple); (TriggerShape_WireB, Shape_TriggerSimple); (TriggerShape_WireC, Shape_TriggerSimple); (TriggerShape_WireD, Shape_TriggerWireD);
   (TriggerShape_Star, Shape_TriggerStar); (TriggerShape_Button, Shape_TriggerButton); (TriggerShape_Inder, Shape_TriggerInder)].

(** Coordinates and normals of a shape are numbers up to b *)
Definition up_to (b : R) (x : f32) : Prop := finite32 x /\ (Rabs (real x) <= b)%R.
Definition coordinates_of (v : Vtx) : list f32 := [v_x v; v_y v; v_z v; v_nx v; v_ny v; v_nz v].
Definition shape_up_to (b : R) (s : list Vtx * list Z) : Prop := Forall (fun v => Forall (up_to b) (coordinates_of v)) (fst s).
(** The places and the normals of a mesh are those of the shape after a change, up to an error *)
Definition place_in (v : Vtx) : f32 * f32 * f32 := (v_x v, v_y v, v_z v).
Definition changed (of_vertex : Vtx -> f32 * f32 * f32) (change : R * R * R -> R * R * R) (error : R) (s : list Vtx * list Z) (m : shape_mesh) : Prop :=
  Forall2 (fun v w => (let '(x, y, z) := of_vertex (w_vertex w) in finite32 x /\ finite32 y /\ finite32 z) /\ close_to error (reals (of_vertex (w_vertex w))) (change (reals (of_vertex v)))) (fst s) (fst m).
Definition scaled_by (x y z : R) (p : R * R * R) : R * R * R := let '(a, b, c) := p in (x * a, y * b, z * c)%R.
Definition raised_by (d : R) (p : R * R * R) : R * R * R := let '(a, b, c) := p in (a, b, c + d)%R.
Definition turned_about_z (sin cos : f32 -> f32) (degrees : f32) (p : R * R * R) : R * R * R := about_z (real (cos (times_radian degrees))) (real (sin (times_radian degrees))) p.
(** The plate of a kicker is smaller than the kicker; the body of a cup is lowered; the body of a Williams kicker is turned a quarter more, and holes are not turned *)
Definition plate_factor (k : Kicker) : R :=
  (match Kicker_kicker_type k with KickerType_Cup => 1 | KickerType_Williams | KickerType_Gottlieb => 88 / 100 | KickerType_Cup2 => 87 / 100 | _ => 82 / 100 end)%R.
Definition body_rise (k : Kicker) : R := (match Kicker_kicker_type k with KickerType_Cup => - 18 / 100 | _ => 0 end)%R.
Definition body_angle (k : Kicker) : f32 :=
  match Kicker_kicker_type k with
  | KickerType_Cup | KickerType_Cup2 | KickerType_Gottlieb => Kicker_orientation k
  | KickerType_Williams => add32 (Kicker_orientation k) (int32 90)
  | _ => f32_zero
  end.
(** How far the shapes of stars and buttons are raised *)
Definition star_rise (t : Trigger) : R := (match Trigger_shape t with TriggerShape_Button => 5 | _ => 0 end)%R.

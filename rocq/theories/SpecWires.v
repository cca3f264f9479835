(** What the property about wire triggers says, apart from the code. *)
From Coq Require Import Reals.
From Verif Require Import Base Text Json Image Sound Quantize ColorText Cfb JsonFloat Common Enums Mesh SpecMesh Browser Builtin SpecBuiltin Polygon SpecPolygon Smooth SpecSmooth SpecRamps SpecFlats ItemTrigger Shapes SpecShapes SpecWorld.
Local Open Scope Z_scope.

Definition wires : list TriggerShape := [TriggerShape_WireA; TriggerShape_WireB; TriggerShape_WireC; TriggerShape_WireD; TriggerShape_Inder].
(** Two of the wires are tilted about the x axis, and one is lowered *)
Definition wire_tilt (sin cos : f32 -> f32) (t : Trigger) (p : R * R * R) : R * R * R :=
  match Trigger_shape t with TriggerShape_WireB => turned_about_x sin cos (int32 (-23)) p | TriggerShape_WireC => turned_about_x sin cos (int32 140) p | _ => p end.
Definition wire_rise (t : Trigger) : R := match Trigger_shape t with TriggerShape_WireC => (-19)%R | _ => 0%R end.
Definition wire_thickness (t : Trigger) : f32 := match Trigger_wire_thickness t with Some w => w | None => f32_zero end.
(** A point that is pushed along a normal *)
Definition pushed (w : R) (n p : R * R * R) : R * R * R := let '(a, b, c) := n in let '(x, y, z) := p in (x + a * w, y + b * w, z + c * w)%R.
(** Where a wire trigger puts a point, before its wire is widened: tilted, turned, scaled in x and y, and lowered *)
Definition where_wire_puts (sin cos : f32 -> f32) (t : Trigger) (p : R * R * R) : R * R * R :=
  raised_by (wire_rise t) (scaled_by (real (Trigger_scale_x t)) (real (Trigger_scale_y t)) 1 (turned_about_z sin cos (Trigger_rotation t) (wire_tilt sin cos t p))).

(** C69, continued: wire triggers.

    The code is in Shapes.v; what the property means is in SpecWires.v. *)
From Coq Require Import Reals Lra Floats.SpecFloat ZifyBool.
From Verif Require Import Base Text Json Image Sound Quantize ColorText Cfb JsonFloat Mesh SpecMesh Browser Common Enums Builtin SpecBuiltin Polygon SpecPolygon Smooth SpecSmooth PropertiesSmooth RubberMesh SpecRamps Transform Flats SpecFlats PropertiesFlats ItemHitTarget ItemGate ItemSpinner ItemKicker ItemTrigger Shapes SpecShapes ShapeReals PropertiesShapes SpecWorld SpecWires WireReals.
Local Open Scope Z_scope.

(** Wherever the normals of a wire trigger come out as numbers up to two, each vertex lies, up to rounding, where the shape is tilted, turned, scaled in x and y and lowered, and then pushed along the vertex's own normal by the thickness of the wire. *)
Theorem C69_wires : forall sin cos library b size thickness, (forall s, sound_shape (library s)) -> (forall s, shape_up_to b (library s)) -> bounded_function sin -> bounded_function cos -> (1 <= b <= 1024)%R -> (1 <= size <= 1048576)%R -> (1 <= thickness <= 1048576)%R ->
  forall t m, build_trigger_mesh sin cos library t = Ok (Some m) -> In (Trigger_shape t) wires -> moderate (Trigger_rotation t) -> up_to size (Trigger_scale_x t) -> up_to size (Trigger_scale_y t) -> up_to thickness (wire_thickness t) ->
  Forall (fun w => Forall (up_to 2) [v_nx (w_vertex w); v_ny (w_vertex w); v_nz (w_vertex w)]) (fst m) ->
  exists s, In (Trigger_shape t, s) triggers /\
    Forall2 (fun v w => (let '(x, y, z) := place_in (w_vertex w) in finite32 x /\ finite32 y /\ finite32 z) /\
      close_to ((b * size + thickness) / 30000) (reals (place_in (w_vertex w))) (pushed (real (wire_thickness t)) (reals (normal_of (w_vertex w))) (where_wire_puts sin cos t (reals (place_in v))))) (fst (library s)) (fst m).
Proof.
  intros sin cos library b size thickness sound UP BS BC LB LS LD t m. destruct (trigger_built library sound sin cos t) as [[T E]|[_ (s & m' & E & S & C)]]; rewrite E; [discriminate|]. intros [= <-] K M UX UY UW N. exists s.
  split; [destruct (Trigger_shape t); try discriminate S; injection S as <-; cbn; tauto|]. assert (HT : has_thickness (Trigger_shape t) = true) by (cbn [wires In] in K; repeat destruct K as [K|K]; try contradiction; rewrite <- K; reflexivity).
  destruct (copy_ok library sound s (trigger_vertex sin cos t)) as (b' & E' & _ & FB). rewrite C in E'. injection E' as <-. rewrite FB in N |- *. apply Forall2_mapped. intros v I. cbn [w_vertex].
  rewrite Forall_forall in N. specialize (N _ (in_map _ _ _ I)). cbn [w_vertex] in N. specialize (UP s). unfold shape_up_to in UP. rewrite Forall_forall in UP.
  apply (wire_vertex_place sin cos BS BC b LB t v size thickness HT M LS LD UX UY UW (UP v I)). pose proof (Forall_inv N) as N1. apply Forall_inv_tail in N. pose proof (Forall_inv N) as N2. apply Forall_inv_tail in N. pose proof (Forall_inv N) as N3. exact (conj N1 (conj N2 N3)).
Qed.
Print Assumptions C69_wires.

(** ** A case: a bent wire that is turned a quarter and two thick *)
Definition bent : Trigger := set_Trigger_shape TriggerShape_WireC (set_Trigger_rotation (int32 90) (set_Trigger_scale_x (int32 1) (set_Trigger_scale_y (int32 1) (set_Trigger_wire_thickness (Some (int32 25)) (set_Trigger_is_visible true Trigger_default))))).
Definition is_small (x : f32) : bool := match f32_value x with SpecFloat.S754_finite _ _ _ | SpecFloat.S754_zero _ => Z.abs (exact x) <=? 2 * 2 ^ 149 | _ => false end.
Definition normals_small (m : shape_mesh) : bool := forallb (fun w => forallb is_small [v_nx (w_vertex w); v_ny (w_vertex w); v_nz (w_vertex w)]) (fst m).
Lemma is_small_up_to x : is_small x = true -> up_to 2 x.
Proof. unfold is_small. intros H. apply up_to_whole; [|destruct (f32_value x); try discriminate H; apply Z.leb_le; exact H]. unfold finite32. destruct (f32_value x); try discriminate H; exact I. Qed.
Example C69_wires_case : exists m, build_trigger_mesh quarter_sin quarter_cos pyramids bent = Ok (Some m) /\ In (Trigger_shape bent) wires /\ moderate (Trigger_rotation bent) /\
  Forall (fun w => Forall (up_to 2) [v_nx (w_vertex w); v_ny (w_vertex w); v_nz (w_vertex w)]) (fst m) /\
  match fst m with _ :: w :: _ => map exact [v_x (w_vertex w); v_y (w_vertex w); v_z (w_vertex w)] = map exact [int32 25; int32 1; int32 (-19)] | _ => False end.
Proof.
  assert (H : match build_trigger_mesh quarter_sin quarter_cos pyramids bent with Ok (Some m) => normals_small m | _ => false end = true) by (vm_compute; reflexivity).
  assert (P : match build_trigger_mesh quarter_sin quarter_cos pyramids bent with Ok (Some (_ :: w :: _, _)) => map exact [v_x (w_vertex w); v_y (w_vertex w); v_z (w_vertex w)] | _ => [] end = map exact [int32 25; int32 1; int32 (-19)]) by (vm_compute; reflexivity).
  destruct (build_trigger_mesh quarter_sin quarter_cos pyramids bent) as [[m|]|]; try discriminate H. exists m. split; [reflexivity|]. split; [cbn; tauto|]. split; [split; vm_compute; (exact I || discriminate)|]. split.
  - unfold normals_small in H. rewrite forallb_forall in H. apply Forall_forall. intros w J. specialize (H w J). rewrite forallb_forall in H. apply Forall_forall. intros x X. exact (is_small_up_to x (H x X)).
  - destruct m as [[|v0 [|v1 r]] fs]; try discriminate P. exact P.
Qed.

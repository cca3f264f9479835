(** Lemmas about wire triggers: a tilt and a turn, scaling, and a push along the normal. *)
From Verif Require Import Base Text Json Image Sound Quantize ColorText JsonFloat Cfb Mesh SpecMesh Common Enums QuantizeFacts QuantizeMono FlipFacts Browser Builtin SpecBuiltin BuiltinFacts BuiltinReals Polygon SpecPolygon Smooth FloatBounds SmoothFacts SpecSmooth PropertiesSmooth WallsReals RubberMesh RubberReals PropertiesRubber SpecRamps RampReals Transform TransformReals Flats SpecFlats FlatReals BaseFacts ItemHitTarget ItemGate ItemSpinner ItemKicker ItemTrigger Shapes SpecShapes ShapeReals ItemPrimitive SpecWorld ObjExport WorldReals SpecWires.
From Coq Require Import Reals Lra Floats.SpecFloat ZifyBool.
From Flocq Require Import Core.Core Relative Mult_error IEEE754.BinarySingleNaN.
Local Open Scope Z_scope.

Lemma tilt_rows sin cos a : within 0 (cos a) -> within 0 (sin a) ->
  row 0 (rotate_x sin cos a) 0 (1, 0, 0)%R 1 0 /\ row 0 (rotate_x sin cos a) 1 (0, val (cos a), val (sin a))%R 1 0 /\ row 0 (rotate_x sin cos a) 2 (0, - val (sin a), val (cos a))%R 1 0 /\ row 0 (rotate_x sin cos a) 3 (0, 0, 0)%R 1 1.
Proof.
  intros WC WS. destruct (unit_est _ WC) as [C1 _]. destruct (unit_est _ WS) as [S1 S2].
  assert (E1 : est 0 f32_one 1 1) by (destruct one_val as [F V]; split; [exact F|]; split; [lra|]; rewrite V, Rabs_R1, Rminus_diag_eq, Rabs_R0 by reflexivity; lra). pose proof est_zero as E0.
  unfold row. cbn [cell rotate_x nth]. split; [|split; [|split]]; (split; [|split; [|split]]); lazymatch goal with |- est _ f32_one _ _ => exact E1 | |- est _ f32_zero _ _ => exact E0 | |- exactly f32_zero _ => exact zero_val | |- exactly f32_one _ => exact one_val | |- _ => assumption end.
Qed.
Lemma tilted sin cos a z v X Y Z b : within 0 (cos a) -> within 0 (sin a) -> within 0 (cos z) -> within 0 (sin z) -> (1 <= b <= 1024)%R -> est 0 (vec_x v) X b -> est 0 (vec_y v) Y b -> est 0 (vec_z v) Z b ->
  let '(A, B, C) := about_z (val (cos z)) (val (sin z)) (about_x (val (cos a)) (val (sin a)) (X, Y, Z)) in turned3 12 (transform_vertex (times (rotate_x sin cos a) (rotate_z sin cos z)) v) A B C (8 * b).
Proof.
  intros CA SA CZ SZ LB EX EY EZ. destruct (tilt_rows sin cos a CA SA) as (R0 & R1 & R2 & R3).
  apply (row_z sin cos z CZ SZ 0 1 0 ltac:(lra) ltac:(lra) ltac:(auto) _ 0 _ ltac:(lia)) in R0. apply (row_z sin cos z CZ SZ 0 1 0 ltac:(lra) ltac:(lra) ltac:(auto) _ 1 _ ltac:(lia)) in R1. apply (row_z sin cos z CZ SZ 0 1 0 ltac:(lra) ltac:(lra) ltac:(auto) _ 2 _ ltac:(lia)) in R2. apply (row_z sin cos z CZ SZ 0 1 1 ltac:(lra) ltac:(lra) ltac:(auto) _ 3 _ ltac:(lia)) in R3.
  pose proof (transformed_comb (0 + 4) _ v b (2 * 1) (2 * 1) _ _ _ _ X Y Z ltac:(lra) LB ltac:(lra) ltac:(lra) EX EY EZ R0 R1 R2 R3 ltac:(lra)) as H. rewrite comb_z in H.
  assert (E : comb X Y Z (1, 0, 0)%R (0, val (cos a), val (sin a))%R (0, - val (sin a), val (cos a))%R (0, 0, 0)%R = about_x (val (cos a)) (val (sin a)) (X, Y, Z)) by (unfold comb, about_x; apply f_equal2; [apply f_equal2|]; ring).
  rewrite E in H. destruct (about_z (val (cos z)) (val (sin z)) (about_x (val (cos a)) (val (sin a)) (X, Y, Z))) as [[A B] C]. destruct H as (H1 & H2 & H3).
  split; [|split]; (apply (est_weaken (0 + 4 + 8) 12 _ _ (3 * (2 * 1 * b) + 2 * 1)); [lra|lra|assumption]).
Qed.
(** Scaling, raising and pushing *)
Definition widened (p n : Vec3) (w : f32) : Vec3 := mkVec3 (add32 (vec_x p) (mul32 (vec_x n) w)) (add32 (vec_y p) (mul32 (vec_y n) w)) (add32 (vec_z p) (mul32 (vec_z n) w)).
Lemma widened_close p n w o sx sy A B C NX NY NZ SX SY O W b S D : (1 <= b <= 1024)%R -> (1 <= S <= 1048576)%R -> (1 <= D <= 1048576)%R -> turned3 12 p A B C (8 * b) -> est 0 sx SX S -> est 0 sy SY S -> est 0 o O 19 -> est 0 w W D -> turned3 0 n NX NY NZ 2 ->
  turned3 18 (widened (let q := each_by p sx sy f32_one in mkVec3 (vec_x q) (vec_y q) (add32 (vec_z q) o)) n w) (A * SX + NX * W) (B * SY + NY * W) (C * 1 + O + NZ * W) (27 * (b * S) + 2 * D).
Proof.
  intros LB LS LD P EX EY EO EW (N1 & N2 & N3). destruct (product_large b S LB LS) as [PL PB].
  assert (E1 : est 0 f32_one 1 S) by (apply (est_weaken 0 0 _ _ 1); [lra|lra|]; destruct one_val as [F V]; split; [exact F|]; split; [lra|]; rewrite V, Rabs_R1, Rminus_diag_eq, Rabs_R0 by reflexivity; lra).
  pose proof (scaled3 12 0 _ _ _ _ _ _ _ _ _ _ (8 * b) S ltac:(lra) ltac:(lra) ltac:(lra) ltac:(lra) P EX EY E1) as (T1 & T2 & T3). set (q := each_by p sx sy f32_one) in *. clearbody q. cbv zeta.
  assert (U : forall x X, est (12 + 0 + 2) x X (8 * b * S) -> est 16 x X (27 * (b * S))) by (intros x X E; apply (est_weaken (12 + 0 + 2) 16 _ _ (8 * b * S)); [lra|lra|exact E]).
  assert (T4 : est 16 (add32 (vec_z q) o) (C * 1 + O) (27 * (b * S))).
  { pose proof (est_add (12 + 0 + 2) _ _ _ _ (8 * b * S) 19 ltac:(lra) ltac:(lra) ltac:(lra) T3 (est_weaken 0 (12 + 0 + 2) _ _ 19 19 ltac:(lra) ltac:(lra) EO)) as E. apply (est_weaken (12 + 0 + 2 + 2) 16 _ _ (8 * b * S + 19)); [lra|lra|exact E]. }
  assert (G : forall x X y Y, est 16 x X (27 * (b * S)) -> est 0 y Y 2 -> est 18 (add32 x (mul32 y w)) (X + Y * W) (27 * (b * S) + 2 * D)).
  { intros x X y Y E F. pose proof (est_mul 0 0 _ _ _ _ 2 D ltac:(lra) ltac:(lra) ltac:(lra) ltac:(lra) F EW) as M. pose proof (est_add 16 _ _ _ _ (27 * (b * S)) (2 * D) ltac:(lra) ltac:(lra) ltac:(lra) E (est_weaken (0 + 0 + 2) 16 _ _ (2 * D) (2 * D) ltac:(lra) ltac:(lra) M)) as H.
    apply (est_weaken (16 + 2) 18 _ _ (27 * (b * S) + 2 * D)); [lra|lra|exact H]. }
  unfold widened, turned3. cbn [vec_x vec_y vec_z]. split; [|split]; apply G; try assumption; apply U; assumption.
Qed.
Lemma minus_23 : f32_minus_23 = int32 (-23). Proof. vm_compute. reflexivity. Qed.
Lemma moderate_23 : moderate (int32 (-23)). Proof. split; vm_compute; (exact I || discriminate). Qed.
Lemma moderate_140 : moderate (int32 140). Proof. split; vm_compute; (exact I || discriminate). Qed.
Lemma est_minus_19 : est 0 f32_minus_19 (-19) 19.
Proof.
  destruct (known f32_minus_19 true 9961472 (-19) eq_refl) as [F V]. split; [exact F|]. split; [lra|]. rewrite V. cbn [cond_Zopp]. change (pow2 (-19)) with (/ 524288)%R. change (- Z.pos 9961472) with (-9961472).
  split; [rewrite Rabs_left1; lra|]. apply Rabs_le. lra.
Qed.
Section Wires.
Variable sin cos : f32 -> f32.
Hypothesis BS : bounded_function sin.
Hypothesis BC : bounded_function cos.
Variable b : R.
Hypothesis LB : (1 <= b <= 1024)%R.
Lemma wire_matrix t v X Y Z : has_thickness (Trigger_shape t) = true -> moderate (Trigger_rotation t) -> est 0 (vec_x v) X b -> est 0 (vec_y v) Y b -> est 0 (vec_z v) Z b ->
  let '(A, B, C) := turned_about_z sin cos (Trigger_rotation t) (wire_tilt sin cos t (X, Y, Z)) in turned3 12 (transform_vertex (trigger_matrix sin cos (Trigger_shape t) (Trigger_rotation t)) v) A B C (8 * b).
Proof.
  intros HT M EX EY EZ. destruct (angle_units sin cos BS BC _ M) as (CZ & SZ & VC & VS). destruct (angle_units sin cos BS BC _ moderate_23) as (C23 & S23 & VC23 & VS23). destruct (angle_units sin cos BS BC _ moderate_140) as (C140 & S140 & VC140 & VS140).
  unfold turned_about_z, wire_tilt, turned_about_x. rewrite <- VC, <- VS, <- VC23, <- VS23, <- VC140, <- VS140. unfold trigger_matrix. rewrite minus_23.
  pose proof (tilted sin cos _ _ v X Y Z b C23 S23 CZ SZ LB EX EY EZ) as T23. pose proof (tilted sin cos _ _ v X Y Z b C140 S140 CZ SZ LB EX EY EZ) as T140.
  pose proof (turn_matrix sin cos _ 0 v X Y Z b CZ SZ ltac:(lra) ltac:(lra) EX EY EZ) as (P1 & P2 & P3). clear VC VS VC23 VS23 VC140 VS140.
  revert T23 T140 P1 P2 P3. generalize (radians (int32 (-23))) (radians (int32 140)) (radians (Trigger_rotation t)). intros a23 a140 z T23 T140 P1 P2 P3.
  assert (P : turned3 12 (transform_vertex (rotate_z sin cos z) v) (X * val (cos z) - Y * val (sin z)) (X * val (sin z) + Y * val (cos z)) Z (8 * b)) by (split; [|split]; (apply (est_weaken (0 + 4) 12 _ _ (2 * b)); [lra|lra|assumption])).
  destruct (Trigger_shape t); try discriminate HT; lazymatch goal with |- context [rotate_x sin cos a23] => exact T23 | |- context [rotate_x sin cos a140] => exact T140 | |- _ => exact P end.
Qed.
Lemma wire_offset t : has_thickness (Trigger_shape t) = true -> est 0 (trigger_offset (Trigger_shape t)) (wire_rise t) 19.
Proof.
  pose proof est_minus_19 as F5. assert (F0 : est 0 f32_zero 0 19) by (apply (est_weaken 0 0 _ _ 1); [lra|lra|exact est_zero]). unfold wire_rise, trigger_offset. revert F5 F0. generalize (int32 5) as five. generalize f32_minus_19 as other. generalize f32_zero as zero. intros zero other five F5 F0 HT.
  destruct (Trigger_shape t); try discriminate HT; (exact F5 || exact F0).
Qed.
Lemma wire_form t v : has_thickness (Trigger_shape t) = true -> exists n, trigger_vertex sin cos t v =
  with_place (widened (let q := each_by (transform_vertex (trigger_matrix sin cos (Trigger_shape t) (Trigger_rotation t)) (place v)) (Trigger_scale_x t) (Trigger_scale_y t) f32_one in mkVec3 (vec_x q) (vec_y q) (add32 (vec_z q) (trigger_offset (Trigger_shape t)))) n (wire_thickness t)) n v.
Proof.
  intros HT. assert (HB : by_radius (Trigger_shape t) = false) by (destruct (Trigger_shape t); (discriminate HT || reflexivity)). unfold trigger_vertex. rewrite HT, HB. eexists. reflexivity.
Qed.
Lemma wire_vertex_place t v S D : has_thickness (Trigger_shape t) = true -> moderate (Trigger_rotation t) -> (1 <= S <= 1048576)%R -> (1 <= D <= 1048576)%R -> up_to S (Trigger_scale_x t) -> up_to S (Trigger_scale_y t) -> up_to D (wire_thickness t) ->
  Forall (up_to b) (coordinates_of v) -> (let '(x, y, z) := normal_of (trigger_vertex sin cos t v) in up_to 2 x /\ up_to 2 y /\ up_to 2 z) ->
  at_vertex place_in ((b * S + D) / 30000) (trigger_vertex sin cos t v) (pushed (real (wire_thickness t)) (reals (normal_of (trigger_vertex sin cos t v))) (where_wire_puts sin cos t (reals (place_in v)))).
Proof.
  intros HT M LS LD UX UY UW UV. destruct (wire_form t v HT) as (n & ->). unfold normal_of. cbn [with_place v_nx v_ny v_nz]. intros (N1 & N2 & N3). destruct (vertex_est b v (proj1 LB) UV) as [(EX & EY & EZ) _].
  pose proof (wire_matrix t (place v) _ _ _ HT M EX EY EZ) as P. pose proof (wire_offset t HT) as EO. pose proof (up_est _ _ (proj1 LS) UX) as SX. pose proof (up_est _ _ (proj1 LS) UY) as SY. pose proof (up_est _ _ (proj1 LD) UW) as EW.
  assert (EN : turned3 0 n (real (vec_x n)) (real (vec_y n)) (real (vec_z n)) 2) by (split; [|split]; (apply up_est; [lra|assumption])). unfold where_wire_puts, place_in at 2, reals.
  destruct (turned_about_z sin cos (Trigger_rotation t) (wire_tilt sin cos t (real (v_x v), real (v_y v), real (v_z v)))) as [[A B] C]. unfold scaled_by, raised_by, pushed.
  pose proof (widened_close _ n _ _ _ _ A B C _ _ _ _ _ _ _ b S D LB LS LD P SX SY EO EW EN) as H. destruct (product_large b S LB LS) as [PL PB].
  rewrite (Rmult_comm (real (Trigger_scale_x t))), (Rmult_comm (real (Trigger_scale_y t))), (Rmult_comm 1 C). apply (place_close _ _ _ _ _ _ _ _ _ H). lra.
Qed.
End Wires.

(** C60: smooth curves.

    The code is in Smooth.v; what the property means is in SpecSmooth.v. *)
From Verif Require Import Base Text Image Sound Quantize ColorText JsonFloat Cfb Mesh Common BaseFacts BiffFacts CommonFacts QuantizeFacts QuantizeMono FlipFacts Browser Builtin SpecBuiltin BuiltinFacts BuiltinReals Polygon SpecPolygon Smooth FloatBounds SmoothFacts SpecSmooth.
From Coq Require Import Reals Lra Floats.SpecFloat ZifyBool.
From Flocq Require Import Core.Core IEEE754.BinarySingleNaN.

Lemma moderate_within x : moderate x -> within 20 x.
Proof.
  intros [F E]. assert (FI : fin x).
  { unfold finite32 in F. unfold fin. rewrite <- (b32_of_value x) in F. destruct (b32_of x); cbn in F; try contradiction; reflexivity. }
  split; [exact FI|]. rewrite <- (exact_val x FI). rewrite Rabs_mult, (Rabs_pos_eq (pow2 (-149))) by apply bpow_ge_0. rewrite <- abs_IZR.
  change 20%Z with (169 + -149)%Z. rewrite bpow_plus. apply Rmult_le_compat_r; [apply bpow_ge_0|]. rewrite <- (IZR_Zpower radix2 169) by lia. apply IZR_le.
  change (radix_val radix2) with 2%Z. replace (2 ^ 169)%Z with (2 ^ 20 * 2 ^ 149)%Z by (rewrite <- Z.pow_add_r by lia; reflexivity). exact E.
Qed.

(** ** One segment *)
Definition good2 (v : RenderVertex) : Prop := within 54 (rv_x v) /\ within 54 (rv_y v).
Definition same2 (v w : RenderVertex) : Prop := val (rv_x v) = val (rv_x w) /\ val (rv_y v) = val (rv_y w).
Lemma flat_zero accuracy area : above_zero accuracy -> fin area /\ val area = 0%R -> lt32 (mul32 area area) accuracy = true.
Proof. intros A [F E]. destruct (zero_mul 0 area area ltac:(lia) F E (zero_within _ F E 0)) as [[G H] _]. apply above_zero_lt; assumption. Qed.
Lemma flat_first2 accuracy v1 v2 m : above_zero accuracy -> good2 v1 -> good2 v2 -> good2 m -> same2 m v1 -> flat accuracy v1 v2 m = true.
Proof.
  intros A [X1 Y1] [X2 Y2] [XM YM] [EX EY]. unfold flat. cbv zeta. apply flat_zero; [exact A|].
  destruct (sub_same 54 _ _ ltac:(lia) XM X1 EX) as [[FX _] ZX]. destruct (sub_same 54 _ _ ltac:(lia) YM Y1 EY) as [[FY _] ZY].
  destruct (zero_mul 55 _ _ ltac:(lia) FX ZX (sub_within 54 _ _ ltac:(lia) Y2 Y1)) as [[A1 A2] _]. destruct (zero_mul 55 _ _ ltac:(lia) FY ZY (sub_within 54 _ _ ltac:(lia) X2 X1)) as [_ [B1 B2]].
  apply zero_sub; assumption.
Qed.
Lemma flat_second2 accuracy v1 v2 m : above_zero accuracy -> good2 v1 -> good2 v2 -> good2 m -> same2 m v2 -> flat accuracy v1 v2 m = true.
Proof.
  intros A [X1 Y1] [X2 Y2] [XM YM] [EX EY]. unfold flat. cbv zeta. apply flat_zero; [exact A|].
  destruct (mul_val 55 55 (sub32 (rv_x m) (rv_x v1)) (sub32 (rv_y v2) (rv_y v1)) ltac:(lia) (sub_within 54 _ _ ltac:(lia) XM X1) (sub_within 54 _ _ ltac:(lia) Y2 Y1)) as [W1 E1].
  destruct (mul_val 55 55 (sub32 (rv_x v2) (rv_x v1)) (sub32 (rv_y m) (rv_y v1)) ltac:(lia) (sub_within 54 _ _ ltac:(lia) X2 X1) (sub_within 54 _ _ ltac:(lia) YM Y1)) as [W2 E2].
  destruct (sub_same 110 _ _ ltac:(lia) W1 W2) as [[F _] V]; [|split; assumption].
  rewrite E1, E2, (sub_val_eq 54 (rv_x m) (rv_x v2) (rv_x v1)), (sub_val_eq 54 (rv_y m) (rv_y v2) (rv_y v1)) by (assumption || lia). reflexivity.
Qed.
Lemma curve_bounded p0 p1 p2 p3 : moderate_point p0 -> moderate_point p1 -> moderate_point p2 -> moderate_point p3 ->
  bounded_cubic (curve_x (curve_new p0 p1 p2 p3)) /\ bounded_cubic (curve_y (curve_new p0 p1 p2 p3)) /\
  c_0 (curve_x (curve_new p0 p1 p2 p3)) = dp_x p1 /\ c_0 (curve_y (curve_new p0 p1 p2 p3)) = dp_y p1.
Proof.
  intros M0 M1 M2 M3. pose proof (steps_within _ _ _ (distance_within p0 p1 M0 M1) (distance_within p1 p2 M1 M2) (distance_within p2 p3 M2 M3)) as S.
  unfold curve_new. destruct (time_steps _ _ _) as [[t0 t1] t2]. destruct S as (S0 & S1 & S2). cbn [curve_x curve_y].
  destruct M0 as [X0 Y0], M1 as [X1 Y1], M2 as [X2 Y2], M3 as [X3 Y3].
  destruct (catmull_bounded (dp_x p0) (dp_x p1) (dp_x p2) (dp_x p3) t0 t1 t2) as [A B]; try assumption. destruct (catmull_bounded (dp_y p0) (dp_y p1) (dp_y p2) (dp_y p3) t0 t1 t2) as [C D]; try assumption.
  repeat (split; [assumption|]). assumption.
Qed.
Lemma segment_ends fuel p0 p1 p2 p3 accuracy : (151 <= fuel)%nat -> moderate_point p0 -> moderate_point p1 -> moderate_point p2 -> moderate_point p3 -> above_zero accuracy ->
  exists l, subdivide (curve_vertex (curve_new p0 p1 p2 p3)) (flat accuracy) fuel f32_zero f32_one (drag_vertex p1) (drag_vertex p2) = Ok l.
Proof.
  intros F M0 M1 M2 M3 A. destruct (curve_bounded p0 p1 p2 p3 M0 M1 M2 M3) as (BX & BY & CX & CY). set (cc := curve_new p0 p1 p2 p3) in *.
  apply (subdivide_ends (curve_vertex cc) (flat accuracy) good2 same2).
  - intros a b c [X Y] [X' Y']. split; congruence.
  - intros t U. split; [apply (cubic_val _ t BX U)|apply (cubic_val _ t BY U)].
  - intros t t' U U' E. split; cbn [curve_vertex rv_x rv_y]; [destruct (cubic_val _ t BX U) as [_ ->]; destruct (cubic_val _ t' BX U') as [_ ->]|destruct (cubic_val _ t BY U) as [_ ->]; destruct (cubic_val _ t' BY U') as [_ ->]]; rewrite E; reflexivity.
  - intros v1 v2 m. apply flat_first2, A.
  - intros v1 v2 m. apply flat_second2, A.
  - exact F.
  - split; apply (within_mono 20); try lia; apply M1.
  - split; apply (within_mono 20); try lia; apply M2.
  - split; cbn [curve_vertex drag_vertex rv_x rv_y]; rewrite cubic_start by assumption; congruence.
Qed.
Definition good3 (v : RenderVertex3) : Prop := within 54 (r3_x v) /\ within 54 (r3_y v) /\ within 54 (r3_z v).
Definition same3 (v w : RenderVertex3) : Prop := val (r3_x v) = val (r3_x w) /\ val (r3_y v) = val (r3_y w) /\ val (r3_z v) = val (r3_z w).
Definition null32 (x : f32) : Prop := fin x /\ val x = 0%R.
Lemma flat_zero3 accuracy x y z : above_zero accuracy -> null32 x -> null32 y -> null32 z -> lt32 (add32 (add32 (mul32 x x) (mul32 y y)) (mul32 z z)) accuracy = true.
Proof.
  intros A X Y Z. assert (Q : forall x, null32 x -> null32 (mul32 x x)) by (intros u [F E]; apply (zero_mul 0 u u ltac:(lia) F E (zero_within _ F E 0))).
  assert (P : forall x y, null32 x -> null32 y -> null32 (add32 x y)) by (intros u v [F E] [G H]; apply zero_add; assumption).
  destruct (P _ _ (P _ _ (Q x X) (Q y Y)) (Q z Z)) as [F E]. apply above_zero_lt; assumption.
Qed.
Lemma flat_first3 accuracy v1 v2 m : above_zero accuracy -> good3 v1 -> good3 v2 -> good3 m -> same3 m v1 -> flat3 accuracy v1 v2 m = true.
Proof.
  intros A (X1 & Y1 & Z1) (X2 & Y2 & Z2) (XM & YM & ZM) (EX & EY & EZ). unfold flat3, cross3.
  destruct (sub_same 54 _ _ ltac:(lia) XM X1 EX) as [[FX _] ZX]. destruct (sub_same 54 _ _ ltac:(lia) YM Y1 EY) as [[FY _] ZY]. destruct (sub_same 54 _ _ ltac:(lia) ZM Z1 EZ) as [[FZ _] ZZ].
  assert (Q : forall u w, fin u -> val u = 0%R -> within 55 w -> null32 (mul32 u w)) by (intros u w F E W; apply (zero_mul 55 u w ltac:(lia) F E W)).
  assert (R : forall u w, null32 u -> null32 w -> null32 (sub32 u w)) by (intros u w [F E] [G H]; apply zero_sub; assumption).
  apply flat_zero3; try exact A; apply R; apply Q; try assumption; apply (sub_within 54); (assumption || lia).
Qed.
Lemma flat_second3 accuracy v1 v2 m : above_zero accuracy -> good3 v1 -> good3 v2 -> good3 m -> same3 m v2 -> flat3 accuracy v1 v2 m = true.
Proof.
  intros A (X1 & Y1 & Z1) (X2 & Y2 & Z2) (XM & YM & ZM) (EX & EY & EZ). unfold flat3, cross3.
  assert (W : forall u w, within 54 u -> within 54 w -> within 55 (sub32 u w)) by (intros u w U W; apply (sub_within 54); (assumption || lia)).
  pose proof (sub_val_eq 54 (r3_x m) (r3_x v2) (r3_x v1) ltac:(lia) XM X2 X1 EX) as DX. pose proof (sub_val_eq 54 (r3_y m) (r3_y v2) (r3_y v1) ltac:(lia) YM Y2 Y1 EY) as DY.
  pose proof (sub_val_eq 54 (r3_z m) (r3_z v2) (r3_z v1) ltac:(lia) ZM Z2 Z1 EZ) as DZ.
  apply flat_zero3; [exact A| | |]; apply (mul_same 55 55); try lia; try apply W; try assumption; congruence.
Qed.
Lemma curve3_bounded p0 p1 p2 p3 : moderate_point3 p0 -> moderate_point3 p1 -> moderate_point3 p2 -> moderate_point3 p3 ->
  let cc := curve3_new p0 p1 p2 p3 in bounded_cubic (curve3_x cc) /\ bounded_cubic (curve3_y cc) /\ bounded_cubic (curve3_z cc) /\
  c_0 (curve3_x cc) = dp_x p1 /\ c_0 (curve3_y cc) = dp_y p1 /\ c_0 (curve3_z cc) = dp_z p1.
Proof.
  intros M0 M1 M2 M3. pose proof (steps_within _ _ _ (distance3_within p0 p1 M0 M1) (distance3_within p1 p2 M1 M2) (distance3_within p2 p3 M2 M3)) as S.
  unfold curve3_new. destruct (time_steps _ _ _) as [[t0 t1] t2]. destruct S as (S0 & S1 & S2). cbv zeta. cbn [curve3_x curve3_y curve3_z].
  destruct M0 as (X0 & Y0 & Z0), M1 as (X1 & Y1 & Z1), M2 as (X2 & Y2 & Z2), M3 as (X3 & Y3 & Z3).
  destruct (catmull_bounded (dp_x p0) (dp_x p1) (dp_x p2) (dp_x p3) t0 t1 t2) as [A B]; try assumption. destruct (catmull_bounded (dp_y p0) (dp_y p1) (dp_y p2) (dp_y p3) t0 t1 t2) as [C D]; try assumption.
  destruct (catmull_bounded (dp_z p0) (dp_z p1) (dp_z p2) (dp_z p3) t0 t1 t2) as [E F]; try assumption. repeat (split; [assumption|]). assumption.
Qed.
Lemma segment3_ends fuel p0 p1 p2 p3 accuracy : (151 <= fuel)%nat -> moderate_point3 p0 -> moderate_point3 p1 -> moderate_point3 p2 -> moderate_point3 p3 -> above_zero accuracy ->
  exists l, subdivide (curve3_vertex (curve3_new p0 p1 p2 p3)) (flat3 accuracy) fuel f32_zero f32_one (drag_vertex3 p1) (drag_vertex3 p2) = Ok l.
Proof.
  intros F M0 M1 M2 M3 A. destruct (curve3_bounded p0 p1 p2 p3 M0 M1 M2 M3) as (BX & BY & BZ & CX & CY & CZ). set (cc := curve3_new p0 p1 p2 p3) in *.
  apply (subdivide_ends (curve3_vertex cc) (flat3 accuracy) good3 same3).
  - intros a b c (X & Y & Z) (X' & Y' & Z'). repeat split; congruence.
  - intros t U. split; [apply (cubic_val _ t BX U)|]. split; [apply (cubic_val _ t BY U)|apply (cubic_val _ t BZ U)].
  - intros t t' U U' E. unfold same3. cbn [curve3_vertex r3_x r3_y r3_z].
    destruct (cubic_val _ t BX U) as [_ ->]; destruct (cubic_val _ t' BX U') as [_ ->]; destruct (cubic_val _ t BY U) as [_ ->]; destruct (cubic_val _ t' BY U') as [_ ->]; destruct (cubic_val _ t BZ U) as [_ ->]; destruct (cubic_val _ t' BZ U') as [_ ->].
    rewrite E. repeat split; reflexivity.
  - intros v1 v2 m. apply flat_first3, A.
  - intros v1 v2 m. apply flat_second3, A.
  - exact F.
  - destruct M1 as (X & Y & Z). repeat split; first [apply X | apply Y | apply Z | eapply Rle_trans; [first [apply X | apply Y | apply Z]|apply bpow_le; lia]].
  - destruct M2 as (X & Y & Z). repeat split; first [apply X | apply Y | apply Z | eapply Rle_trans; [first [apply X | apply Y | apply Z]|apply bpow_le; lia]].
  - unfold same3; cbn [curve3_vertex drag_vertex3 r3_x r3_y r3_z]. rewrite !cubic_start by assumption. repeat split; congruence.
Qed.

(** ** Indices *)
Lemma neighbour_in closed points i p : neighbour closed points i = Some p -> In p points.
Proof. unfold neighbour. cbv zeta. apply nth_error_In. Qed.
Lemma controls_at closed points i p1 p2 : 2 <= zlen points -> 0 <= i < segment_count closed points ->
  neighbour closed points i = Some p1 -> neighbour closed points (i + 1) = Some p2 ->
  exists p0 p3, controls closed points i p0 p1 p2 p3 /\ before points (List.length points) (Z.to_nat i) p1 closed = Some p0 /\ after points (List.length points) (Z.to_nat i) p2 closed = Some p3.
Proof.
  intros N I E1 E2. unfold controls, segment_count, zlen in *.
  assert (NN : forall j, exists p, neighbour closed points j = Some p).
  { intros j. unfold neighbour, zlen. cbv zeta. destruct (nth_error points _) as [p|] eqn:E; [eauto|]. apply nth_error_None in E. destruct closed.
    - pose proof (Z.mod_pos_bound j (Z.of_nat (List.length points)) ltac:(lia)). lia.
    - lia. }
  assert (B : before points (List.length points) (Z.to_nat i) p1 closed = if dp_smooth p1 then neighbour closed points (i - 1) else Some p1).
  { rewrite <- E1. unfold before, neighbour, zlen. cbv zeta. destruct (dp_smooth p1), closed; f_equal.
    - apply Nat2Z.inj. rewrite Nat2Z.inj_mod. rewrite Z2Nat.id by (apply Z.mod_pos_bound; lia).
      replace (Z.of_nat (Z.to_nat i + List.length points - 1)) with (i - 1 + 1 * Z.of_nat (List.length points)) by lia. apply Z.mod_add. lia.
    - destruct (0 <? Z.to_nat i)%nat eqn:P; lia.
    - rewrite Z.mod_small by lia. reflexivity.
    - lia. }
  assert (A : after points (List.length points) (Z.to_nat i) p2 closed = if dp_smooth p2 then neighbour closed points (i + 2) else Some p2).
  { rewrite <- E2. unfold after, neighbour, zlen. cbv zeta. destruct (dp_smooth p2), closed; f_equal.
    - apply Nat2Z.inj. rewrite Nat2Z.inj_mod. rewrite Z2Nat.id by (apply Z.mod_pos_bound; lia). f_equal. lia.
    - destruct (Z.to_nat i + 2 <? List.length points)%nat eqn:P; lia.
    - apply Nat2Z.inj. rewrite Nat2Z.inj_mod. rewrite Z2Nat.id by (apply Z.mod_pos_bound; lia). f_equal. lia.
    - rewrite Nat.mod_small by lia. lia. }
  destruct (NN (i - 1)) as (q0 & Q0). destruct (NN (i + 2)) as (q3 & Q3). rewrite A, B, E1, E2.
  exists (if dp_smooth p1 then q0 else p1), (if dp_smooth p2 then q3 else p2). destruct (dp_smooth p1), (dp_smooth p2); rewrite ?Q0, ?Q3; repeat split.
Qed.

(** What the loop does for the segment [i] *)
Lemma segment_step fuel points accuracy closed i : 2 <= zlen points -> 0 <= i < segment_count closed points ->
  exists p0 p1 p2 p3, controls closed points i p0 p1 p2 p3 /\
  smooth_segment fuel points accuracy closed (Z.to_nat i) =
    if coincide p1 p2 then Ok [] else subdivide (curve_vertex (curve_new p0 p1 p2 p3)) (flat accuracy) fuel f32_zero f32_one (drag_vertex p1) (drag_vertex p2).
Proof.
  intros N I. unfold smooth_segment. cbv zeta.
  assert (NN : forall j, exists p, neighbour closed points j = Some p).
  { intros j. unfold neighbour. unfold zlen in N |- *. cbv zeta. destruct (nth_error points _) as [p|] eqn:E; [eauto|]. apply nth_error_None in E. destruct closed.
    - pose proof (Z.mod_pos_bound j (Z.of_nat (List.length points)) ltac:(lia)). lia.
    - lia. }
  assert (B1 : nth_error points (Z.to_nat i) = neighbour closed points i).
  { unfold neighbour, segment_count, zlen in *. cbv zeta. f_equal. destruct closed; [rewrite Z.mod_small by lia; reflexivity|lia]. }
  assert (B2 : nth_error points ((Z.to_nat i + 1) mod List.length points)%nat = neighbour closed points (i + 1)).
  { unfold neighbour, segment_count, zlen in *. cbv zeta. f_equal. destruct closed.
    - apply Nat2Z.inj. rewrite Nat2Z.inj_mod. rewrite Z2Nat.id by (apply Z.mod_pos_bound; lia). f_equal. lia.
    - rewrite Nat.mod_small by lia. lia. }
  rewrite B1, B2. destruct (NN i) as (p1 & E1). destruct (NN (i + 1)) as (p2 & E2). destruct (controls_at closed points i p1 p2 N I E1 E2) as (p0 & p3 & C & E0 & E3).
  exists p0, p1, p2, p3. split; [exact C|]. rewrite E1, E2, E0, E3. reflexivity.
Qed.
Lemma segment3_step fuel points accuracy i : 2 <= zlen points -> 0 <= i < segment_count false points ->
  exists p0 p1 p2 p3, controls false points i p0 p1 p2 p3 /\
  smooth_segment3 fuel points accuracy (Z.to_nat i) =
    if coincide3 p1 p2 then Ok [] else subdivide (curve3_vertex (curve3_new p0 p1 p2 p3)) (flat3 accuracy) fuel f32_zero f32_one (drag_vertex3 p1) (drag_vertex3 p2).
Proof.
  intros N I. unfold smooth_segment3. cbv zeta.
  assert (NN : forall j, exists p, neighbour false points j = Some p).
  { intros j. unfold neighbour. unfold zlen in N |- *. cbv zeta. destruct (nth_error points _) as [p|] eqn:E; [eauto|]. apply nth_error_None in E. lia. }
  destruct (NN i) as (p1 & E1). destruct (NN (i + 1)) as (p2 & E2). destruct (controls_at false points i p1 p2 N I E1 E2) as (p0 & p3 & C & E0 & E3).
  exists p0, p1, p2, p3. split; [exact C|]. unfold neighbour, before, after, segment_count, zlen in *. cbv zeta in *.
  replace (Z.to_nat (Z.max 0 (Z.min (Z.of_nat (List.length points) - 1) i))) with (Z.to_nat i) in E1 by lia. rewrite E1.
  replace (Z.to_nat (Z.max 0 (Z.min (Z.of_nat (List.length points) - 1) (i + 1)))) with (Z.to_nat i + 1)%nat in E2 by lia. rewrite E2.
  replace (if dp_smooth p1 && (0 <? Z.to_nat i)%nat then (Z.to_nat i - 1)%nat else Z.to_nat i) with (if dp_smooth p1 then if (0 <? Z.to_nat i)%nat then (Z.to_nat i - 1)%nat else Z.to_nat i else Z.to_nat i) by (destruct (dp_smooth p1); reflexivity).
  rewrite E0. rewrite (Nat.mod_small (Z.to_nat i + 1)) in E3 by lia.
  replace (if dp_smooth p2 && (Z.to_nat i + 2 <? List.length points)%nat then (Z.to_nat i + 2)%nat else (Z.to_nat i + 1)%nat)
    with (Nat.min (if dp_smooth p2 then if (Z.to_nat i + 2 <? List.length points)%nat then Z.to_nat i + 2 else Z.to_nat i + 1 else Z.to_nat i + 1) (List.length points - 1))%nat
    by (destruct (dp_smooth p2); cbn [andb]; [destruct (Z.to_nat i + 2 <? List.length points)%nat eqn:L|]; lia).
  rewrite E3. reflexivity.
Qed.
Lemma segments_all {V} (one : nat -> res (list V)) : forall is, (forall i, In i is -> exists l, one i = Ok l) -> exists vs, segments one is = Ok vs.
Proof.
  induction is as [|i is IH]; intros H; [eexists; reflexivity|]. cbn [segments]. destruct (H i (or_introl eq_refl)) as (a & ->). cbn [rbind].
  destruct IH as (b & ->); [intros j J; apply H; right; exact J|]. eexists. reflexivity.
Qed.
Lemma segments_inv {V} (one : nat -> res (list V)) : forall is vs, segments one is = Ok vs -> exists pieces, vs = List.concat pieces /\ Forall2 (fun i l => one i = Ok l) is pieces.
Proof.
  induction is as [|i is IH]; intros vs H; cbn [segments] in H; [injection H as <-; exists []; split; [reflexivity|constructor]|].
  destruct (one i) as [a|] eqn:A; cbn [rbind] in H; [|discriminate]. destruct (segments one is) as [b|] eqn:B; cbn [rbind] in H; [|discriminate]. injection H as <-.
  destruct (IH b eq_refl) as (ps & -> & F). exists (a :: ps). split; [reflexivity|constructor; assumption].
Qed.
Lemma seq_steps n : 0 <= n -> seq 0 (Z.to_nat n) = map Z.to_nat (steps n).
Proof. intros N. unfold steps. rewrite map_map. rewrite <- (map_id (seq 0 (Z.to_nat n))) at 1. apply map_ext. intros i. lia. Qed.
Lemma get_vertices_segments fuel points accuracy closed : 2 <= zlen points ->
  get_vertices fuel points accuracy closed = segments (smooth_segment fuel points accuracy closed) (map Z.to_nat (steps (segment_count closed points))).
Proof.
  intros N. unfold get_vertices. cbv zeta. unfold zlen in N. replace (List.length points <? 2)%nat with false by lia. rewrite <- seq_steps by (unfold segment_count, zlen; destruct closed; lia).
  f_equal. f_equal. unfold segment_count, zlen. destruct closed; lia.
Qed.
Lemma get_vertices3_segments fuel points accuracy : 2 <= zlen points ->
  get_vertices3 fuel points accuracy = (vs <~ segments (smooth_segment3 fuel points accuracy) (map Z.to_nat (steps (segment_count false points))) ;;
    Ok (vs ++ match nth_error points (List.length points - 1) with Some p => [mkRV3 (dp_x p) (dp_y p) (dp_z p) true true] | None => [] end)).
Proof.
  intros N. unfold get_vertices3. cbv zeta. unfold zlen in N. replace (List.length points <? 2)%nat with false by lia. rewrite <- seq_steps by (unfold segment_count, zlen; lia).
  f_equal. f_equal. f_equal. unfold segment_count, zlen. lia.
Qed.
Lemma controls_in closed points i p0 p1 p2 p3 : controls closed points i p0 p1 p2 p3 -> In p0 points /\ In p1 points /\ In p2 points /\ In p3 points.
Proof.
  intros (E1 & E2 & E0 & E3). apply neighbour_in in E1, E2. destruct (dp_smooth p1); [apply neighbour_in in E0|subst]; (destruct (dp_smooth p2); [apply neighbour_in in E3|subst]); tauto.
Qed.

(** ** The curve ends *)

Lemma curve_ends : forall points accuracy closed fuel, Forall (fun p => Forall moderate (flat_coordinates p)) points -> above_zero accuracy -> (151 <= fuel)%nat ->
  exists vs, get_vertices fuel points accuracy closed = Ok vs /\ smooth_drag_points fuel points accuracy closed = Ok (map (fun v => (rv_x v, rv_y v)) vs).
Proof.
  intros points accuracy closed fuel M A F.
  assert (G : exists vs, get_vertices fuel points accuracy closed = Ok vs); [|destruct G as (vs & G); exists vs; unfold smooth_drag_points; rewrite G; split; reflexivity].
  destruct (Z.lt_ge_cases (zlen points) 2) as [N|N]; [unfold get_vertices; cbv zeta; unfold zlen in N; replace (List.length points <? 2)%nat with true by lia; eexists; reflexivity|].
  rewrite get_vertices_segments by exact N. apply segments_all. intros j J. apply in_map_iff in J. destruct J as (i & <- & J). apply steps_in in J.
  destruct (segment_step fuel points accuracy closed i N J) as (p0 & p1 & p2 & p3 & C & ->). destruct (coincide p1 p2); [eexists; reflexivity|].
  assert (W : forall p, In p points -> moderate_point p).
  { intros p P. rewrite Forall_forall in M. specialize (M p P). unfold flat_coordinates in M. inversion M as [|? ? X M']. inversion M' as [|? ? Y M'']. split; apply moderate_within; assumption. }
  destruct (controls_in _ _ _ _ _ _ _ C) as (I0 & I1 & I2 & I3). apply segment_ends; try apply W; assumption.
Qed.
Lemma ramp_ends : forall points accuracy fuel, Forall (fun p => Forall moderate (coordinates p)) points -> above_zero accuracy -> (151 <= fuel)%nat ->
  exists vs, get_vertices3 fuel points accuracy = Ok vs.
Proof.
  intros points accuracy fuel M A F.
  destruct (Z.lt_ge_cases (zlen points) 2) as [N|N]; [unfold get_vertices3; cbv zeta; unfold zlen in N; replace (List.length points <? 2)%nat with true by lia; eexists; reflexivity|].
  rewrite get_vertices3_segments by exact N.
  destruct (segments_all (smooth_segment3 fuel points accuracy) (map Z.to_nat (steps (segment_count false points)))) as (vs & ->); [|cbn [rbind]; eexists; reflexivity].
  intros j J. apply in_map_iff in J. destruct J as (i & <- & J). apply steps_in in J.
  destruct (segment3_step fuel points accuracy i N J) as (p0 & p1 & p2 & p3 & C & ->). destruct (coincide3 p1 p2); [eexists; reflexivity|].
  assert (W : forall p, In p points -> moderate_point3 p).
  { intros p P. rewrite Forall_forall in M. specialize (M p P). unfold coordinates in M. inversion M as [|? ? X M']. inversion M' as [|? ? Y M'']. inversion M'' as [|? ? Z M3]. repeat split; apply moderate_within; assumption. }
  destruct (controls_in _ _ _ _ _ _ _ C) as (I0 & I1 & I2 & I3). apply segment3_ends; try apply W; assumption.
Qed.
Lemma subdivide_more {V} (at_ : f32 -> V) fl : forall fuel fuel' t1 t2 v1 v2 l, (fuel <= fuel')%nat -> subdivide at_ fl fuel t1 t2 v1 v2 = Ok l -> subdivide at_ fl fuel' t1 t2 v1 v2 = Ok l.
Proof.
  induction fuel as [|fuel IH]; intros fuel' t1 t2 v1 v2 l L H; [discriminate|]. destruct fuel' as [|fuel']; [lia|]. cbn [subdivide] in *. cbv zeta in *. destruct (fl v1 v2 _); [exact H|].
  destruct (subdivide at_ fl fuel t1 _ _ _) as [a|] eqn:A; cbn [rbind] in H; [|discriminate]. destruct (subdivide at_ fl fuel (mid_t t1 t2) _ _ _) as [b|] eqn:B; cbn [rbind] in H; [|discriminate].
  rewrite (IH fuel' _ _ _ _ a), (IH fuel' _ _ _ _ b) by (assumption || lia). exact H.
Qed.
Lemma segments_more {V} (one two : nat -> res (list V)) : (forall i l, one i = Ok l -> two i = Ok l) -> forall is vs, segments one is = Ok vs -> segments two is = Ok vs.
Proof.
  intros E. induction is as [|i is IH]; intros vs H; cbn [segments] in *; [exact H|]. destruct (one i) as [a|] eqn:A; cbn [rbind] in H; [|discriminate]. destruct (segments one is) as [b|]; cbn [rbind] in H; [|discriminate].
  rewrite (E _ _ A). cbn [rbind]. rewrite (IH b eq_refl). exact H.
Qed.
Lemma vertices_more fuel fuel' points accuracy closed vs : (fuel <= fuel')%nat -> get_vertices fuel points accuracy closed = Ok vs -> get_vertices fuel' points accuracy closed = Ok vs.
Proof.
  intros L. unfold get_vertices. cbv zeta. destruct (_ <? 2)%nat; [auto|]. apply segments_more. intros i l. unfold smooth_segment. cbv zeta. destruct (nth_error points i); [|intros; discriminate]. destruct (nth_error points _); [|intros; discriminate].
  destruct (coincide _ _); [auto|]. destruct (before _ _ _ _ _); [|intros; discriminate]. destruct (after _ _ _ _ _); [|intros; discriminate]. apply subdivide_more, L.
Qed.
Lemma segment3_more fuel fuel' points accuracy i l : (fuel <= fuel')%nat -> smooth_segment3 fuel points accuracy i = Ok l -> smooth_segment3 fuel' points accuracy i = Ok l.
Proof.
  intros L. unfold smooth_segment3. cbv zeta. destruct (nth_error points i); [|intros; discriminate]. destruct (nth_error points (i + 1)); [|intros; discriminate]. destruct (coincide3 _ _); [auto|].
  destruct (nth_error points _) as [p0|]; [|intros; discriminate]. destruct (nth_error points _) as [p3|]; [|intros; discriminate]. apply subdivide_more, L.
Qed.
Lemma vertices3_more fuel fuel' points accuracy vs : (fuel <= fuel')%nat -> get_vertices3 fuel points accuracy = Ok vs -> get_vertices3 fuel' points accuracy = Ok vs.
Proof.
  intros L. unfold get_vertices3. cbv zeta. destruct (_ <? 2)%nat; [auto|]. destruct (segments (smooth_segment3 fuel points accuracy) _) as [us|] eqn:E; cbn [rbind]; intros H; [|discriminate].
  rewrite (segments_more _ (smooth_segment3 fuel' points accuracy)) with (2 := E); [exact H|]. intros i l. apply segment3_more, L.
Qed.
(** For drag points within a million units and any accuracy above zero, the recursion is at most 151 deep: so the call returns. *)
Theorem C60_ends : forall points accuracy closed, Forall (fun p => Forall moderate (flat_coordinates p)) points -> above_zero accuracy ->
  exists vs, forall depth, (151 <= depth)%nat -> get_vertices depth points accuracy closed = Ok vs /\ smooth_drag_points depth points accuracy closed = Ok (map (fun v => (rv_x v, rv_y v)) vs).
Proof.
  intros points accuracy closed M A. destruct (curve_ends points accuracy closed 151 M A (le_n _)) as (vs & G & _). exists vs. intros depth D.
  pose proof (vertices_more _ depth _ _ _ _ D G) as E. split; [exact E|]. unfold smooth_drag_points. rewrite E. reflexivity.
Qed.
Print Assumptions C60_ends.
Theorem C60_ramp_ends : forall points accuracy, Forall (fun p => Forall moderate (coordinates p)) points -> above_zero accuracy ->
  exists vs, forall depth, (151 <= depth)%nat -> get_vertices3 depth points accuracy = Ok vs.
Proof. intros points accuracy M A. destruct (ramp_ends points accuracy 151 M A (le_n _)) as (vs & G). exists vs. intros depth D. exact (vertices3_more _ depth _ _ _ D G). Qed.
Print Assumptions C60_ramp_ends.

(** ** The vertices *)
Lemma follows_app {V} (at_ : f32 -> V) fl t2 v2 : forall ts t1 v1 t us, follows at_ fl t1 v1 ts t (at_ t) -> follows at_ fl t (at_ t) us t2 v2 -> follows at_ fl t1 v1 (ts ++ t :: us) t2 v2.
Proof.
  induction ts as [|x ts IH]; intros t1 v1 t us A B; cbn [follows app] in *; [tauto|]. destruct A as (A1 & A2 & A3). split; [exact A1|]. split; [exact A2|]. apply IH; assumption.
Qed.
Lemma subdivide_follows {V} (at_ : f32 -> V) fl : forall fuel t1 t2 v1 v2 l, subdivide at_ fl fuel t1 t2 v1 v2 = Ok l -> unit_t t1 -> unit_t t2 -> (val t1 <= val t2)%R ->
  exists ts, l = v1 :: map at_ ts /\ follows at_ fl t1 v1 ts t2 v2.
Proof.
  induction fuel as [|fuel IH]; intros t1 t2 v1 v2 l H U1 U2 L; [discriminate|]. cbn [subdivide] in H. cbv zeta in H.
  destruct (fl v1 v2 (at_ (mid_t t1 t2))) eqn:E.
  - injection H as <-. exists []. split; [reflexivity|]. split; [apply le_val; [apply U1|apply U2|exact L]|exact E].
  - destruct (subdivide _ _ fuel t1 _ _ _) as [a|] eqn:A; cbn [rbind] in H; [|discriminate]. destruct (subdivide _ _ fuel (mid_t t1 t2) _ _ _) as [b|] eqn:B; cbn [rbind] in H; [|discriminate]. injection H as <-.
    destruct (mid_val t1 t2 U1 U2 L) as (UM & BM & _). destruct (IH _ _ _ _ _ A U1 UM (proj1 BM)) as (ts & -> & F). destruct (IH _ _ _ _ _ B UM U2 (proj2 BM)) as (us & -> & G).
    exists (ts ++ mid_t t1 t2 :: us). split; [rewrite map_app; reflexivity|]. apply follows_app; assumption.
Qed.
Lemma subdivide_whole {V} (at_ : f32 -> V) fl fuel v1 v2 l : subdivide at_ fl fuel f32_zero f32_one v1 v2 = Ok l -> exists ts, l = v1 :: map at_ ts /\ follows at_ fl f32_zero v1 ts f32_one v2.
Proof.
  intros H. apply (subdivide_follows _ _ _ _ _ _ _ _ H); [apply (step_unit 0 0); [lia|lia|apply zero_step]|apply (step_unit 0 (0 + 1)); [lia|lia|apply one_step]|].
  destruct zero_val as [_ ->]. destruct one_val as [_ ->]. lra.
Qed.
(** Whenever there is a result, for any coordinates and accuracy, it consists of the vertices of one segment after the other. *)
Theorem C60_curve : forall points accuracy closed fuel vs, get_vertices fuel points accuracy closed = Ok vs ->
  if zlen points <? 2 then vs = [] else
  exists pieces, vs = List.concat pieces /\ Forall2 (segment closed points accuracy) (steps (segment_count closed points)) pieces.
Proof.
  intros points accuracy closed fuel vs H. destruct (zlen points <? 2) eqn:N; [unfold get_vertices in H; cbv zeta in H; unfold zlen in N; replace (List.length points <? 2)%nat with true in H by lia; injection H as <-; reflexivity|].
  rewrite get_vertices_segments in H by lia. apply segments_inv in H. destruct H as (pieces & -> & F). exists pieces. split; [reflexivity|].
  assert (G : Forall (fun i => 0 <= i < segment_count closed points) (steps (segment_count closed points))) by (apply Forall_forall; intros i; apply steps_in).
  revert F G. generalize (steps (segment_count closed points)) as is. clear -N. intros is. revert pieces. induction is as [|i is IH]; intros pieces F G; inversion F; subst; [constructor|]. inversion G; subst.
  constructor; [|apply IH; assumption]. destruct (segment_step fuel points accuracy closed i ltac:(lia) ltac:(assumption)) as (p0 & p1 & p2 & p3 & C & E).
  exists p0, p1, p2, p3. split; [exact C|]. rewrite E in *. destruct (coincide p1 p2); [congruence|]. eapply subdivide_whole. eassumption.
Qed.
Print Assumptions C60_curve.
(** A ramp ends with its last drag point in addition. *)
Theorem C60_ramp_curve : forall points accuracy fuel vs, get_vertices3 fuel points accuracy = Ok vs ->
  if zlen points <? 2 then vs = [] else
  exists pieces p, vs = List.concat pieces ++ [mkRV3 (dp_x p) (dp_y p) (dp_z p) true true] /\ neighbour false points (zlen points - 1) = Some p /\
    Forall2 (segment3 points accuracy) (steps (zlen points - 1)) pieces.
Proof.
  intros points accuracy fuel vs H. destruct (zlen points <? 2) eqn:N; [unfold get_vertices3 in H; cbv zeta in H; unfold zlen in N; replace (List.length points <? 2)%nat with true in H by lia; injection H as <-; reflexivity|].
  rewrite get_vertices3_segments in H by lia. destruct (segments _ _) as [us|] eqn:S; cbn [rbind] in H; [|discriminate]. apply segments_inv in S. destruct S as (pieces & -> & F).
  destruct (nth_error points (List.length points - 1)) as [p|] eqn:E; [|apply nth_error_None in E; unfold zlen in N; lia]. injection H as <-. exists pieces, p. split; [reflexivity|].
  split; [rewrite <- E; unfold neighbour, zlen; cbv zeta; f_equal; lia|].
  assert (G : Forall (fun i => 0 <= i < segment_count false points) (steps (segment_count false points))) by (apply Forall_forall; intros i; apply steps_in).
  change (zlen points - 1) with (segment_count false points).
  revert F G. generalize (steps (segment_count false points)) as is. clear -N. intros is. revert pieces. induction is as [|i is IH]; intros pieces F G; inversion F; subst; [constructor|]. inversion G; subst.
  constructor; [|apply IH; assumption]. destruct (segment3_step fuel points accuracy i ltac:(lia) ltac:(assumption)) as (p0 & p1 & p2 & p3 & C & E).
  exists p0, p1, p2, p3. split; [exact C|]. rewrite E in *. destruct (coincide3 p1 p2); [congruence|]. eapply subdivide_whole. eassumption.
Qed.
Print Assumptions C60_ramp_curve.

(** The vertices that are marked as control points are the drag points that do not coincide with the next one, in their order, with their coordinates
    as they are. *)
Theorem C60_corners : forall points accuracy closed fuel vs, get_vertices fuel points accuracy closed = Ok vs -> 2 <= zlen points ->
  filter rv_control_point vs = map corner_of (kept coincide closed points).
Proof.
  intros points accuracy closed fuel vs H N. apply C60_curve in H. replace (zlen points <? 2) with false in H by lia. destruct H as (pieces & -> & F). unfold kept.
  induction F as [|i piece is pieces (p0 & p1 & p2 & p3 & (E1 & E2 & _) & C) F IH]; [reflexivity|]. cbn [List.concat flat_map]. rewrite filter_app, map_app, IH, E1, E2. apply (f_equal (fun a => a ++ map corner_of _)). clear IH F.
  destruct (coincide p1 p2); [rewrite C; reflexivity|]. destruct C as (ts & -> & _). generalize (curve_new p0 p1 p2 p3). intros cc. cbn [filter corner_of rv_control_point map].
  apply (f_equal (cons _)). clear. induction ts as [|t ts IH]; [reflexivity|]. exact IH.
Qed.
Print Assumptions C60_corners.
(** The vertices between the drag points are smooth and not marked. On a ramp all marked vertices but the last one are as smooth as their drag points. *)
Theorem C60_marks : forall points accuracy closed fuel vs v, get_vertices fuel points accuracy closed = Ok vs -> In v vs ->
  rv_control_point v = false /\ rv_smooth v = true \/ exists p, In p points /\ v = corner_of p.
Proof.
  intros points accuracy closed fuel vs v H V. apply C60_curve in H. destruct (zlen points <? 2); [subst vs; destruct V|]. destruct H as (pieces & -> & F). apply in_concat in V. destruct V as (piece & P & V).
  induction F as [|i q is qs (p0 & p1 & p2 & p3 & (E1 & _) & C) F IH]; [destruct P|]. destruct P as [->|P]; [|apply IH, P]. destruct (coincide p1 p2); [subst piece; destruct V|]. destruct C as (ts & -> & _).
  destruct V as [<-|V]; [right; exists p1; split; [|reflexivity]; exact (nth_error_In _ _ E1)|]. left. apply in_map_iff in V. destruct V as (t & <- & _). split; reflexivity.
Qed.
Print Assumptions C60_marks.
Theorem C60_ramp_marks : forall points accuracy fuel vs v, get_vertices3 fuel points accuracy = Ok vs -> In v vs ->
  r3_control_point v = false /\ r3_smooth v = true \/ exists p, In p points /\ (v = corner3_of p \/ v = mkRV3 (dp_x p) (dp_y p) (dp_z p) true true).
Proof.
  intros points accuracy fuel vs v H V. apply C60_ramp_curve in H. destruct (zlen points <? 2); [subst vs; destruct V|]. destruct H as (pieces & p & -> & E & F). apply in_app_or in V.
  destruct V as [V|[<-|[]]]; [|right; exists p; split; [exact (nth_error_In _ _ E)|right; reflexivity]]. apply in_concat in V. destruct V as (piece & P & V).
  induction F as [|i q is qs (p0 & p1 & p2 & p3 & (E1 & _) & C) F IH]; [destruct P|]. destruct P as [->|P]; [|apply IH, P]. destruct (coincide3 p1 p2); [subst piece; destruct V|]. destruct C as (ts & -> & _).
  destruct V as [<-|V]; [right; exists p1; split; [exact (nth_error_In _ _ E1)|left; reflexivity]|]. left. apply in_map_iff in V. destruct V as (t & <- & _). split; reflexivity.
Qed.
Print Assumptions C60_ramp_marks.
(** The curve of a segment begins in the drag point, exactly. *)
Theorem C60_start : forall p0 p1 p2 p3, Forall (fun p => Forall moderate (flat_coordinates p)) [p0; p1; p2; p3] ->
  let v := curve_vertex (curve_new p0 p1 p2 p3) f32_zero in exact (rv_x v) = exact (dp_x p1) /\ exact (rv_y v) = exact (dp_y p1).
Proof.
  intros p0 p1 p2 p3 M. assert (W : forall p, In p [p0; p1; p2; p3] -> moderate_point p).
  { intros p P. rewrite Forall_forall in M. specialize (M p P). unfold flat_coordinates in M. inversion M as [|? ? X M']. inversion M' as [|? ? Y M'']. split; apply moderate_within; assumption. }
  destruct (curve_bounded p0 p1 p2 p3) as (BX & BY & CX & CY); try (apply W; cbn; tauto).
  assert (U0 : unit_t f32_zero) by (apply (step_unit 0 0); [lia|lia|apply zero_step]).
  assert (EQ : forall x y, fin x -> fin y -> val x = val y -> exact x = exact y) by (intros x y FX FY E; apply Z.le_antisymm; apply exact_le; try assumption; lra).
  destruct (W p1 ltac:(cbn; tauto)) as [[FX _] [FY _]]. revert BX BY CX CY. cbv zeta. generalize (curve_new p0 p1 p2 p3). intros cc BX BY CX CY.
  change (rv_x (curve_vertex cc f32_zero)) with (cubic (curve_x cc) f32_zero). change (rv_y (curve_vertex cc f32_zero)) with (cubic (curve_y cc) f32_zero).
  destruct (cubic_val _ _ BX U0) as [[GX _] _]. destruct (cubic_val _ _ BY U0) as [[GY _] _].
  split; [apply (EQ _ _ GX FX); rewrite (cubic_start _ BX), CX; reflexivity|apply (EQ _ _ GY FY); rewrite (cubic_start _ BY), CY; reflexivity].
Qed.
Print Assumptions C60_start.

(** ** Where it does not end *)
Lemma nan_sub a b : f32_value a = S754_nan \/ f32_value b = S754_nan -> f32_value (sub32 a b) = S754_nan.
Proof. rewrite sub_value. intros [-> | ->]; [reflexivity|]. destruct (f32_value a); reflexivity. Qed.
Lemma nan_add a b : f32_value a = S754_nan \/ f32_value b = S754_nan -> f32_value (add32 a b) = S754_nan.
Proof. rewrite add_value. intros [-> | ->]; [reflexivity|]. destruct (f32_value a); reflexivity. Qed.
Lemma nan_mul a b : f32_value a = S754_nan \/ f32_value b = S754_nan -> f32_value (mul32 a b) = S754_nan.
Proof. rewrite mul_value. intros [-> | ->]; [reflexivity|]. destruct (f32_value a); reflexivity. Qed.
Lemma nan_lt a b : f32_value a = S754_nan -> lt32 a b = false.
Proof. unfold lt32. intros ->. reflexivity. Qed.
Lemma nan_near x y : f32_value x = S754_nan \/ f32_value y = S754_nan -> near32 x y = false.
Proof. intros H. apply nan_lt. unfold abs32. rewrite (nan_sub x y H). reflexivity. Qed.
Lemma nan_catmull x0 x1 x2 x3 a b c t : f32_value x1 = S754_nan \/ f32_value x2 = S754_nan -> f32_value (cubic (catmull_coeffs x0 x1 x2 x3 a b c) t) = S754_nan.
Proof.
  intros H. unfold cubic. cbv zeta. apply nan_add. unfold catmull_coeffs, cubic_coeffs. cbv zeta. cbn [c_0 c_1 c_2 c_3]. destruct H as [H|H]; [right; exact H|left].
  apply nan_add. left. apply nan_add. right. apply nan_mul. left. apply nan_sub. left. apply nan_sub. left. apply nan_add. right. apply nan_mul. right. exact H.
Qed.
Definition nan2 (p : DragPoint) : Prop := Exists (fun x => f32_value x = S754_nan) (flat_coordinates p).
Definition nan3 (p : DragPoint) : Prop := Exists (fun x => f32_value x = S754_nan) (coordinates p).
Lemma never_flat {V} (at_ : f32 -> V) fl : (forall v1 v2 t, fl v1 v2 (at_ t) = false) -> forall fuel t1 t2 v1 v2 l, subdivide at_ fl fuel t1 t2 v1 v2 <> Ok l.
Proof.
  intros H. induction fuel as [|fuel IH]; intros t1 t2 v1 v2 l E; [discriminate|]. cbn [subdivide] in E. cbv zeta in E. rewrite H in E.
  destruct (subdivide at_ fl fuel t1 _ _ _) as [a|] eqn:A; [exact (IH _ _ _ _ _ A)|discriminate].
Qed.
Lemma nan_flat accuracy p0 p1 p2 p3 : nan2 p1 \/ nan2 p2 -> forall v1 v2 t, flat accuracy v1 v2 (curve_vertex (curve_new p0 p1 p2 p3) t) = false.
Proof.
  intros H v1 v2 t. unfold flat. cbv zeta. unfold curve_new. destruct (time_steps _ _ _) as [[a b] c]. apply nan_lt. cbn [curve_vertex curve_x curve_y rv_x rv_y].
  assert (G : (f32_value (dp_x p1) = S754_nan \/ f32_value (dp_x p2) = S754_nan) \/ (f32_value (dp_y p1) = S754_nan \/ f32_value (dp_y p2) = S754_nan)).
  { unfold nan2, flat_coordinates in H. destruct H as [H|H]; inversion H as [? ? E|? ? E]; subst; auto; inversion E as [? ? F|? ? F]; subst; auto; inversion F. }
  apply nan_mul. left. destruct G as [G|G].
  - pose proof (nan_catmull (dp_x p0) (dp_x p1) (dp_x p2) (dp_x p3) a b c t G) as G'. clear G. rename G' into G. apply nan_sub. left. apply nan_mul. left. apply nan_sub. left. exact G.
  - pose proof (nan_catmull (dp_y p0) (dp_y p1) (dp_y p2) (dp_y p3) a b c t G) as G'. clear G. rename G' into G. apply nan_sub. right. apply nan_mul. right. apply nan_sub. left. exact G.
Qed.
Lemma nan_flat3 accuracy p0 p1 p2 p3 : nan3 p1 \/ nan3 p2 -> forall v1 v2 t, flat3 accuracy v1 v2 (curve3_vertex (curve3_new p0 p1 p2 p3) t) = false.
Proof.
  intros H v1 v2 t. unfold flat3, cross3. unfold curve3_new. destruct (time_steps _ _ _) as [[a b] c]. cbn [curve3_vertex curve3_x curve3_y curve3_z r3_x r3_y r3_z].
  assert (G : (f32_value (dp_x p1) = S754_nan \/ f32_value (dp_x p2) = S754_nan) \/ (f32_value (dp_y p1) = S754_nan \/ f32_value (dp_y p2) = S754_nan) \/ (f32_value (dp_z p1) = S754_nan \/ f32_value (dp_z p2) = S754_nan)).
  { unfold nan3, coordinates in H. destruct H as [H|H]; inversion H as [? ? E|? ? E]; subst; auto; inversion E as [? ? F|? ? F]; subst; auto; inversion F as [? ? K|? ? K]; subst; auto; inversion K. }
  assert (SQ : forall x y z, f32_value x = S754_nan \/ f32_value y = S754_nan \/ f32_value z = S754_nan -> lt32 (add32 (add32 (mul32 x x) (mul32 y y)) (mul32 z z)) accuracy = false).
  { intros x y z [X|[X|X]]; apply nan_lt, nan_add; [left; apply nan_add; left|left; apply nan_add; right|right]; apply nan_mul; left; exact X. }
  apply SQ. destruct G as [G|[G|G]].
  - pose proof (nan_catmull (dp_x p0) (dp_x p1) (dp_x p2) (dp_x p3) a b c t G) as G'. clear G. rename G' into G. right. left. apply nan_sub. right. apply nan_mul. left. apply nan_sub. left. exact G.
  - pose proof (nan_catmull (dp_y p0) (dp_y p1) (dp_y p2) (dp_y p3) a b c t G) as G'. clear G. rename G' into G. left. apply nan_sub. left. apply nan_mul. left. apply nan_sub. left. exact G.
  - pose proof (nan_catmull (dp_z p0) (dp_z p1) (dp_z p2) (dp_z p3) a b c t G) as G'. clear G. rename G' into G. left. apply nan_sub. right. apply nan_mul. left. apply nan_sub. left. exact G.
Qed.
Lemma segments_blocked {V} (one : nat -> res (list V)) is i : In i is -> (forall l, one i <> Ok l) -> forall vs, segments one is <> Ok vs.
Proof.
  intros I H vs E. apply segments_inv in E. destruct E as (ps & _ & F). revert I. induction F as [|j l js ps J F IH]; [intros []|]. intros [-> | I]; [exact (H _ J)|exact (IH I)].
Qed.
(** Each drag point is at an end of some segment. *)
Lemma end_of_segment closed points p : In p points -> 2 <= zlen points -> exists i, 0 <= i < segment_count closed points /\ (neighbour closed points i = Some p \/ neighbour closed points (i + 1) = Some p).
Proof.
  intros I N. apply In_nth_error in I. destruct I as (k & K). assert (L : (k < List.length points)%nat) by (apply nth_error_Some; congruence). unfold segment_count, neighbour, zlen in *. cbv zeta. destruct closed.
  - exists (Z.of_nat k). split; [lia|]. left. rewrite Z.mod_small, Nat2Z.id by lia. exact K.
  - destruct (Nat.eq_dec k (List.length points - 1)) as [->|NE].
    + exists (Z.of_nat (List.length points - 2)). split; [lia|]. right. rewrite <- K. f_equal. lia.
    + exists (Z.of_nat k). split; [lia|]. left. rewrite <- K. f_equal. lia.
Qed.
Lemma nan_apart p q : nan2 p \/ nan2 q -> coincide p q = false.
Proof.
  intros H. unfold coincide. unfold nan2, flat_coordinates in H. destruct H as [H|H]; inversion H as [? ? E|? ? E]; subst; try (rewrite nan_near by auto; reflexivity);
    inversion E as [? ? F|? ? F]; subst; try (rewrite (nan_near (dp_y _)) by auto; apply andb_false_r); inversion F.
Qed.
Lemma nan_apart3 p q : nan3 p \/ nan3 q -> coincide3 p q = false.
Proof.
  intros H. unfold coincide3. unfold nan3, coordinates in H. destruct H as [H|H]; inversion H as [? ? E|? ? E]; subst; try (rewrite nan_near by auto; reflexivity);
    inversion E as [? ? F|? ? F]; subst; try (rewrite (nan_near (dp_y _)) by auto; rewrite andb_false_r; reflexivity); inversion F as [? ? K|? ? K]; subst; try (rewrite (nan_near (dp_z _)) by auto; apply andb_false_r); inversion K.
Qed.
(** FINDING: if a coordinate of a drag point is NaN, the recursion never ends: the stack overflows, at whatever depth it can hold. Such coordinates are
    read from files as they are. *)
Theorem C60_nan_refuted : forall points accuracy closed, 2 <= zlen points -> Exists nan2 points -> forall depth vs, get_vertices depth points accuracy closed <> Ok vs.
Proof.
  intros points accuracy closed N X depth vs. apply Exists_exists in X. destruct X as (p & I & NP). destruct (end_of_segment closed points p I N) as (i & J & E).
  rewrite get_vertices_segments by exact N. apply (segments_blocked _ _ (Z.to_nat i)); [apply in_map, steps_in, J|]. intros l.
  destruct (segment_step depth points accuracy closed i N J) as (p0 & p1 & p2 & p3 & (E1 & E2 & _) & ->).
  assert (NN : nan2 p1 \/ nan2 p2) by (destruct E as [E|E]; [left|right]; congruence). rewrite nan_apart by exact NN. apply never_flat. apply nan_flat, NN.
Qed.
Print Assumptions C60_nan_refuted.
Theorem C60_ramp_nan_refuted : forall points accuracy, 2 <= zlen points -> Exists nan3 points -> forall depth vs, get_vertices3 depth points accuracy <> Ok vs.
Proof.
  intros points accuracy N X depth vs. apply Exists_exists in X. destruct X as (p & I & NP). destruct (end_of_segment false points p I N) as (i & J & E).
  rewrite get_vertices3_segments by exact N. destruct (segments _ _) as [us|] eqn:S; [|discriminate]. exfalso. revert S. apply (segments_blocked _ _ (Z.to_nat i)); [apply in_map, steps_in, J|]. intros l.
  destruct (segment3_step depth points accuracy i N J) as (p0 & p1 & p2 & p3 & (E1 & E2 & _) & ->).
  assert (NN : nan3 p1 \/ nan3 p2) by (destruct E as [E|E]; [left|right]; congruence). rewrite nan_apart3 by exact NN. apply never_flat. apply nan_flat3, NN.
Qed.
Print Assumptions C60_ramp_nan_refuted.
Lemma square_signed a : signed false (f32_value (mul32 a a)).
Proof.
  rewrite mul_value. destruct (f32_value a) as [[]|[]| |[] m e]; try exact I; try reflexivity; cbn [SFmul xorb]; apply round_signed.
Qed.
Lemma not_below x accuracy : signed false (f32_value x) -> ~ above_zero accuracy -> lt32 x accuracy = false.
Proof.
  unfold above_zero, lt32, SFltb. intros S A. destruct (f32_value x) as [[]|[]| |[] m e]; cbn in S; try discriminate; destruct (f32_value accuracy) as [[]|[]| |[] m' e']; cbn in *; try reflexivity; exfalso; apply A; reflexivity.
Qed.
(** FINDING: the same for an accuracy that is not above zero, as soon as two neighbours do not coincide. *)
Theorem C60_accuracy_refuted : forall points accuracy closed i p q, 2 <= zlen points -> ~ above_zero accuracy -> 0 <= i < segment_count closed points ->
  neighbour closed points i = Some p -> neighbour closed points (i + 1) = Some q -> coincide p q = false -> forall depth vs, get_vertices depth points accuracy closed <> Ok vs.
Proof.
  intros points accuracy closed i p q N A J EP EQ C depth vs. rewrite get_vertices_segments by exact N. apply (segments_blocked _ _ (Z.to_nat i)); [apply in_map, steps_in, J|]. intros l.
  destruct (segment_step depth points accuracy closed i N J) as (p0 & p1 & p2 & p3 & (E1 & E2 & _) & ->). replace p1 with p by congruence. replace p2 with q by congruence. rewrite C.
  apply never_flat. intros v1 v2 t. apply not_below; [apply square_signed|exact A].
Qed.
Print Assumptions C60_accuracy_refuted.

(** ** Cases *)
Definition drag (x y : Z) (smooth : bool) : DragPoint :=
  mkDragPoint (int32 x) (int32 y) f32_zero smooth None false f32_zero false None None None.
(** A rounded square: its first corner is sharp, and its last drag point is there twice *)
Definition rounded : list DragPoint := [drag 0 0 false; drag 100 0 true; drag 100 100 true; drag 0 100 true; drag 0 100 true].
Definition four : f32 := Z_to_w32 0x40800000.
Example C60_ends_case : Forall (fun p => Forall moderate (flat_coordinates p)) rounded /\ above_zero four /\
  exists vs, get_vertices 151 rounded four true = Ok vs /\ 4 < zlen vs /\ zlen (filter rv_control_point vs) = 4.
Proof.
  split; [|split; [reflexivity|]].
  - repeat (apply Forall_cons; [repeat (apply Forall_cons; [split; [vm_compute; exact I|vm_compute; discriminate]|]); apply Forall_nil|]). apply Forall_nil.
  - eexists. split; [vm_compute; reflexivity|]. split; [vm_compute; reflexivity|reflexivity].
Qed.
Example C60_ramp_case : exists vs, get_vertices3 151 rounded four = Ok vs /\ zlen (filter r3_control_point vs) = 4.
Proof. eexists. split; [vm_compute; reflexivity|]. reflexivity. Qed.
Example C60_nan_case : Exists nan2 [drag 0 0 false; mkDragPoint (Z_to_w32 0x7fc00000) f32_zero f32_zero false None false f32_zero false None None None].
Proof. apply Exists_cons_tl, Exists_cons_hd, Exists_cons_hd. reflexivity. Qed.
Example C60_accuracy_case : ~ above_zero f32_zero /\ neighbour true rounded 1 = Some (drag 100 0 true) /\ neighbour true rounded 2 = Some (drag 100 100 true) /\ coincide (drag 100 0 true) (drag 100 100 true) = false.
Proof. split; [discriminate|]. repeat split; vm_compute; reflexivity. Qed.
Example C60_marks_case : exists vs v w, get_vertices 151 rounded four true = Ok vs /\ In v vs /\ rv_control_point v = false /\ In w vs /\ w = corner_of (drag 100 0 true).
Proof. eexists. eexists. eexists. split; [vm_compute; reflexivity|]. split; [right; left; reflexivity|]. split; [reflexivity|]. split; [|reflexivity]. vm_compute. tauto. Qed.

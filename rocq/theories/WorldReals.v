(** Lemmas about the world matrix of a primitive: each row of a product is a row that goes through the other matrix. *)
From Verif Require Import Base Text Json Image Sound Quantize ColorText JsonFloat Cfb Mesh SpecMesh Common Enums QuantizeFacts QuantizeMono FlipFacts Browser Builtin SpecBuiltin BuiltinFacts BuiltinReals Polygon SpecPolygon Smooth FloatBounds SmoothFacts SpecSmooth PropertiesSmooth WallsReals RubberMesh RubberReals PropertiesRubber SpecRamps RampReals Transform TransformReals Flats SpecFlats FlatReals BaseFacts ItemHitTarget ItemGate ItemSpinner ItemKicker ItemTrigger Shapes SpecShapes ShapeReals ItemPrimitive SpecWorld ObjExport.
From Coq Require Import Reals Lra Floats.SpecFloat ZifyBool.
From Flocq Require Import Core.Core Relative Mult_error IEEE754.BinarySingleNaN.
Local Open Scope Z_scope.

Definition row_times (m : Matrix) (x y z w : f32) (l : nat) : f32 :=
  add32 (add32 (add32 (mul32 (cell m 0 l) x) (mul32 (cell m 1 l) y)) (mul32 (cell m 2 l) z)) (mul32 (cell m 3 l) w).
Lemma cell_times a m i l : (i < 4)%nat -> (l < 4)%nat -> cell (times a m) i l = row_times m (cell a i 0) (cell a i 1) (cell a i 2) (cell a i 3) l.
Proof. intros I L. do 4 (destruct i as [|i]; [do 4 (destruct l as [|l]; [reflexivity|]); lia|]). lia. Qed.
(** A row that stands for a point, and its last cell *)
Definition row (k : R) (m : Matrix) (i : nat) (p : R * R * R) (M w : R) : Prop :=
  let '(X, Y, Z) := p in est k (cell m i 0) X M /\ est k (cell m i 1) Y M /\ est k (cell m i 2) Z M /\ exactly (cell m i 3) w.

Section Sums.
Variable k M : R.
Hypothesis K : (0 <= k <= 90)%R.
Hypothesis LM : (1 <= M <= 562949953421312)%R.
Lemma two_sum x y X Y : est (k + 2) x X M -> est (k + 2) y Y M -> est (k + 4) (add32 x y) (X + Y) (2 * M).
Proof. intros E1 E2. pose proof (est_add (k + 2) _ _ _ _ M M ltac:(lra) ltac:(lra) ltac:(lra) E1 E2) as T. apply (est_weaken (k + 2 + 2) (k + 4) _ _ (M + M)); [lra|lra|exact T]. Qed.
Lemma plus_zero x y X N j : (0 <= j <= 100)%R -> (N <= 1125899906842624)%R -> est j x X N -> exactly y 0 -> est j (add32 x y) X N.
Proof. intros J L E D. exact (proj1 (est_plus_zero j _ _ _ N J L E D)). Qed.
Lemma zero_plus x y X N j : (0 <= j <= 100)%R -> (N <= 1125899906842624)%R -> est j x X N -> exactly y 0 -> est j (add32 y x) X N.
Proof. intros J L E D. exact (proj2 (est_plus_zero j _ _ _ N J L E D)). Qed.
Lemma zeros x y : exactly x 0 -> exactly y 0 -> exactly (add32 x y) 0.
Proof. intros E D. exact (zero_sum _ _ _ E D ltac:(rewrite Rabs_R0; lra)). Qed.
Lemma sum_01 p q r s P Q : est (k + 2) p P M -> est (k + 2) q Q M -> exactly r 0 -> exactly s 0 -> est (k + 4) (add32 (add32 (add32 p q) r) s) (P + Q) (2 * M).
Proof. intros. apply plus_zero; [lra|lra| |assumption]. apply plus_zero; [lra|lra| |assumption]. apply two_sum; assumption. Qed.
Lemma sum_02 p q r s P Q : est (k + 2) p P M -> exactly q 0 -> est (k + 2) r Q M -> exactly s 0 -> est (k + 4) (add32 (add32 (add32 p q) r) s) (P + Q) (2 * M).
Proof. intros. apply plus_zero; [lra|lra| |assumption]. apply two_sum; [|assumption]. apply plus_zero; [lra|lra|assumption|assumption]. Qed.
Lemma sum_12 p q r s P Q : exactly p 0 -> est (k + 2) q P M -> est (k + 2) r Q M -> exactly s 0 -> est (k + 4) (add32 (add32 (add32 p q) r) s) (P + Q) (2 * M).
Proof. intros. apply plus_zero; [lra|lra| |assumption]. apply two_sum; [|assumption]. apply zero_plus; [lra|lra|assumption|assumption]. Qed.
Lemma sum_0 p q r s P : est k p P M -> exactly q 0 -> exactly r 0 -> exactly s 0 -> est k (add32 (add32 (add32 p q) r) s) P M.
Proof. intros. apply plus_zero; [lra|lra| |assumption]. apply plus_zero; [lra|lra| |assumption]. apply plus_zero; [lra|lra|assumption|assumption]. Qed.
Lemma sum_1 p q r s P : exactly p 0 -> est k q P M -> exactly r 0 -> exactly s 0 -> est k (add32 (add32 (add32 p q) r) s) P M.
Proof. intros. apply plus_zero; [lra|lra| |assumption]. apply plus_zero; [lra|lra| |assumption]. apply zero_plus; [lra|lra|assumption|assumption]. Qed.
Lemma sum_2 p q r s P : exactly p 0 -> exactly q 0 -> est k r P M -> exactly s 0 -> est k (add32 (add32 (add32 p q) r) s) P M.
Proof. intros. apply plus_zero; [lra|lra| |assumption]. apply zero_plus; [lra|lra|assumption|]. apply zeros; assumption. Qed.
Lemma sum_3 p q r s w : (Rabs w <= 1)%R -> exactly p 0 -> exactly q 0 -> exactly r 0 -> exactly s w -> exactly (add32 (add32 (add32 p q) r) s) w.
Proof. intros. apply (zero_sum _ _ w); [|assumption|assumption]. apply zeros; [apply zeros; assumption|assumption]. Qed.
Lemma unit_times c C x X : est 0 c C 1 -> est k x X M -> est (k + 2) (mul32 c x) (C * X) M.
Proof. intros E D. pose proof (est_mul 0 k _ _ _ _ 1 M ltac:(lra) ltac:(lra) ltac:(lra) ltac:(lra) E D) as P. apply (est_weaken (0 + k + 2) (k + 2) _ _ (1 * M)); [lra|lra|exact P]. Qed.
Lemma one_times x X : est k x X M -> est k (mul32 f32_one x) X M.
Proof. intros E. exact (proj2 (est_times_one k _ _ _ M ltac:(lra) ltac:(lra) E one_val)). Qed.
Lemma null_times x : within 51 x -> exactly (mul32 f32_zero x) 0.
Proof. intros W. exact (zero_left _ _ zero_val W). Qed.
Lemma one_exact w x : (w = 0 \/ w = 1)%R -> exactly x w -> exactly (mul32 f32_one x) w.
Proof.
  intros [->| ->] E; [|exact (ones _ _ one_val E)]. apply (zero_right _ _ E). exact (exactly_within _ _ one_val ltac:(rewrite Rabs_R1; lra)).
Qed.
End Sums.

Section Turns.
Variable sin cos : f32 -> f32.
Variable a : f32.
Hypothesis WC : within 0 (cos a).
Hypothesis WS : within 0 (sin a).
Variable k M w : R.
Hypothesis K : (0 <= k <= 90)%R.
Hypothesis LM : (1 <= M <= 562949953421312)%R.
Hypothesis HW : (w = 0 \/ w = 1)%R.
Lemma row_within m i p : row k m i p M w -> within 51 (cell m i 0) /\ within 51 (cell m i 1) /\ within 51 (cell m i 2) /\ within 51 (cell m i 3).
Proof.
  destruct p as [[X Y] Z]. intros (HX & HY & HZ & HQ). assert (KK : (0 <= k <= 100)%R) by lra. assert (LL : (M <= 1125899906842624)%R) by lra.
  split; [exact (est_within k _ _ _ KK HX LL)|]. split; [exact (est_within k _ _ _ KK HY LL)|]. split; [exact (est_within k _ _ _ KK HZ LL)|]. apply (exactly_within _ _ HQ). destruct HW as [->| ->]; [rewrite Rabs_R0|rewrite Rabs_R1]; lra.
Qed.
Lemma small_w : (Rabs w <= 1)%R.
Proof. destruct HW as [->| ->]; [rewrite Rabs_R0|rewrite Rabs_R1]; lra. Qed.
Lemma up_row x X : est k x X M -> est (k + 4) x X (2 * M).
Proof. intros E. apply (est_weaken k (k + 4) _ _ M); [lra|lra|exact E]. Qed.
Lemma row_z m i p : (i < 4)%nat -> row k m i p M w -> row (k + 4) (times m (rotate_z sin cos a)) i (about_z (val (cos a)) (val (sin a)) p) (2 * M) w.
Proof.
  intros I R. destruct (row_within m i p R) as (W0 & W1 & W2 & W3). destruct p as [[X Y] Z]. destruct R as (HX & HY & HZ & HQ). destruct (unit_est _ WC) as [C1 _]. destruct (unit_est _ WS) as [S1 S2].
  unfold row, about_z. rewrite !cell_times by (exact I || lia). unfold row_times. cbn [cell rotate_z nth]. fold (cell m i 0) (cell m i 1) (cell m i 2) (cell m i 3). split; [|split; [|split]].
  - replace (X * val (cos a) - Y * val (sin a))%R with (val (cos a) * X + - val (sin a) * Y)%R by ring. apply (sum_01 k M K LM); [apply (unit_times k M K LM); assumption|apply (unit_times k M K LM); assumption|apply null_times; assumption|apply null_times; assumption].
  - replace (X * val (sin a) + Y * val (cos a))%R with (val (sin a) * X + val (cos a) * Y)%R by ring. apply (sum_01 k M K LM); [apply (unit_times k M K LM); assumption|apply (unit_times k M K LM); assumption|apply null_times; assumption|apply null_times; assumption].
  - apply up_row. apply (sum_2 k M K LM); [apply null_times; assumption|apply null_times; assumption|apply (one_times k M K LM); assumption|apply null_times; assumption].
  - apply sum_3; [exact small_w|apply null_times; assumption|apply null_times; assumption|apply null_times; assumption|apply one_exact; assumption].
Qed.
Lemma row_y m i p : (i < 4)%nat -> row k m i p M w -> row (k + 4) (times m (rotate_y sin cos a)) i (about_y (val (cos a)) (val (sin a)) p) (2 * M) w.
Proof.
  intros I R. destruct (row_within m i p R) as (W0 & W1 & W2 & W3). destruct p as [[X Y] Z]. destruct R as (HX & HY & HZ & HQ). destruct (unit_est _ WC) as [C1 _]. destruct (unit_est _ WS) as [S1 S2].
  unfold row, about_y. rewrite !cell_times by (exact I || lia). unfold row_times. cbn [cell rotate_y nth]. fold (cell m i 0) (cell m i 1) (cell m i 2) (cell m i 3). split; [|split; [|split]].
  - replace (X * val (cos a) + Z * val (sin a))%R with (val (cos a) * X + val (sin a) * Z)%R by ring. apply (sum_02 k M K LM); [apply (unit_times k M K LM); assumption|apply null_times; assumption|apply (unit_times k M K LM); assumption|apply null_times; assumption].
  - apply up_row. apply (sum_1 k M K LM); [apply null_times; assumption|apply (one_times k M K LM); assumption|apply null_times; assumption|apply null_times; assumption].
  - replace (Z * val (cos a) - X * val (sin a))%R with (- val (sin a) * X + val (cos a) * Z)%R by ring. apply (sum_02 k M K LM); [apply (unit_times k M K LM); assumption|apply null_times; assumption|apply (unit_times k M K LM); assumption|apply null_times; assumption].
  - apply sum_3; [exact small_w|apply null_times; assumption|apply null_times; assumption|apply null_times; assumption|apply one_exact; assumption].
Qed.
Lemma row_x m i p : (i < 4)%nat -> row k m i p M w -> row (k + 4) (times m (rotate_x sin cos a)) i (about_x (val (cos a)) (val (sin a)) p) (2 * M) w.
Proof.
  intros I R. destruct (row_within m i p R) as (W0 & W1 & W2 & W3). destruct p as [[X Y] Z]. destruct R as (HX & HY & HZ & HQ). destruct (unit_est _ WC) as [C1 _]. destruct (unit_est _ WS) as [S1 S2].
  unfold row, about_x. rewrite !cell_times by (exact I || lia). unfold row_times. cbn [cell rotate_x nth]. fold (cell m i 0) (cell m i 1) (cell m i 2) (cell m i 3). split; [|split; [|split]].
  - apply up_row. apply (sum_0 k M K LM); [apply (one_times k M K LM); assumption|apply null_times; assumption|apply null_times; assumption|apply null_times; assumption].
  - replace (Y * val (cos a) - Z * val (sin a))%R with (val (cos a) * Y + - val (sin a) * Z)%R by ring. apply (sum_12 k M K LM); [apply null_times; assumption|apply (unit_times k M K LM); assumption|apply (unit_times k M K LM); assumption|apply null_times; assumption].
  - replace (Y * val (sin a) + Z * val (cos a))%R with (val (sin a) * Y + val (cos a) * Z)%R by ring. apply (sum_12 k M K LM); [apply null_times; assumption|apply (unit_times k M K LM); assumption|apply (unit_times k M K LM); assumption|apply null_times; assumption].
  - apply sum_3; [exact small_w|apply null_times; assumption|apply null_times; assumption|apply null_times; assumption|apply one_exact; assumption].
Qed.
End Turns.

(** ** Scaling before, and moving after *)
Lemma times_unit_zero x : within 51 x -> exactly (mul32 x f32_zero) 0.
Proof. intros W. exact (zero_right _ _ zero_val W). Qed.
Lemma scaled_row k M S s m i p w' : (0 <= k <= 80)%R -> (1 <= M <= 1048576)%R -> (1 <= S <= 1048576)%R -> est 0 s (val s) S -> row k m i p M 0 -> (w' = 0)%R ->
  forall f, (forall l, (l < 4)%nat -> exists z1 z2 z3, exactly z1 0 /\ exactly z2 0 /\ exactly z3 0 /\
     (f l = add32 (add32 (add32 (mul32 (cell m i l) s) z1) z2) z3 \/ f l = add32 (add32 (add32 z1 (mul32 (cell m i l) s)) z2) z3 \/ f l = add32 (add32 (add32 z1 z2) (mul32 (cell m i l) s)) z3)) ->
  let '(X, Y, Z) := p in est (k + 2) (f 0%nat) (X * val s) (M * S) /\ est (k + 2) (f 1%nat) (Y * val s) (M * S) /\ est (k + 2) (f 2%nat) (Z * val s) (M * S) /\ exactly (f 3%nat) 0.
Proof.
  intros K LM LS ES R _ f F. destruct p as [[X Y] Z]. destruct R as (HX & HY & HZ & HQ).
  assert (MS : (1 <= M * S <= 562949953421312)%R) by (split; [rewrite <- (Rmult_1_l 1); apply Rmult_le_compat; lra|apply (Rle_trans _ (1048576 * 1048576)); [apply Rmult_le_compat; lra|lra]]).
  assert (WS : within 51 s) by (exact (est_within 0 _ _ _ ltac:(lra) ES ltac:(lra))).
  assert (P : forall x Q, est k x Q M -> est (k + 2) (mul32 x s) (Q * val s) (M * S)).
  { intros x Q E. pose proof (est_mul k 0 _ _ _ _ M S ltac:(lra) ltac:(lra) ltac:(lra) ltac:(lra) E ES) as T. apply (est_weaken (k + 0 + 2) (k + 2) _ _ (M * S)); [lra|lra|exact T]. }
  assert (G : forall l Q, (l < 4)%nat -> est k (cell m i l) Q M -> est (k + 2) (f l) (Q * val s) (M * S)).
  { intros l Q L E. apply P in E. assert (K2 : (0 <= k + 2 <= 90)%R) by lra. destruct (F l L) as (z1 & z2 & z3 & Z1 & Z2 & Z3 & [H|[H|H]]); rewrite H; [exact (sum_0 _ _ K2 MS _ _ _ _ _ E Z1 Z2 Z3)|exact (sum_1 _ _ K2 MS _ _ _ _ _ Z1 E Z2 Z3)|exact (sum_2 _ _ K2 MS _ _ _ _ _ Z1 Z2 E Z3)]. }
  split; [apply G; [lia|exact HX]|]. split; [apply G; [lia|exact HY]|]. split; [apply G; [lia|exact HZ]|].
  pose proof (zero_left _ _ HQ WS) as ZQ. destruct (F 3%nat ltac:(lia)) as (z1 & z2 & z3 & Z1 & Z2 & Z3 & [H|[H|H]]); rewrite H; repeat (apply zeros; [|assumption]); assumption || (apply zeros; assumption).
Qed.
Section Scaled.
Variable k M M3 S : R.
Hypothesis K : (0 <= k <= 80)%R.
Hypothesis LM : (1 <= M <= 1048576)%R.
Hypothesis LM3 : (1 <= M3 <= 562949953421312)%R.
Hypothesis LS : (1 <= S <= 1048576)%R.
Variable sx sy sz : f32.
Hypothesis EX : est 0 sx (val sx) S.
Hypothesis EY : est 0 sy (val sy) S.
Hypothesis EZ : est 0 sz (val sz) S.
Variable m : Matrix.
Variable p0 p1 p2 p3 : R * R * R.
Hypothesis R0 : row k m 0 p0 M 0.
Hypothesis R1 : row k m 1 p1 M 0.
Hypothesis R2 : row k m 2 p2 M 0.
Hypothesis R3 : row k m 3 p3 M3 1.
Definition scaled_point (s : R) (p : R * R * R) : R * R * R := let '(x, y, z) := p in (x * s, y * s, z * s)%R.
Lemma all_within i l : (i < 4)%nat -> (l < 4)%nat -> within 51 (cell m i l).
Proof.
  intros I L. assert (K9 : (0 <= k <= 90)%R) by lra. assert (L5 : (1 <= M <= 562949953421312)%R) by lra.
  destruct (row_within k M 0 K9 L5 ltac:(auto) m 0 p0 R0) as (A0 & A1 & A2 & A3). destruct (row_within k M 0 K9 L5 ltac:(auto) m 1 p1 R1) as (B0 & B1 & B2 & B3).
  destruct (row_within k M 0 K9 L5 ltac:(auto) m 2 p2 R2) as (C0 & C1 & C2 & C3). destruct (row_within k M3 1 K9 LM3 ltac:(auto) m 3 p3 R3) as (D0 & D1 & D2 & D3).
  do 4 (destruct i as [|i]; [do 4 (destruct l as [|l]; [assumption|]); lia|]). lia.
Qed.
Lemma scaled_0 : row (k + 2) (times (scaling sx sy sz) m) 0 (scaled_point (val sx) p0) (M * S) 0.
Proof.
  pose proof all_within as AW. pose proof (scaled_row k M S sx m 0 p0 0 K LM LS EX R0 eq_refl (cell (times (scaling sx sy sz) m) 0)) as H. destruct p0 as [[X Y] Z]. apply H. intros l L. rewrite cell_times by lia. unfold row_times. cbn [cell scaling nth].
  exists (mul32 (cell m 1 l) f32_zero), (mul32 (cell m 2 l) f32_zero), (mul32 (cell m 3 l) f32_zero). split; [apply times_unit_zero, AW; lia|]. split; [apply times_unit_zero, AW; lia|]. split; [apply times_unit_zero, AW; lia|]. left. reflexivity.
Qed.
Lemma scaled_1 : row (k + 2) (times (scaling sx sy sz) m) 1 (scaled_point (val sy) p1) (M * S) 0.
Proof.
  pose proof all_within as AW. pose proof (scaled_row k M S sy m 1 p1 0 K LM LS EY R1 eq_refl (cell (times (scaling sx sy sz) m) 1)) as H. destruct p1 as [[X Y] Z]. apply H. intros l L. rewrite cell_times by lia. unfold row_times. cbn [cell scaling nth].
  exists (mul32 (cell m 0 l) f32_zero), (mul32 (cell m 2 l) f32_zero), (mul32 (cell m 3 l) f32_zero). split; [apply times_unit_zero, AW; lia|]. split; [apply times_unit_zero, AW; lia|]. split; [apply times_unit_zero, AW; lia|]. right. left. reflexivity.
Qed.
Lemma scaled_2 : row (k + 2) (times (scaling sx sy sz) m) 2 (scaled_point (val sz) p2) (M * S) 0.
Proof.
  pose proof all_within as AW. pose proof (scaled_row k M S sz m 2 p2 0 K LM LS EZ R2 eq_refl (cell (times (scaling sx sy sz) m) 2)) as H. destruct p2 as [[X Y] Z]. apply H. intros l L. rewrite cell_times by lia. unfold row_times. cbn [cell scaling nth].
  exists (mul32 (cell m 0 l) f32_zero), (mul32 (cell m 1 l) f32_zero), (mul32 (cell m 3 l) f32_zero). split; [apply times_unit_zero, AW; lia|]. split; [apply times_unit_zero, AW; lia|]. split; [apply times_unit_zero, AW; lia|]. right. right. reflexivity.
Qed.
Lemma scaled_3 : row k (times (scaling sx sy sz) m) 3 p3 M3 1.
Proof.
  pose proof all_within as AW. assert (Z : forall i l, (i < 4)%nat -> (l < 4)%nat -> exactly (mul32 (cell m i l) f32_zero) 0) by (intros i l I L; apply times_unit_zero, AW; assumption).
  assert (G : forall l Q, (l < 4)%nat -> est k (cell m 3 l) Q M3 -> est k (cell (times (scaling sx sy sz) m) 3 l) Q M3).
  { intros l Q L E. rewrite cell_times by lia. unfold row_times. cbn [cell scaling nth]. fold (cell m 0 l) (cell m 1 l) (cell m 2 l) (cell m 3 l).
    apply zero_plus; [lra|lra| |apply zeros; [apply zeros|]; apply Z; lia]. exact (proj1 (est_times_one k _ _ _ M3 ltac:(lra) ltac:(lra) E one_val)). }
  destruct p3 as [[X Y] Z']. destruct R3 as (HX & HY & HZ & HQ). split; [apply G; [lia|exact HX]|]. split; [apply G; [lia|exact HY]|]. split; [apply G; [lia|exact HZ]|].
  rewrite cell_times by lia. unfold row_times. cbn [cell scaling nth]. fold (cell m 0 3) (cell m 1 3) (cell m 2 3) (cell m 3 3). apply sum_3; [rewrite Rabs_R1; lra|apply Z; lia|apply Z; lia|apply Z; lia|exact (ones _ _ HQ one_val)].
Qed.
End Scaled.
Definition shifted_point (d e f : R) (p : R * R * R) : R * R * R := let '(X, Y, Z) := p in (X + d, Y + e, Z + f)%R.
Section Moved.
Variable k M T : R.
Hypothesis K : (0 <= k <= 80)%R.
Hypothesis LM : (1 <= M <= 281474976710656)%R.
Hypothesis LT : (1 <= T <= 1048576)%R.
Variable tx ty tz : f32.
Hypothesis EX : est 0 tx (val tx) T.
Hypothesis EY : est 0 ty (val ty) T.
Hypothesis EZ : est 0 tz (val tz) T.
Lemma move_within : within 51 tx /\ within 51 ty /\ within 51 tz.
Proof. split; [exact (est_within 0 _ _ _ ltac:(lra) EX ltac:(lra))|]. split; [exact (est_within 0 _ _ _ ltac:(lra) EY ltac:(lra))|exact (est_within 0 _ _ _ ltac:(lra) EZ ltac:(lra))]. Qed.
Lemma moved_direction m i p : (i < 4)%nat -> row k m i p M 0 -> row k (times m (translation tx ty tz)) i p M 0.
Proof.
  intros I R. assert (K9 : (0 <= k <= 90)%R) by lra. assert (L5 : (1 <= M <= 562949953421312)%R) by lra. destruct (row_within k M 0 K9 L5 ltac:(auto) m i p R) as (W0 & W1 & W2 & W3). destruct move_within as (WX & WY & WZ).
  destruct p as [[X Y] Z]. destruct R as (HX & HY & HZ & HQ). unfold row. rewrite !cell_times by (exact I || lia). unfold row_times. cbn [cell translation nth]. fold (cell m i 0) (cell m i 1) (cell m i 2) (cell m i 3). split; [|split; [|split]].
  - apply (sum_0 k M K9 L5); [exact (one_times k M K9 L5 _ _ HX)|apply null_times; assumption|apply null_times; assumption|exact (zero_right _ _ HQ WX)].
  - apply (sum_1 k M K9 L5); [apply null_times; assumption|exact (one_times k M K9 L5 _ _ HY)|apply null_times; assumption|exact (zero_right _ _ HQ WY)].
  - apply (sum_2 k M K9 L5); [apply null_times; assumption|apply null_times; assumption|exact (one_times k M K9 L5 _ _ HZ)|exact (zero_right _ _ HQ WZ)].
  - apply sum_3; [rewrite Rabs_R0; lra|apply null_times; assumption|apply null_times; assumption|apply null_times; assumption|exact (one_exact 0 _ ltac:(auto) HQ)].
Qed.
Lemma moved_point m i p : (i < 4)%nat -> row k m i p M 1 -> row (k + 2) (times m (translation tx ty tz)) i (shifted_point (val tx) (val ty) (val tz) p) (M + T) 1.
Proof.
  intros I R. assert (K9 : (0 <= k <= 90)%R) by lra. assert (L5 : (1 <= M <= 562949953421312)%R) by lra. destruct (row_within k M 1 K9 L5 ltac:(auto) m i p R) as (W0 & W1 & W2 & W3).
  destruct p as [[X Y] Z]. destruct R as (HX & HY & HZ & HQ). unfold row, shifted_point. rewrite !cell_times by (exact I || lia). unfold row_times. cbn [cell translation nth]. fold (cell m i 0) (cell m i 1) (cell m i 2) (cell m i 3).
  assert (A : forall x y Q t, est k x Q M -> est 0 t (val t) T -> y = mul32 t (cell m i 3) -> est (k + 2) (add32 x y) (Q + val t) (M + T)).
  { intros x y Q t E D ->. pose proof (proj1 (est_times_one 0 _ _ _ T ltac:(lra) ltac:(lra) D HQ)) as D1. apply (est_weaken 0 k _ _ T T ltac:(lra) ltac:(lra)) in D1. exact (est_add k _ _ _ _ M T ltac:(lra) ltac:(lra) ltac:(lra) E D1). }
  split; [|split; [|split]].
  - apply A; [|exact EX|reflexivity]. apply plus_zero; [lra|lra| |apply null_times; assumption]. apply plus_zero; [lra|lra| |apply null_times; assumption]. exact (one_times k M K9 L5 _ _ HX).
  - apply A; [|exact EY|reflexivity]. apply plus_zero; [lra|lra| |apply null_times; assumption]. apply zero_plus; [lra|lra| |apply null_times; assumption]. exact (one_times k M K9 L5 _ _ HY).
  - apply A; [|exact EZ|reflexivity]. apply zero_plus; [lra|lra| |apply zeros; apply null_times; assumption]. exact (one_times k M K9 L5 _ _ HZ).
  - apply sum_3; [rewrite Rabs_R1; lra|apply null_times; assumption|apply null_times; assumption|apply null_times; assumption|exact (one_exact 1 _ ltac:(auto) HQ)].
Qed.
End Moved.

(** ** The whole matrix *)
Lemma first_rows tx ty tz T : (1 <= T)%R -> est 0 tx (val tx) T -> est 0 ty (val ty) T -> est 0 tz (val tz) T ->
  row 0 (translation tx ty tz) 0 (1, 0, 0)%R 1 0 /\ row 0 (translation tx ty tz) 1 (0, 1, 0)%R 1 0 /\ row 0 (translation tx ty tz) 2 (0, 0, 1)%R 1 0 /\ row 0 (translation tx ty tz) 3 (val tx, val ty, val tz) T 1.
Proof.
  intros LT EX EY EZ. assert (E1 : est 0 f32_one 1 1) by (destruct one_val as [F V]; split; [exact F|]; split; [lra|]; rewrite V, Rabs_R1, Rminus_diag_eq, Rabs_R0 by reflexivity; lra). pose proof est_zero as E0.
  unfold row. cbn [cell translation nth]. split; [|split; [|split]]; (split; [|split; [|split]]); lazymatch goal with |- est _ f32_one _ _ => exact E1 | |- est _ f32_zero _ _ => exact E0 | |- exactly f32_zero _ => exact zero_val | |- exactly f32_one _ => exact one_val | |- _ => assumption end.
Qed.
Section World.
Variable sin cos : f32 -> f32.
Variable a2 a1 a0 a8 a7 a6 : f32.
Hypothesis C2 : within 0 (cos a2). Hypothesis S2 : within 0 (sin a2).
Hypothesis C1 : within 0 (cos a1). Hypothesis S1 : within 0 (sin a1).
Hypothesis C0 : within 0 (cos a0). Hypothesis S0 : within 0 (sin a0).
Hypothesis C8 : within 0 (cos a8). Hypothesis S8 : within 0 (sin a8).
Hypothesis C7 : within 0 (cos a7). Hypothesis S7 : within 0 (sin a7).
Hypothesis C6 : within 0 (cos a6). Hypothesis S6 : within 0 (sin a6).
Definition turns (m : Matrix) : Matrix :=
  times (times (times (times (times (times m (rotate_z sin cos a2)) (rotate_y sin cos a1)) (rotate_x sin cos a0)) (rotate_z sin cos a8)) (rotate_y sin cos a7)) (rotate_x sin cos a6).
Definition turn_all (p : R * R * R) : R * R * R :=
  about_x (val (cos a6)) (val (sin a6)) (about_y (val (cos a7)) (val (sin a7)) (about_z (val (cos a8)) (val (sin a8)) (about_x (val (cos a0)) (val (sin a0)) (about_y (val (cos a1)) (val (sin a1)) (about_z (val (cos a2)) (val (sin a2)) p))))).
Lemma row_eq k k' m i p M M' w : k = k' -> M = M' -> row k m i p M w -> row k' m i p M' w.
Proof. intros -> ->. exact (fun H => H). Qed.
Lemma turned_row_all m i p M w : (i < 4)%nat -> (1 <= M <= 1073741824)%R -> (w = 0 \/ w = 1)%R -> row 0 m i p M w -> row 24 (turns m) i (turn_all p) (64 * M) w.
Proof.
  intros I LM HW R. apply (row_z sin cos a2 C2 S2 0 M w ltac:(lra) ltac:(lra) HW _ _ _ I) in R. apply (row_eq (0 + 4) 4 _ _ _ (2 * (M)) (2 * M) _ ltac:(lra) ltac:(lra)) in R.
  apply (row_y sin cos a1 C1 S1 4 (2 * M) w ltac:(lra) ltac:(lra) HW _ _ _ I) in R. apply (row_eq (4 + 4) 8 _ _ _ (2 * (2 * M)) (4 * M) _ ltac:(lra) ltac:(lra)) in R.
  apply (row_x sin cos a0 C0 S0 8 (4 * M) w ltac:(lra) ltac:(lra) HW _ _ _ I) in R. apply (row_eq (8 + 4) 12 _ _ _ (2 * (4 * M)) (8 * M) _ ltac:(lra) ltac:(lra)) in R.
  apply (row_z sin cos a8 C8 S8 12 (8 * M) w ltac:(lra) ltac:(lra) HW _ _ _ I) in R. apply (row_eq (12 + 4) 16 _ _ _ (2 * (8 * M)) (16 * M) _ ltac:(lra) ltac:(lra)) in R.
  apply (row_y sin cos a7 C7 S7 16 (16 * M) w ltac:(lra) ltac:(lra) HW _ _ _ I) in R. apply (row_eq (16 + 4) 20 _ _ _ (2 * (16 * M)) (32 * M) _ ltac:(lra) ltac:(lra)) in R.
  apply (row_x sin cos a6 C6 S6 20 (32 * M) w ltac:(lra) ltac:(lra) HW _ _ _ I) in R. apply (row_eq (20 + 4) 24 _ _ _ (2 * (32 * M)) (64 * M) _ ltac:(lra) ltac:(lra)) in R. exact R.
Qed.
(** Turning keeps sums and multiples *)
Definition comb (x y z : R) (p0 p1 p2 p3 : R * R * R) : R * R * R :=
  let '(a0, b0, c0) := p0 in let '(a1, b1, c1) := p1 in let '(a2, b2, c2) := p2 in let '(a3, b3, c3) := p3 in (x * a0 + y * a1 + z * a2 + a3, x * b0 + y * b1 + z * b2 + b3, x * c0 + y * c1 + z * c2 + c3)%R.
Lemma comb_x c s x y z p0 p1 p2 p3 : comb x y z (about_x c s p0) (about_x c s p1) (about_x c s p2) (about_x c s p3) = about_x c s (comb x y z p0 p1 p2 p3).
Proof. destruct p0 as [[? ?] ?], p1 as [[? ?] ?], p2 as [[? ?] ?], p3 as [[? ?] ?]. unfold comb, about_x. apply f_equal2; [apply f_equal2|]; ring. Qed.
Lemma comb_y c s x y z p0 p1 p2 p3 : comb x y z (about_y c s p0) (about_y c s p1) (about_y c s p2) (about_y c s p3) = about_y c s (comb x y z p0 p1 p2 p3).
Proof. destruct p0 as [[? ?] ?], p1 as [[? ?] ?], p2 as [[? ?] ?], p3 as [[? ?] ?]. unfold comb, about_y. apply f_equal2; [apply f_equal2|]; ring. Qed.
Lemma comb_z c s x y z p0 p1 p2 p3 : comb x y z (about_z c s p0) (about_z c s p1) (about_z c s p2) (about_z c s p3) = about_z c s (comb x y z p0 p1 p2 p3).
Proof. destruct p0 as [[? ?] ?], p1 as [[? ?] ?], p2 as [[? ?] ?], p3 as [[? ?] ?]. unfold comb, about_z. apply f_equal2; [apply f_equal2|]; ring. Qed.
Lemma comb_all x y z p0 p1 p2 p3 : comb x y z (turn_all p0) (turn_all p1) (turn_all p2) (turn_all p3) = turn_all (comb x y z p0 p1 p2 p3).
Proof. unfold turn_all. rewrite comb_x, comb_y, comb_z, comb_x, comb_y, comb_z. reflexivity. Qed.
End World.
Lemma transformed_comb k m v b M M3 p0 p1 p2 p3 X Y Z : (0 <= k <= 80)%R -> (1 <= b <= 1024)%R -> (1 <= M <= 1099511627776)%R -> (1 <= M3 <= 1099511627776)%R -> est 0 (vec_x v) X b -> est 0 (vec_y v) Y b -> est 0 (vec_z v) Z b ->
  row k m 0 p0 M 0 -> row k m 1 p1 M 0 -> row k m 2 p2 M 0 -> row k m 3 p3 M3 1 ->
  (3 * (M * b) + M3 <= 1125899906842624)%R ->
  let '(A, B, C) := comb X Y Z p0 p1 p2 p3 in turned3 (k + 8) (transform_vertex m v) A B C (3 * (M * b) + M3).
Proof.
  intros K LB LM LM3 EX EY EZ R0 R1 R2 R3 TL. destruct p0 as [[a0 b0] c0], p1 as [[a1 b1] c1], p2 as [[a2 b2] c2], p3 as [[a3 b3] c3]. destruct R0 as (A0 & A1 & A2 & A3), R1 as (B0 & B1 & B2 & B3), R2 as (D0 & D1 & D2 & D3), R3 as (F0 & F1 & F2 & F3). unfold comb.
  assert (MB : (1 <= M * b)%R) by (rewrite <- (Rmult_1_l 1); apply Rmult_le_compat; lra).
  assert (P : forall c Q x V, est k c Q M -> est 0 x V b -> est (k + 2) (mul32 c x) (V * Q) (M * b)).
  { intros c Q x V E D. pose proof (est_mul k 0 _ _ _ _ M b ltac:(lra) ltac:(lra) ltac:(lra) ltac:(lra) E D) as T. rewrite (Rmult_comm V Q). apply (est_weaken (k + 0 + 2) (k + 2) _ _ (M * b)); [lra|lra|exact T]. }
  assert (G : forall l q0 q1 q2 q3, est k (cell m 0 l) q0 M -> est k (cell m 1 l) q1 M -> est k (cell m 2 l) q2 M -> est k (cell m 3 l) q3 M3 -> est (k + 8) (affine m v l) (X * q0 + Y * q1 + Z * q2 + q3) (3 * (M * b) + M3)).
  { intros l q0 q1 q2 q3 E0 E1 E2 E3. unfold affine. pose proof (est_add (k + 2) _ _ _ _ (M * b) (M * b) ltac:(lra) ltac:(lra) ltac:(lra) (P _ _ _ _ E0 EX) (P _ _ _ _ E1 EY)) as T1.
    pose proof (est_add (k + 2 + 2) _ _ _ _ (M * b + M * b) (M * b) ltac:(lra) ltac:(lra) ltac:(lra) T1 (est_weaken (k + 2) (k + 2 + 2) _ _ (M * b) (M * b) ltac:(lra) ltac:(lra) (P _ _ _ _ E2 EZ))) as T2.
    pose proof (est_add (k + 2 + 2 + 2) _ _ _ _ (M * b + M * b + M * b) M3 ltac:(lra) ltac:(lra) ltac:(lra) T2 (est_weaken k (k + 2 + 2 + 2) _ _ M3 M3 ltac:(lra) ltac:(lra) E3)) as T3.
    apply (est_weaken (k + 2 + 2 + 2 + 2) (k + 8) _ _ (M * b + M * b + M * b + M3)); [lra|lra|exact T3]. }
  assert (WX : within 51 (vec_x v)) by (exact (est_within 0 _ _ _ ltac:(lra) EX ltac:(lra))). assert (WY : within 51 (vec_y v)) by (exact (est_within 0 _ _ _ ltac:(lra) EY ltac:(lra))). assert (WZ : within 51 (vec_z v)) by (exact (est_within 0 _ _ _ ltac:(lra) EZ ltac:(lra))).
  assert (W : exactly (affine m v 3) 1).
  { unfold affine. apply (zero_sum _ _ 1); [|exact F3|rewrite Rabs_R1; lra]. apply zeros; [apply zeros|]; apply zero_left; assumption. }
  unfold turned3, transform_vertex. cbv zeta. cbn [vec_x vec_y vec_z]. split; [|split]; (apply transformed; [lra|lra| |exact W]); apply G; assumption.
Qed.
Lemma comb_scaled x y z s0 s1 s2 p0 p1 p2 p3 d e f : comb x y z (scaled_point s0 p0) (scaled_point s1 p1) (scaled_point s2 p2) (shifted_point d e f p3) = shifted_point d e f (comb (x * s0) (y * s1) (z * s2) p0 p1 p2 p3).
Proof. destruct p0 as [[? ?] ?], p1 as [[? ?] ?], p2 as [[? ?] ?], p3 as [[? ?] ?]. unfold comb, scaled_point, shifted_point. apply f_equal2; [apply f_equal2|]; ring. Qed.
Lemma comb_axes x y z a b c : comb x y z (1, 0, 0)%R (0, 1, 0)%R (0, 0, 1)%R (a, b, c) = (x + a, y + b, z + c)%R.
Proof. unfold comb. apply f_equal2; [apply f_equal2|]; ring. Qed.
Lemma world_abstract sin cos a0 a1 a2 a6 a7 a8 t3 t4 t5 px py pz sx sy sz b S D v X Y Z : (1 <= b <= 1024)%R -> (1 <= S <= 1048576)%R -> (1 <= D <= 1048576)%R -> est 0 (vec_x v) X b -> est 0 (vec_y v) Y b -> est 0 (vec_z v) Z b ->
  within 0 (cos a0) -> within 0 (sin a0) -> within 0 (cos a1) -> within 0 (sin a1) -> within 0 (cos a2) -> within 0 (sin a2) -> within 0 (cos a6) -> within 0 (sin a6) -> within 0 (cos a7) -> within 0 (sin a7) -> within 0 (cos a8) -> within 0 (sin a8) ->
  est 0 t3 (val t3) D -> est 0 t4 (val t4) D -> est 0 t5 (val t5) D -> est 0 px (val px) D -> est 0 py (val py) D -> est 0 pz (val pz) D -> est 0 sx (val sx) S -> est 0 sy (val sy) S -> est 0 sz (val sz) S ->
  let '(A, B, C) := shifted_point (val px) (val py) (val pz) (turn_all sin cos a2 a1 a0 a8 a7 a6 (val sx * X + val t3, val sy * Y + val t4, val sz * Z + val t5)%R) in
  turned3 34 (transform_vertex (times (times (scaling sx sy sz) (turns sin cos a2 a1 a0 a8 a7 a6 (translation t3 t4 t5))) (translation px py pz)) v) A B C (3 * (64 * S * b) + (64 * D + D)).
Proof.
  intros LB LS LD EX EY EZ C0 S0 C1 S1 C2 S2 C6 S6 C7 S7 C8 S8 E3 E4 E5 PX PY PZ SX SY SZ. destruct (first_rows t3 t4 t5 D (proj1 LD) E3 E4 E5) as (R0 & R1 & R2 & R3).
  apply (turned_row_all sin cos a2 a1 a0 a8 a7 a6 C2 S2 C1 S1 C0 S0 C8 S8 C7 S7 C6 S6 _ 0 _ 1 0 ltac:(lia) ltac:(lra) ltac:(auto)) in R0. apply (turned_row_all sin cos a2 a1 a0 a8 a7 a6 C2 S2 C1 S1 C0 S0 C8 S8 C7 S7 C6 S6 _ 1 _ 1 0 ltac:(lia) ltac:(lra) ltac:(auto)) in R1. apply (turned_row_all sin cos a2 a1 a0 a8 a7 a6 C2 S2 C1 S1 C0 S0 C8 S8 C7 S7 C6 S6 _ 2 _ 1 0 ltac:(lia) ltac:(lra) ltac:(auto)) in R2. apply (turned_row_all sin cos a2 a1 a0 a8 a7 a6 C2 S2 C1 S1 C0 S0 C8 S8 C7 S7 C6 S6 _ 3 _ D 1 ltac:(lia) ltac:(lra) ltac:(auto)) in R3.
  set (m := turns sin cos a2 a1 a0 a8 a7 a6 (translation t3 t4 t5)) in *. clearbody m.
  assert (L24 : (0 <= 24 <= 80)%R) by lra. assert (L64 : (1 <= 64 * 1 <= 1048576)%R) by lra. assert (LD3 : (1 <= 64 * D <= 562949953421312)%R) by lra.
  pose proof (scaled_0 24 (64 * 1) (64 * D) S L24 L64 LD3 LS sx sy sz SX m _ _ _ _ R0 R1 R2 R3) as Q0. pose proof (scaled_1 24 (64 * 1) (64 * D) S L24 L64 LD3 LS sx sy sz SY m _ _ _ _ R0 R1 R2 R3) as Q1.
  pose proof (scaled_2 24 (64 * 1) (64 * D) S L24 L64 LD3 LS sx sy sz SZ m _ _ _ _ R0 R1 R2 R3) as Q2. pose proof (scaled_3 24 (64 * 1) (64 * D) L24 L64 LD3 sx sy sz m _ _ _ _ R0 R1 R2 R3) as Q3.
  apply (row_eq (24 + 2) 26 _ _ _ (64 * 1 * S) (64 * S) _ ltac:(lra) ltac:(lra)) in Q0, Q1, Q2. set (n := times (scaling sx sy sz) m) in *. clearbody n. clear R0 R1 R2 R3.
  apply (moved_direction 26 (64 * S) D ltac:(lra) ltac:(lra) LD px py pz PX PY PZ n 0 _ ltac:(lia)) in Q0. apply (moved_direction 26 (64 * S) D ltac:(lra) ltac:(lra) LD px py pz PX PY PZ n 1 _ ltac:(lia)) in Q1. apply (moved_direction 26 (64 * S) D ltac:(lra) ltac:(lra) LD px py pz PX PY PZ n 2 _ ltac:(lia)) in Q2. apply (moved_point 24 (64 * D) D ltac:(lra) ltac:(lra) LD px py pz PX PY PZ n 3 _ ltac:(lia)) in Q3.
  apply (row_eq (24 + 2) 26 _ _ _ (64 * D + D) (64 * D + D) _ ltac:(lra) ltac:(lra)) in Q3. assert (TL : (3 * (64 * S * b) + (64 * D + D) <= 1125899906842624)%R).
  { assert (S * b <= 1073741824)%R by (replace 1073741824%R with (1048576 * 1024)%R by lra; apply Rmult_le_compat; lra). lra. }
  pose proof (transformed_comb 26 _ v b (64 * S) (64 * D + D) _ _ _ _ X Y Z ltac:(lra) LB ltac:(lra) ltac:(lra) EX EY EZ Q0 Q1 Q2 Q3 TL) as H. rewrite comb_scaled, comb_all, comb_axes in H. rewrite (Rmult_comm X), (Rmult_comm Y), (Rmult_comm Z) in H.
  destruct (turn_all sin cos a2 a1 a0 a8 a7 a6 (val sx * X + val t3, val sy * Y + val t4, val sz * Z + val t5)%R) as [[A B] C]. destruct H as (H1 & H2 & H3). replace (26 + 8)%R with 34%R in * by lra. split; [exact H1|]. split; [exact H2|exact H3].
Qed.
Section Primitive.
Variable T : export_tools.
Notation sin := (et_sin T). Notation cos := (et_cos T).
Hypothesis BS : bounded_function sin.
Hypothesis BC : bounded_function cos.
Variable b S D : R.
Hypothesis LB : (1 <= b <= 1024)%R.
Hypothesis LS : (1 <= S <= 1048576)%R.
Hypothesis LD : (1 <= D <= 1048576)%R.
Variable p : Primitive.
Hypothesis HA : Forall moderate (primitive_angles p).
Hypothesis HM : Forall (up_to D) (primitive_moves p).
Hypothesis HS : Forall (up_to S) (primitive_sizes p).
Lemma up_val c x : (1 <= c)%R -> up_to c x -> est 0 x (val x) c /\ real x = val x.
Proof. intros L U. pose proof (up_est c x L U) as E. destruct U as [F _]. apply finite_fin in F. rewrite real_val in E by exact F. split; [exact E|exact (real_val x F)]. Qed.
Lemma world_place v X Y Z : est 0 (vec_x v) X b -> est 0 (vec_y v) Y b -> est 0 (vec_z v) Z b ->
  let '(A, B, C) := where_primitive_puts sin cos p (X, Y, Z) in turned3 34 (transform_vertex (primitive_world_matrix T p) v) A B C (3 * (64 * S * b) + (64 * D + D)).
Proof.
  intros EX EY EZ. rewrite Forall_forall in HA, HM, HS.
  destruct (angle_units sin cos BS BC (Primitive_rot_and_tra_0 p) ltac:(apply HA; cbn [primitive_angles In]; tauto)) as (C0 & S0 & VC0 & VS0). destruct (angle_units sin cos BS BC (Primitive_rot_and_tra_1 p) ltac:(apply HA; cbn [primitive_angles In]; tauto)) as (C1 & S1 & VC1 & VS1).
  destruct (angle_units sin cos BS BC (Primitive_rot_and_tra_2 p) ltac:(apply HA; cbn [primitive_angles In]; tauto)) as (C2 & S2 & VC2 & VS2). destruct (angle_units sin cos BS BC (Primitive_rot_and_tra_6 p) ltac:(apply HA; cbn [primitive_angles In]; tauto)) as (C6 & S6 & VC6 & VS6).
  destruct (angle_units sin cos BS BC (Primitive_rot_and_tra_7 p) ltac:(apply HA; cbn [primitive_angles In]; tauto)) as (C7 & S7 & VC7 & VS7). destruct (angle_units sin cos BS BC (Primitive_rot_and_tra_8 p) ltac:(apply HA; cbn [primitive_angles In]; tauto)) as (C8 & S8 & VC8 & VS8).
  destruct (up_val D (Primitive_rot_and_tra_3 p) (proj1 LD) ltac:(apply HM; cbn [primitive_moves In]; tauto)) as [E3 V3]. destruct (up_val D (Primitive_rot_and_tra_4 p) (proj1 LD) ltac:(apply HM; cbn [primitive_moves In]; tauto)) as [E4 V4]. destruct (up_val D (Primitive_rot_and_tra_5 p) (proj1 LD) ltac:(apply HM; cbn [primitive_moves In]; tauto)) as [E5 V5].
  destruct (up_val D (v3_x (Primitive_position p)) (proj1 LD) ltac:(apply HM; cbn [primitive_moves In]; tauto)) as [PX VX]. destruct (up_val D (v3_y (Primitive_position p)) (proj1 LD) ltac:(apply HM; cbn [primitive_moves In]; tauto)) as [PY VY]. destruct (up_val D (v3_z (Primitive_position p)) (proj1 LD) ltac:(apply HM; cbn [primitive_moves In]; tauto)) as [PZ VZ].
  destruct (up_val S (v3_x (Primitive_size p)) (proj1 LS) ltac:(apply HS; cbn [primitive_sizes In]; tauto)) as [SX UX]. destruct (up_val S (v3_y (Primitive_size p)) (proj1 LS) ltac:(apply HS; cbn [primitive_sizes In]; tauto)) as [SY UY]. destruct (up_val S (v3_z (Primitive_size p)) (proj1 LS) ltac:(apply HS; cbn [primitive_sizes In]; tauto)) as [SZ UZ].
  unfold where_primitive_puts. cbv zeta. unfold turned_about_x, turned_about_y, turned_about_z, moved_by, scaled_by. rewrite V3, V4, V5, VX, VY, VZ, UX, UY, UZ, <- VC0, <- VS0, <- VC1, <- VS1, <- VC2, <- VS2, <- VC6, <- VS6, <- VC7, <- VS7, <- VC8, <- VS8.
  unfold primitive_world_matrix. cbv zeta. change to_radians with radians. fold (turns sin cos (radians (Primitive_rot_and_tra_2 p)) (radians (Primitive_rot_and_tra_1 p)) (radians (Primitive_rot_and_tra_0 p)) (radians (Primitive_rot_and_tra_8 p)) (radians (Primitive_rot_and_tra_7 p)) (radians (Primitive_rot_and_tra_6 p))
    (translation (Primitive_rot_and_tra_3 p) (Primitive_rot_and_tra_4 p) (Primitive_rot_and_tra_5 p))).
  clear V3 V4 V5 VX VY VZ UX UY UZ VC0 VS0 VC1 VS1 VC2 VS2 VC6 VS6 VC7 VS7 VC8 VS8 HA HM HS.
  revert C0 S0 C1 S1 C2 S2 C6 S6 C7 S7 C8 S8 E3 E4 E5 PX PY PZ SX SY SZ. generalize (radians (Primitive_rot_and_tra_0 p)) (radians (Primitive_rot_and_tra_1 p)) (radians (Primitive_rot_and_tra_2 p)) (radians (Primitive_rot_and_tra_6 p)) (radians (Primitive_rot_and_tra_7 p)) (radians (Primitive_rot_and_tra_8 p))
    (Primitive_rot_and_tra_3 p) (Primitive_rot_and_tra_4 p) (Primitive_rot_and_tra_5 p) (v3_x (Primitive_position p)) (v3_y (Primitive_position p)) (v3_z (Primitive_position p)) (v3_x (Primitive_size p)) (v3_y (Primitive_size p)) (v3_z (Primitive_size p)).
  intros a0 a1 a2 a6 a7 a8 t3 t4 t5 px py pz sx sy sz C0 S0 C1 S1 C2 S2 C6 S6 C7 S7 C8 S8 E3 E4 E5 PX PY PZ SX SY SZ.
  apply (world_abstract sin cos); assumption.
Qed.
Lemma primitive_vertex w : Forall (up_to b) (coordinates_of (w_vertex w)) -> at_vertex place_in ((b * S + D) / 2500) (w_vertex (placed (primitive_world_matrix T p) w)) (where_primitive_puts sin cos p (reals (place_in (w_vertex w)))).
Proof.
  intros U. destruct (vertex_est b (w_vertex w) (proj1 LB) U) as [(EX & EY & EZ) _]. pose proof (world_place _ _ _ _ EX EY EZ) as H. destruct (product_large b S LB LS) as [PL _]. unfold place_in at 2, reals. cbn [place vec_x vec_y vec_z] in H.
  destruct (where_primitive_puts sin cos p (real (v_x (w_vertex w)), real (v_y (w_vertex w)), real (v_z (w_vertex w)))) as [[A B] C]. destruct (turned_close _ _ _ _ _ _ ((b * S + D) / 2500) H) as [Q1 Q2]; [lra|].
  unfold placed. cbv zeta. split; [exact Q1|exact Q2].
Qed.
End Primitive.

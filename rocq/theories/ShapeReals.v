(** Lemmas about copies of shapes: numbers with a bound on their rounding errors. *)
From Verif Require Import Base Text Json Image Sound Quantize ColorText JsonFloat Cfb Mesh SpecMesh Common Enums QuantizeFacts QuantizeMono FlipFacts Browser Builtin SpecBuiltin BuiltinFacts BuiltinReals Polygon SpecPolygon Smooth FloatBounds SmoothFacts SpecSmooth PropertiesSmooth WallsReals RubberMesh RubberReals PropertiesRubber SpecRamps RampReals Transform TransformReals Flats SpecFlats FlatReals BaseFacts ItemHitTarget ItemGate ItemSpinner ItemKicker ItemTrigger Shapes SpecShapes.
From Coq Require Import Reals Lra Floats.SpecFloat ZifyBool.
From Flocq Require Import Core.Core Relative Mult_error IEEE754.BinarySingleNaN.
Local Open Scope Z_scope.

#[local] Instance P24 : FLX.Prec_gt_0 24 := eq_refl.
#[local] Instance M24 : Prec_lt_emax 24 128 := eq_refl.
#[local] Instance vexp24 : Valid_exp fexp24 := fexp_correct 24 128 P24.
#[local] Instance vrnd24 : Valid_rnd (round_mode mode_NE) := valid_rnd_round_mode mode_NE.

Notation unit_error := (/ 16777216)%R.
(** A number that stands for X, at most M, with k errors *)
Definition est (k : R) (x : f32) (X M : R) : Prop := fin x /\ (1 <= M)%R /\ (Rabs X <= M)%R /\ (Rabs (val x - X) <= k * unit_error * M)%R.
Definition exactly (x : f32) (r : R) : Prop := fin x /\ val x = r.
Lemma rnd_self x : rnd (val x) = val x.
Proof. apply round_generic; [exact vrnd24|]. apply generic_format_B2R. Qed.
Lemma pow_50 : (pow2 50 = 1125899906842624)%R. Proof. unfold pow2. cbn [bpow]. reflexivity. Qed.
Lemma pow_51 : (pow2 51 = 2251799813685248)%R. Proof. unfold pow2. cbn [bpow]. reflexivity. Qed.
Lemma est_val k x X M : (0 <= k <= 100)%R -> est k x X M -> (Rabs (val x) <= M + k * unit_error * M)%R.
Proof. intros K (F & L & S & E). replace (val x) with (X + (val x - X))%R by lra. eapply Rle_trans; [apply Rabs_triang|]. lra. Qed.
Lemma est_within k x X M : (0 <= k <= 100)%R -> est k x X M -> (M <= 1125899906842624)%R -> within 51 x.
Proof.
  intros K H L. split; [apply H|]. rewrite pow_51. pose proof (est_val _ _ _ _ K H) as V. destruct H as (_ & L1 & _). assert (k * unit_error * M <= M)%R; [|lra]. assert (k * unit_error <= 1)%R by lra. assert (0 <= k * unit_error)%R by (apply Rmult_le_pos; lra). rewrite <- (Rmult_1_l M) at 2. apply Rmult_le_compat_r; lra.
Qed.
Lemma est_self x M : fin x -> (1 <= M)%R -> (Rabs (val x) <= M)%R -> est 0 x (val x) M.
Proof. intros F L S. split; [exact F|]. split; [exact L|]. split; [exact S|]. rewrite Rminus_diag_eq, Rabs_R0 by reflexivity. lra. Qed.
Lemma est_weaken k k' x X M M' : (0 <= k <= k')%R -> (M <= M')%R -> est k x X M -> est k' x X M'.
Proof.
  intros K L (F & A & B & C). split; [exact F|]. split; [lra|]. split; [lra|]. eapply Rle_trans; [exact C|]. apply Rmult_le_compat; lra.
Qed.
Lemma product_error k j X Y x y M N : (0 <= k <= 100)%R -> (0 <= j <= 100)%R -> (1 <= M)%R -> (1 <= N)%R -> (Rabs X <= M)%R -> (Rabs Y <= N)%R -> (Rabs (x - X) <= k * unit_error * M)%R -> (Rabs (y - Y) <= j * unit_error * N)%R ->
  (Rabs (x * y) <= 1001 / 1000 * (M * N))%R /\ (Rabs (x * y - X * Y) <= (k + j + / 2) * unit_error * (M * N))%R.
Proof.
  intros K J LM LN SX SY EX EY. pose proof (Rabs_pos X) as PX. pose proof (Rabs_pos Y) as PY. pose proof (Rabs_pos (x - X)) as PEX. pose proof (Rabs_pos (y - Y)) as PEY.
  assert (MN : (1 <= M * N)%R) by (rewrite <- (Rmult_1_l 1); apply Rmult_le_compat; lra).
  assert (Q1 : (Rabs (x - X) * Rabs Y <= k * unit_error * (M * N))%R) by (replace (k * unit_error * (M * N))%R with (k * unit_error * M * N)%R by ring; apply Rmult_le_compat; lra).
  assert (Q2 : (Rabs X * Rabs (y - Y) <= j * unit_error * (M * N))%R) by (replace (j * unit_error * (M * N))%R with (M * (j * unit_error * N))%R by ring; apply Rmult_le_compat; lra).
  assert (Q3 : (Rabs (x - X) * Rabs (y - Y) <= / 2 * unit_error * (M * N))%R).
  { eapply Rle_trans; [apply Rmult_le_compat; [lra|lra|exact EX|exact EY]|]. replace (k * unit_error * M * (j * unit_error * N))%R with ((k * j * unit_error) * unit_error * (M * N))%R by ring. apply Rmult_le_compat_r; [lra|]. apply Rmult_le_compat_r; [lra|]. assert (k * j <= 100 * 100)%R by (apply Rmult_le_compat; lra). lra. }
  assert (D : (Rabs (x * y - X * Y) <= (k + j + / 2) * unit_error * (M * N))%R).
  { replace (x * y - X * Y)%R with ((x - X) * Y + X * (y - Y) + (x - X) * (y - Y))%R by ring. eapply Rle_trans; [apply Rabs_triang|]. eapply Rle_trans; [apply Rplus_le_compat_r, Rabs_triang|]. rewrite !Rabs_mult. lra. }
  split; [|exact D]. replace (x * y)%R with (X * Y + (x * y - X * Y))%R by ring. eapply Rle_trans; [apply Rabs_triang|]. rewrite Rabs_mult.
  assert (Rabs X * Rabs Y <= M * N)%R by (apply Rmult_le_compat; lra). assert ((k + j + / 2) * unit_error * (M * N) <= / 1000 * (M * N))%R; [|lra]. apply Rmult_le_compat_r; lra.
Qed.
Lemma est_mul k j x y X Y M N : (0 <= k <= 100)%R -> (0 <= j <= 100)%R -> (M <= 1125899906842624)%R -> (N <= 1125899906842624)%R -> est k x X M -> est j y Y N -> est (k + j + 2) (mul32 x y) (X * Y) (M * N).
Proof.
  intros K J BM BN HX HY. pose proof (est_within _ _ _ _ K HX BM) as WX. pose proof (est_within _ _ _ _ J HY BN) as WY. destruct (mul_val 51 51 x y ltac:(lia) WX WY) as [[F _] V]. destruct HX as (_ & LM & SX & EX), HY as (_ & LN & SY & EY).
  destruct (product_error k j X Y (val x) (val y) M N K J LM LN SX SY EX EY) as [P D]. pose proof (rnd_near _ _ P) as R.
  assert (MN : (1 <= M * N)%R) by (rewrite <- (Rmult_1_l 1); apply Rmult_le_compat; lra).
  split; [exact F|]. split; [exact MN|]. split; [rewrite Rabs_mult; apply Rmult_le_compat; try lra; apply Rabs_pos|].
  rewrite V. replace (rnd (val x * val y) - X * Y)%R with ((rnd (val x * val y) - val x * val y) + (val x * val y - X * Y))%R by ring. eapply Rle_trans; [apply Rabs_triang|]. revert R D MN. generalize (M * N)%R. intros Q R D MN. lra.
Qed.
Lemma est_add k x y X Y M N : (0 <= k <= 100)%R -> (M <= 1125899906842624)%R -> (N <= 1125899906842624)%R -> est k x X M -> est k y Y N -> est (k + 2) (add32 x y) (X + Y) (M + N).
Proof.
  intros K BM BN HX HY. pose proof (est_within _ _ _ _ K HX BM) as WX. pose proof (est_within _ _ _ _ K HY BN) as WY. destruct (add_val 51 x y ltac:(lia) WX WY) as [[F _] V]. pose proof (est_val _ _ _ _ K HX) as VX. pose proof (est_val _ _ _ _ K HY) as VY. destruct HX as (_ & LM & SX & EX), HY as (_ & LN & SY & EY).
  assert (S : (Rabs (val x + val y) <= 1001 / 1000 * (M + N))%R).
  { eapply Rle_trans; [apply Rabs_triang|]. assert (k * unit_error * M <= / 1000 * M)%R by (apply Rmult_le_compat_r; lra). assert (k * unit_error * N <= / 1000 * N)%R by (apply Rmult_le_compat_r; lra). lra. }
  pose proof (rnd_near _ _ S) as R. split; [exact F|]. split; [lra|]. split; [eapply Rle_trans; [apply Rabs_triang|]; lra|].
  rewrite V. replace (rnd (val x + val y) - (X + Y))%R with ((rnd (val x + val y) - (val x + val y)) + ((val x - X) + (val y - Y)))%R by ring. eapply Rle_trans; [apply Rabs_triang|]. eapply Rle_trans; [apply Rplus_le_compat_l, Rabs_triang|]. lra.
Qed.
(** Zeros and ones *)
Lemma exactly_within x r : exactly x r -> (Rabs r <= 1)%R -> within 51 x.
Proof. intros [F V] L. split; [exact F|]. rewrite V, pow_51. lra. Qed.
Lemma zero_left x y : exactly x 0 -> within 51 y -> exactly (mul32 x y) 0.
Proof. intros E W. pose proof (exactly_within _ _ E ltac:(rewrite Rabs_R0; lra)) as WX. destruct (mul_val 51 51 x y ltac:(lia) WX W) as [[F _] V]. split; [exact F|]. rewrite V, (proj2 E), Rmult_0_l. apply round_0. exact vrnd24. Qed.
Lemma zero_right x y : exactly y 0 -> within 51 x -> exactly (mul32 x y) 0.
Proof. intros E W. pose proof (exactly_within _ _ E ltac:(rewrite Rabs_R0; lra)) as WX. destruct (mul_val 51 51 x y ltac:(lia) W WX) as [[F _] V]. split; [exact F|]. rewrite V, (proj2 E), Rmult_0_r. apply round_0. exact vrnd24. Qed.
Lemma zero_sum x y r : exactly x 0 -> exactly y r -> (Rabs r <= 1)%R -> exactly (add32 x y) r.
Proof. intros E D L. pose proof (exactly_within _ _ E ltac:(rewrite Rabs_R0; lra)) as WX. pose proof (exactly_within _ _ D L) as WY. destruct (add_val 51 x y ltac:(lia) WX WY) as [[F _] V]. split; [exact F|]. rewrite V, (proj2 E), Rplus_0_l, <- (proj2 D). apply rnd_self. Qed.
Lemma ones x y : exactly x 1 -> exactly y 1 -> exactly (mul32 x y) 1.
Proof. intros E D. pose proof (exactly_within _ _ E ltac:(rewrite Rabs_R1; lra)) as WX. pose proof (exactly_within _ _ D ltac:(rewrite Rabs_R1; lra)) as WY. destruct (mul_val 51 51 x y ltac:(lia) WX WY) as [[F _] V]. split; [exact F|]. rewrite V, (proj2 E), (proj2 D), Rmult_1_l, <- (proj2 D). apply rnd_self. Qed.
Lemma one_over x : exactly x 1 -> exactly (div32 f32_one x) 1.
Proof.
  intros [F V]. destruct (div_val 0 0 f32_one x ltac:(lia)) as [[F' _] V']; [split; [apply one_val|rewrite (proj2 one_val), Rabs_R1; unfold pow2; cbn [bpow]; lra]|rewrite V, Rabs_R1; unfold pow2; cbn [bpow]; lra|]. split; [exact F'|]. rewrite V', V, (proj2 one_val). replace (1 / 1)%R with 1%R by lra. rewrite <- (proj2 one_val). apply rnd_self.
Qed.
Lemma est_plus_zero k x y X M : (0 <= k <= 100)%R -> (M <= 1125899906842624)%R -> est k x X M -> exactly y 0 -> est k (add32 x y) X M /\ est k (add32 y x) X M.
Proof.
  intros K B H E. pose proof (est_within _ _ _ _ K H B) as W. pose proof (exactly_within _ _ E ltac:(rewrite Rabs_R0; lra)) as WY. destruct (add_val 51 x y ltac:(lia) W WY) as [[F1 _] V1]. destruct (add_val 51 y x ltac:(lia) WY W) as [[F2 _] V2]. destruct H as (F & A & S & D). rewrite (proj2 E), Rplus_0_r, rnd_self in V1. rewrite (proj2 E), Rplus_0_l, rnd_self in V2.
  split; [split; [exact F1|rewrite V1; auto]|split; [exact F2|rewrite V2; auto]].
Qed.
Lemma est_times_one k x y X M : (0 <= k <= 100)%R -> (M <= 1125899906842624)%R -> est k x X M -> exactly y 1 -> est k (mul32 x y) X M /\ est k (mul32 y x) X M.
Proof.
  intros K B H E. pose proof (est_within _ _ _ _ K H B) as W. pose proof (exactly_within _ _ E ltac:(rewrite Rabs_R1; lra)) as WY. destruct (mul_val 51 51 x y ltac:(lia) W WY) as [[F1 _] V1]. destruct (mul_val 51 51 y x ltac:(lia) WY W) as [[F2 _] V2]. destruct H as (F & A & S & D). rewrite (proj2 E), Rmult_1_r, rnd_self in V1. rewrite (proj2 E), Rmult_1_l, rnd_self in V2.
  split; [split; [exact F1|rewrite V1; auto]|split; [exact F2|rewrite V2; auto]].
Qed.

(** A turn about the z axis: x' = c x - s y *)
Section Turn.
Variable c s : f32.
Hypothesis WC : within 0 c.
Hypothesis WS : within 0 s.
Lemma unit_est x : within 0 x -> est 0 x (val x) 1 /\ est 0 (neg_f32 x) (- val x) 1.
Proof.
  intros [F L]. assert (L1 : (Rabs (val x) <= 1)%R) by (revert L; unfold pow2; cbn [bpow]; lra). destruct (neg_val x F) as [FN VN]. split; [apply est_self; [exact F|lra|exact L1]|]. rewrite <- VN. apply est_self; [exact FN|lra|]. rewrite VN, Rabs_Ropp. exact L1.
Qed.
Lemma pair_est k a b x y A B X Y M : (0 <= k <= 50)%R -> (M <= 562949953421312)%R -> est k a A M -> est k b B M -> est 0 x X 1 -> est 0 y Y 1 -> est (k + 4) (add32 (mul32 x a) (mul32 y b)) (X * A + Y * B) (2 * M).
Proof.
  intros K L HA HB HX HY. pose proof (est_mul 0 k _ _ _ _ 1 M ltac:(lra) ltac:(lra) ltac:(lra) ltac:(lra) HX HA) as P. pose proof (est_mul 0 k _ _ _ _ 1 M ltac:(lra) ltac:(lra) ltac:(lra) ltac:(lra) HY HB) as Q. rewrite Rmult_1_l in P, Q.
  pose proof (est_add (0 + k + 2) _ _ _ _ M M ltac:(lra) ltac:(lra) ltac:(lra) P Q) as R. apply (est_weaken (0 + k + 2 + 2) (k + 4) _ _ (M + M)); [lra|lra|exact R].
Qed.
Definition turned3 (k : R) (p : Vec3) (X Y Z M : R) : Prop := est k (vec_x p) X M /\ est k (vec_y p) Y M /\ est k (vec_z p) Z M.
Lemma turn_rows k x y z X Y Z M : (0 <= k <= 50)%R -> (M <= 562949953421312)%R -> est k x X M -> est k y Y M -> est k z Z M ->
  est (k + 4) (turned_row c (neg_f32 s) f32_zero x y z) (X * val c - Y * val s) (2 * M) /\ est (k + 4) (turned_row s c f32_zero x y z) (X * val s + Y * val c) (2 * M) /\
  est k (turned_row f32_zero f32_zero f32_one x y z) Z M /\ exactly (turned_row f32_zero f32_zero f32_zero x y z) 0.
Proof.
  intros K L HX HY HZ. destruct (unit_est c WC) as [C1 _]. destruct (unit_est s WS) as [S1 S2]. assert (KK : (0 <= k <= 100)%R) by lra. assert (LL : (M <= 1125899906842624)%R) by lra.
  pose proof (est_within _ _ _ _ KK HX LL) as WX. pose proof (est_within _ _ _ _ KK HY LL) as WY. pose proof (est_within _ _ _ _ KK HZ LL) as WZ.
  pose proof (zero_left _ _ zero_val WX) as ZX. pose proof (zero_left _ _ zero_val WY) as ZY. pose proof (zero_left _ _ zero_val WZ) as ZZ. pose proof (zero_sum _ _ _ ZX ZY ltac:(rewrite Rabs_R0; lra)) as ZXY. unfold turned_row.
  split; [|split; [|split]].
  - pose proof (pair_est k _ _ _ _ _ _ _ _ M K L HX HY C1 S2) as P. replace (X * val c - Y * val s)%R with (val c * X + - val s * Y)%R by ring. exact (proj1 (est_plus_zero (k + 4) _ _ _ (2 * M)%R ltac:(lra) ltac:(lra) P ZZ)).
  - pose proof (pair_est k _ _ _ _ _ _ _ _ M K L HX HY S1 C1) as P. replace (X * val s + Y * val c)%R with (val s * X + val c * Y)%R by ring. exact (proj1 (est_plus_zero (k + 4) _ _ _ (2 * M)%R ltac:(lra) ltac:(lra) P ZZ)).
  - pose proof (proj2 (est_times_one k _ _ _ _ KK LL HZ one_val)) as P. exact (proj2 (est_plus_zero k _ _ _ _ KK LL P ZXY)).
  - exact (zero_sum _ _ _ ZXY ZZ ltac:(rewrite Rabs_R0; lra)).
Qed.
End Turn.

(** The 4x4 matrices *)
Lemma affine_plain m v l : affine m v l = add32 (turned_row (cell m 0 l) (cell m 1 l) (cell m 2 l) (vec_x v) (vec_y v) (vec_z v)) (cell m 3 l).
Proof. reflexivity. Qed.
Lemma transformed k m v X l M : (0 <= k <= 100)%R -> (M <= 1125899906842624)%R -> est k (affine m v l) X M -> exactly (affine m v 3) 1 -> est k (mul32 (affine m v l) (div32 f32_one (affine m v 3))) X M.
Proof. intros K L H E. exact (proj1 (est_times_one k _ _ _ _ K L H (one_over _ E))). Qed.
Lemma turn_matrix sin cos a k v X Y Z M : within 0 (cos a) -> within 0 (sin a) -> (0 <= k <= 50)%R -> (M <= 562949953421312)%R -> est k (vec_x v) X M -> est k (vec_y v) Y M -> est k (vec_z v) Z M ->
  turned3 (k + 4) (transform_vertex (rotate_z sin cos a) v) (X * val (cos a) - Y * val (sin a)) (X * val (sin a) + Y * val (cos a)) Z (2 * M).
Proof.
  intros WC WS K L HX HY HZ. destruct (turn_rows (cos a) (sin a) WC WS k _ _ _ _ _ _ M K L HX HY HZ) as (R1 & R2 & R3 & R0).
  assert (W : exactly (affine (rotate_z sin cos a) v 3) 1) by (rewrite affine_plain; exact (zero_sum _ _ _ R0 one_val ltac:(rewrite Rabs_R1; lra))).
  unfold turned3, transform_vertex. cbv zeta. cbn [vec_x vec_y vec_z]. split; [|split]; (apply transformed; [lra|lra| |exact W]); rewrite affine_plain.
  - exact (proj1 (est_plus_zero (k + 4) _ _ _ (2 * M)%R ltac:(lra) ltac:(lra) R1 zero_val)).
  - exact (proj1 (est_plus_zero (k + 4) _ _ _ (2 * M)%R ltac:(lra) ltac:(lra) R2 zero_val)).
  - apply (est_weaken k (k + 4) _ _ M); [lra|destruct HZ as (_ & HM & _); lra|]. exact (proj1 (est_plus_zero k _ _ _ M ltac:(lra) ltac:(lra) R3 zero_val)).
Qed.
Lemma turn_normal sin cos a k v X Y Z M : within 0 (cos a) -> within 0 (sin a) -> (0 <= k <= 50)%R -> (M <= 562949953421312)%R -> est k (vec_x v) X M -> est k (vec_y v) Y M -> est k (vec_z v) Z M ->
  turned3 (k + 4) (transform_normal (rotate_z sin cos a) v) (X * val (cos a) - Y * val (sin a)) (X * val (sin a) + Y * val (cos a)) Z (2 * M) /\
  turned3 (k + 4) (turn3 sin cos a v) (X * val (cos a) - Y * val (sin a)) (X * val (sin a) + Y * val (cos a)) Z (2 * M).
Proof.
  intros WC WS K L HX HY HZ. destruct (turn_rows (cos a) (sin a) WC WS k _ _ _ _ _ _ M K L HX HY HZ) as (R1 & R2 & R3 & _). assert (M1 : (1 <= M)%R) by apply HZ. apply (est_weaken k (k + 4) _ _ M (2 * M)) in R3; [|lra|lra].
  split; (split; [exact R1|]; split; [exact R2|exact R3]).
Qed.
Lemma scaled3 k j p x y z A B C X Y Z M N : (0 <= k <= 100)%R -> (0 <= j <= 100)%R -> (M <= 1125899906842624)%R -> (N <= 1125899906842624)%R -> turned3 k p A B C M -> est j x X N -> est j y Y N -> est j z Z N ->
  turned3 (k + j + 2) (each_by p x y z) (A * X) (B * Y) (C * Z) (M * N).
Proof. intros K J LM LN (HA & HB & HC) HX HY HZ. split; [|split]; cbn [each_by vec_x vec_y vec_z]; apply est_mul; assumption. Qed.
(** The bracket of a gate: a product of two matrices *)
Lemma product_cells sin cos a l : within 0 (cos a) -> within 0 (sin a) -> within 20 l -> let m := times (rotate_z sin cos a) (scaling l l l) in forall N, (1 <= N)%R -> (Rabs (val l) <= N)%R -> (N <= 1048576)%R ->
  (est 2 (cell m 0 0) (val l * val (cos a)) N /\ est 2 (cell m 1 0) (val l * - val (sin a)) N /\ exactly (cell m 2 0) 0 /\ exactly (cell m 3 0) 0) /\
  (est 2 (cell m 0 1) (val l * val (sin a)) N /\ est 2 (cell m 1 1) (val l * val (cos a)) N /\ exactly (cell m 2 1) 0 /\ exactly (cell m 3 1) 0) /\
  (exactly (cell m 0 2) 0 /\ exactly (cell m 1 2) 0 /\ est 2 (cell m 2 2) (val l) N /\ exactly (cell m 3 2) 0) /\
  (exactly (cell m 0 3) 0 /\ exactly (cell m 1 3) 0 /\ exactly (cell m 2 3) 0 /\ exactly (cell m 3 3) 1).
Proof.
  intros WC WS WL. cbv zeta. intros N N1 NL N2. assert (EL : est 0 l (val l) N) by (apply est_self; [apply WL|exact N1|exact NL]).
  destruct (unit_est _ WC) as [C1 _]. destruct (unit_est _ WS) as [S1 S2].
  assert (H51 : within 51 (cos a) /\ within 51 (sin a) /\ within 51 (neg_f32 (sin a)) /\ within 51 l /\ within 51 f32_zero /\ within 51 f32_one).
  { split; [apply (within_mono 0); [lia|exact WC]|]. split; [apply (within_mono 0); [lia|exact WS]|]. split; [exact (est_within 0 _ _ 1 ltac:(lra) S2 ltac:(lra))|]. split; [apply (within_mono 20); [lia|exact WL]|]. split; [exact (exactly_within _ _ zero_val ltac:(rewrite Rabs_R0; lra))|exact (exactly_within _ _ one_val ltac:(rewrite Rabs_R1; lra))]. }
  destruct H51 as (W1 & W2 & W3 & W4 & W5 & W6).
  assert (Z2 : forall x y, exactly x 0 -> exactly y 0 -> exactly (add32 x y) 0) by (intros x y A B; exact (zero_sum _ _ _ A B ltac:(rewrite Rabs_R0; lra))).
  assert (ZL : forall y, within 51 y -> exactly (mul32 f32_zero y) 0) by (intros y W; exact (zero_left _ _ zero_val W)).
  assert (ZR : forall y, within 51 y -> exactly (mul32 y f32_zero) 0) by (intros y W; exact (zero_right _ _ zero_val W)).
  assert (Q : forall x X, est 0 x X 1 -> est 2 (mul32 l x) (val l * X) N).
  { intros x X E. pose proof (est_mul 0 0 _ _ _ _ N 1 ltac:(lra) ltac:(lra) ltac:(lra) ltac:(lra) EL E) as P. rewrite Rmult_1_r in P. replace (0 + 0 + 2)%R with 2%R in P by lra. exact P. }
  assert (A0 : forall x y X, est 2 x X N -> exactly y 0 -> est 2 (add32 x y) X N) by (intros x y X E D; exact (proj1 (est_plus_zero 2 _ _ _ N ltac:(lra) ltac:(lra) E D))).
  assert (B0 : forall x y X, est 2 x X N -> exactly y 0 -> est 2 (add32 y x) X N) by (intros x y X E D; exact (proj2 (est_plus_zero 2 _ _ _ N ltac:(lra) ltac:(lra) E D))).
  assert (L1 : est 2 (mul32 l f32_one) (val l) N) by (apply (est_weaken 0 2 _ _ N N); [lra|lra|]; exact (proj1 (est_times_one 0 _ _ _ N ltac:(lra) ltac:(lra) EL one_val))).
  assert (O1 : exactly (mul32 f32_one f32_one) 1) by (exact (ones _ _ one_val one_val)).
  split; [|split; [|split]]; (split; [|split; [|split]]); cbn [cell times rotate_z scaling nth map seq];
  (let rec zero := lazymatch goal with
       | |- exactly (add32 _ _) 0 => apply Z2; zero
       | |- exactly (mul32 f32_zero _) 0 => apply ZL; assumption
       | |- exactly (mul32 _ f32_zero) 0 => apply ZR; assumption
       end in
       let rec go := lazymatch goal with
       | |- exactly _ 0 => zero
       | |- exactly (mul32 f32_one f32_one) 1 => exact O1
       | |- exactly (add32 _ _) 1 => apply (zero_sum _ _ 1); [zero|go|rewrite Rabs_R1; lra]
       | |- est _ (mul32 l f32_one) _ _ => exact L1
       | |- est _ (mul32 l _) _ _ => apply Q; assumption
       | |- est _ (add32 _ _) _ _ => first [apply A0; [go|zero]|apply B0; [go|zero]]
       end in go).
Qed.
Lemma bracket_close sin cos a l v X Y Z N B : within 0 (cos a) -> within 0 (sin a) -> within 20 l -> (1 <= N <= 1048576)%R -> (Rabs (val l) <= N)%R -> (B <= 1024)%R -> est 0 (vec_x v) X B -> est 0 (vec_y v) Y B -> est 0 (vec_z v) Z B ->
  turned3 6 (transform_vertex (times (rotate_z sin cos a) (scaling l l l)) v) (val l * (X * val (cos a) - Y * val (sin a))) (val l * (X * val (sin a) + Y * val (cos a))) (val l * Z) (2 * (N * B)).
Proof.
  intros WC WS WL [N1 N2] NL BL HX HY HZ. destruct (product_cells sin cos a l WC WS WL N N1 NL N2) as ((A0 & A1 & A2 & A3) & (B0 & B1 & B2 & B3) & (C0 & C1 & C2 & C3) & (D0 & D1 & D2 & D3)). set (m := times (rotate_z sin cos a) (scaling l l l)) in *. clearbody m.
  assert (B1' : (1 <= B)%R) by apply HX. assert (NB : (1 <= N * B <= 1073741824)%R) by (split; [rewrite <- (Rmult_1_l 1); apply Rmult_le_compat; lra|replace 1073741824%R with (1048576 * 1024)%R by lra; apply Rmult_le_compat; lra]).
  assert (WX : within 51 (vec_x v)) by (apply (est_within 0 _ _ _ ltac:(lra) HX); lra). assert (WY : within 51 (vec_y v)) by (apply (est_within 0 _ _ _ ltac:(lra) HY); lra). assert (WZ : within 51 (vec_z v)) by (apply (est_within 0 _ _ _ ltac:(lra) HZ); lra).
  assert (P : forall c C x Q, est 2 c C N -> est 0 x Q B -> est 4 (mul32 c x) (C * Q) (N * B)).
  { intros c C x Q E1 E2. pose proof (est_mul 2 0 _ _ _ _ N B ltac:(lra) ltac:(lra) ltac:(lra) ltac:(lra) E1 E2) as R. replace (2 + 0 + 2)%R with 4%R in R by lra. exact R. }
  assert (S : forall x y Q R, est 4 x Q (N * B) -> est 4 y R (N * B) -> est 6 (add32 x y) (Q + R) (2 * (N * B))).
  { intros x y Q R E1 E2. pose proof (est_add 4 _ _ _ _ _ _ ltac:(lra) (ltac:(lra) : (N * B <= 1125899906842624)%R) (ltac:(lra) : (N * B <= 1125899906842624)%R) E1 E2) as T. apply (est_weaken (4 + 2) 6 _ _ (N * B + N * B)); [lra|lra|exact T]. }
  assert (A : forall x y Q, est 6 x Q (2 * (N * B)) -> exactly y 0 -> est 6 (add32 x y) Q (2 * (N * B))) by (intros x y Q E D; exact (proj1 (est_plus_zero 6 _ _ _ (2 * (N * B))%R ltac:(lra) ltac:(lra) E D))).
  assert (A' : forall x y Q, est 6 x Q (2 * (N * B)) -> exactly y 0 -> est 6 (add32 y x) Q (2 * (N * B))) by (intros x y Q E D; exact (proj2 (est_plus_zero 6 _ _ _ (2 * (N * B))%R ltac:(lra) ltac:(lra) E D))).
  assert (Z2 : forall x y, exactly x 0 -> exactly y 0 -> exactly (add32 x y) 0) by (intros x y E D; exact (zero_sum _ _ _ E D ltac:(rewrite Rabs_R0; lra))).
  assert (W : exactly (affine m v 3) 1).
  { unfold affine. apply (zero_sum _ _ 1); [|exact D3|rewrite Rabs_R1; lra]. apply Z2; [apply Z2|]; apply zero_left; assumption. }
  unfold turned3, transform_vertex. cbv zeta. cbn [vec_x vec_y vec_z]. split; [|split]; (apply transformed; [lra|lra| |exact W]); unfold affine.
  - replace (val l * (X * val (cos a) - Y * val (sin a)))%R with (val l * val (cos a) * X + val l * - val (sin a) * Y)%R by ring. apply A; [|exact A3]. apply A; [|apply zero_left; assumption]. apply S; apply P; assumption.
  - replace (val l * (X * val (sin a) + Y * val (cos a)))%R with (val l * val (sin a) * X + val l * val (cos a) * Y)%R by ring. apply A; [|exact B3]. apply A; [|apply zero_left; assumption]. apply S; apply P; assumption.
  - apply A; [|exact C3]. apply A'; [|apply Z2; apply zero_left; assumption]. apply (est_weaken 4 6 _ _ (N * B)); [lra|lra|]. apply P; assumption.
Qed.
(** ** Each kind of copy *)
Definition at_vertex (of_vertex : Vtx -> f32 * f32 * f32) (error : R) (w : Vtx) (q : R * R * R) : Prop :=
  (let '(x, y, z) := of_vertex w in finite32 x /\ finite32 y /\ finite32 z) /\ close_to error (reals (of_vertex w)) q.
Lemma est_close k x X M e : est k x X M -> (k * unit_error * M <= e)%R -> finite32 x /\ (Rabs (real x - X) <= e)%R.
Proof. intros (F & _ & _ & E) L. split; [apply fin_finite; exact F|]. rewrite real_val by exact F. eapply Rle_trans; [exact E|exact L]. Qed.
Lemma turned_close k p X Y Z M e : turned3 k p X Y Z M -> (k * unit_error * M <= e)%R ->
  (finite32 (vec_x p) /\ finite32 (vec_y p) /\ finite32 (vec_z p)) /\ close_to e (real (vec_x p), real (vec_y p), real (vec_z p)) (X, Y, Z).
Proof.
  intros (HX & HY & HZ) L. destruct (est_close _ _ _ _ _ HX L) as [FX CX]. destruct (est_close _ _ _ _ _ HY L) as [FY CY]. destruct (est_close _ _ _ _ _ HZ L) as [FZ CZ].
  unfold close_to. auto.
Qed.
Lemma place_close k p n v X Y Z M e : turned3 k p X Y Z M -> (k * unit_error * M <= e)%R -> at_vertex place_in e (with_place p n v) (X, Y, Z).
Proof. intros H L. destruct (turned_close _ _ _ _ _ _ _ H L) as [A B]. split; [exact A|exact B]. Qed.
Lemma normal_close k p n v X Y Z M e : turned3 k n X Y Z M -> (k * unit_error * M <= e)%R -> at_vertex normal_of e (with_place p n v) (X, Y, Z).
Proof. intros H L. destruct (turned_close _ _ _ _ _ _ _ H L) as [A B]. split; [exact A|exact B]. Qed.
Lemma up_est b x : (1 <= b)%R -> up_to b x -> est 0 x (real x) b.
Proof. intros L [F B]. apply finite_fin in F. rewrite real_val in B |- * by exact F. apply est_self; assumption. Qed.
Lemma vertex_est b v : (1 <= b)%R -> Forall (up_to b) (coordinates_of v) -> turned3 0 (place v) (real (v_x v)) (real (v_y v)) (real (v_z v)) b /\ turned3 0 (normal v) (real (v_nx v)) (real (v_ny v)) (real (v_nz v)) b.
Proof.
  intros L H. rewrite Forall_forall in H. unfold turned3, place, normal. cbn [vec_x vec_y vec_z]. split; (split; [|split]); (apply up_est; [exact L|apply H; cbn [coordinates_of In]; tauto]).
Qed.
Section Copies.
Variable sin cos : f32 -> f32.
Hypothesis BS : bounded_function sin.
Hypothesis BC : bounded_function cos.
Lemma angle_units a : moderate a -> within 0 (cos (radians a)) /\ within 0 (sin (radians a)) /\ val (cos (radians a)) = real (cos (times_radian a)) /\ val (sin (radians a)) = real (sin (times_radian a)).
Proof.
  intros M. destruct (degrees_finite a M) as (_ & _ & F). change (radians a) with (times_radian a). pose proof (bounded_at cos _ BC F) as C. pose proof (bounded_at sin _ BS F) as S.
  split; [exact C|]. split; [exact S|]. destruct C as [FC _]. destruct S as [FS _]. rewrite (real_val _ FC), (real_val _ FS). auto.
Qed.
Lemma product_large b S : (1 <= b <= 1024)%R -> (1 <= S <= 1048576)%R -> (1 <= b * S <= 1073741824)%R /\ (b <= b * S)%R.
Proof.
  intros [B1 B2] [S1 S2]. split; [split; [rewrite <- (Rmult_1_l 1); apply Rmult_le_compat; lra|replace 1073741824%R with (1024 * 1048576)%R by lra; apply Rmult_le_compat; lra]|]. rewrite <- (Rmult_1_r b) at 1. apply Rmult_le_compat_l; lra.
Qed.
Variable b S : R.
Hypothesis LB : (1 <= b <= 1024)%R.
Hypothesis LS : (1 <= S <= 1048576)%R.
Variable v : Vtx.
Hypothesis U : Forall (up_to b) (coordinates_of v).
Lemma normal_turned a p : moderate a -> at_vertex normal_of (b / 1000000) (with_place p (turn3 sin cos (radians a) (normal v)) v) (turned_about_z sin cos a (reals (normal_of v))) /\
  at_vertex normal_of (b / 1000000) (with_place p (transform_normal (rotate_z sin cos (radians a)) (normal v)) v) (turned_about_z sin cos a (reals (normal_of v))).
Proof.
  intros M. destruct (angle_units a M) as (WC & WS & EC & ES). destruct (vertex_est b v (proj1 LB) U) as [_ (NX & NY & NZ)].
  destruct (turn_normal sin cos _ 0 _ _ _ _ b WC WS ltac:(lra) ltac:(lra) NX NY NZ) as [T1 T2]. unfold turned_about_z, normal_of, reals, about_z. rewrite <- EC, <- ES.
  split; [apply (normal_close _ _ _ _ _ _ _ _ _ T2)|apply (normal_close _ _ _ _ _ _ _ _ _ T1)]; lra.
Qed.
Lemma target_place h : moderate (HitTarget_rot_z h) -> up_to S (v3_x (HitTarget_size h)) -> up_to S (v3_y (HitTarget_size h)) -> up_to S (v3_z (HitTarget_size h)) ->
  at_vertex place_in (b * S / 1000000) (target_vertex sin cos h v) (turned_about_z sin cos (HitTarget_rot_z h) (scaled_by (real (v3_x (HitTarget_size h))) (real (v3_y (HitTarget_size h))) (real (v3_z (HitTarget_size h))) (reals (place_in v)))).
Proof.
  intros M UX UY UZ. destruct (angle_units _ M) as (WC & WS & EC & ES). destruct (vertex_est b v (proj1 LB) U) as [P _]. destruct (product_large b S LB LS) as [PL PB].
  pose proof (scaled3 0 0 _ _ _ _ _ _ _ _ _ _ b S ltac:(lra) ltac:(lra) ltac:(lra) ltac:(lra) P (up_est _ _ (proj1 LS) UX) (up_est _ _ (proj1 LS) UY) (up_est _ _ (proj1 LS) UZ)) as (T1 & T2 & T3).
  destruct (turn_normal sin cos _ (0 + 0 + 2) _ _ _ _ (b * S) WC WS ltac:(lra) ltac:(lra) T1 T2 T3) as [_ T]. unfold target_vertex. cbv zeta. unfold turned_about_z, place_in at 2, reals, scaled_by, about_z. rewrite <- EC, <- ES.
  rewrite (Rmult_comm (real (v3_x _))), (Rmult_comm (real (v3_y _))), (Rmult_comm (real (v3_z _))). apply (place_close _ _ _ _ _ _ _ _ _ T). lra.
Qed.
Lemma spinner_place s : moderate (Spinner_rotation s) -> up_to S (Spinner_length s) ->
  at_vertex place_in (b * S / 1000000) (spinner_vertex sin cos s v) (scaled_by (real (Spinner_length s)) (real (Spinner_length s)) (real (Spinner_length s)) (turned_about_z sin cos (Spinner_rotation s) (reals (place_in v)))).
Proof.
  intros M UL. destruct (angle_units _ M) as (WC & WS & EC & ES). destruct (vertex_est b v (proj1 LB) U) as [(PX & PY & PZ) _]. destruct (product_large b S LB LS) as [PL PB]. pose proof (up_est _ _ (proj1 LS) UL) as EL.
  destruct (turn_normal sin cos _ 0 _ _ _ _ b WC WS ltac:(lra) ltac:(lra) PX PY PZ) as [_ T]. pose proof (scaled3 (0 + 4) 0 _ _ _ _ _ _ _ _ _ _ (2 * b) S ltac:(lra) ltac:(lra) ltac:(lra) ltac:(lra) T EL EL EL) as R.
  unfold spinner_vertex. cbv zeta. unfold turned_about_z, place_in at 2, reals, about_z, scaled_by. rewrite <- EC, <- ES. rewrite !(Rmult_comm (real (Spinner_length s))). apply (place_close _ _ _ _ _ _ _ _ _ R). lra.
Qed.
Lemma bracket_place g : moderate (Gate_rotation g) -> up_to S (Gate_length g) ->
  at_vertex place_in (b * S / 1000000) (bracket_vertex sin cos g v) (scaled_by (real (Gate_length g)) (real (Gate_length g)) (real (Gate_length g)) (turned_about_z sin cos (Gate_rotation g) (reals (place_in v)))).
Proof.
  intros M UL. destruct (angle_units _ M) as (WC & WS & EC & ES). destruct (vertex_est b v (proj1 LB) U) as [(PX & PY & PZ) _]. destruct (product_large b S LB LS) as [PL PB]. destruct UL as [FL UL]. apply finite_fin in FL. rewrite real_val in UL |- * by exact FL.
  assert (WL : within 20 (Gate_length g)) by (split; [exact FL|]; change (pow2 20) with 1048576%R; lra).
  pose proof (bracket_close sin cos _ _ _ _ _ _ S b WC WS WL LS UL (proj2 LB) PX PY PZ) as T. unfold bracket_vertex. cbv zeta. unfold turned_about_z, place_in at 2, reals, about_z, scaled_by. rewrite <- EC, <- ES. apply (place_close _ _ _ _ _ _ _ _ _ T). lra.
Qed.
Lemma wire_place g : moderate (Gate_rotation g) -> at_vertex place_in (b / 1000000) (wire_vertex sin cos g v) (turned_about_z sin cos (Gate_rotation g) (reals (place_in v))).
Proof.
  intros M. destruct (angle_units _ M) as (WC & WS & EC & ES). destruct (vertex_est b v (proj1 LB) U) as [(PX & PY & PZ) _]. pose proof (turn_matrix sin cos _ 0 _ _ _ _ b WC WS ltac:(lra) ltac:(lra) PX PY PZ) as T.
  unfold wire_vertex. cbv zeta. unfold turned_about_z, place_in at 2, reals, about_z. rewrite <- EC, <- ES. apply (place_close _ _ _ _ _ _ _ _ _ T). lra.
Qed.
Lemma decimal_est x s m e r : f32_value x = S754_finite s m e -> (Rabs r <= 1)%R -> (Rabs (IZR (cond_Zopp s (Z.pos m)) * pow2 e - r) <= unit_error)%R -> est 1 x r 1.
Proof. intros E L D. destruct (known x s m e E) as [F V]. split; [exact F|]. split; [lra|]. split; [exact L|]. rewrite V, !Rmult_1_l, Rmult_1_r. exact D. Qed.
Lemma est_88 : est 1 f32_0_88 (88 / 100) 1.
Proof. apply (decimal_est _ false 14763950 (-24)); [vm_compute; reflexivity|rewrite Rabs_pos_eq; lra|]. cbn [cond_Zopp]. change (pow2 (-24)) with unit_error. apply Rabs_le. lra. Qed.
Lemma est_87 : est 1 f32_0_87 (87 / 100) 1.
Proof. apply (decimal_est _ false 14596178 (-24)); [vm_compute; reflexivity|rewrite Rabs_pos_eq; lra|]. cbn [cond_Zopp]. change (pow2 (-24)) with unit_error. apply Rabs_le. lra. Qed.
Lemma est_82 : est 1 f32_0_82 (82 / 100) 1.
Proof. apply (decimal_est _ false 13757317 (-24)); [vm_compute; reflexivity|rewrite Rabs_pos_eq; lra|]. cbn [cond_Zopp]. change (pow2 (-24)) with unit_error. apply Rabs_le. lra. Qed.
Lemma est_18 : est 1 f32_minus_0_18 (- 18 / 100) 1.
Proof. apply (decimal_est _ true 12079596 (-26)); [vm_compute; reflexivity|apply Rabs_le; lra|]. cbn [cond_Zopp]. change (pow2 (-26)) with (/ 67108864)%R. apply Rabs_le. change (- Z.pos 12079596) with (-12079596). lra. Qed.
Lemma est_zero : est 0 f32_zero 0 1.
Proof. destruct zero_val as [F V]. split; [exact F|]. split; [lra|]. rewrite V, Rminus_0_r, Rabs_R0. lra. Qed.
Lemma est_five : est 0 (int32 5) 5 5.
Proof. destruct (known (int32 5) false 10485760 (-21) eq_refl) as [F V]. split; [exact F|]. split; [lra|]. rewrite V. cbn [cond_Zopp]. change (pow2 (-21)) with (/ 2097152)%R. split; [rewrite Rabs_pos_eq; lra|]. apply Rabs_le. lra. Qed.
Lemma plate_place k : up_to S (Kicker_radius k) ->
  at_vertex place_in (b * S / 1000000) (plate_vertex k v) (let r := (real (Kicker_radius k) * plate_factor k)%R in scaled_by r r r (reals (place_in v))).
Proof.
  intros UR. destruct (vertex_est b v (proj1 LB) U) as [P _]. destruct (product_large b S LB LS) as [PL PB]. pose proof (up_est _ _ (proj1 LS) UR) as ER.
  assert (EP : est 3 (plate_radius k) (real (Kicker_radius k) * plate_factor k) S).
  { assert (D : forall x r, est 1 x r 1 -> est 3 (mul32 (Kicker_radius k) x) (real (Kicker_radius k) * r) S).
    { intros x r E. pose proof (est_mul 0 1 _ _ _ _ S 1 ltac:(lra) ltac:(lra) ltac:(lra) ltac:(lra) ER E) as R. apply (est_weaken (0 + 1 + 2) 3 _ _ (S * 1)); [lra|lra|exact R]. }
    unfold plate_radius, plate_factor. destruct (Kicker_kicker_type k);
      lazymatch goal with
      | |- est _ (mul32 _ f32_0_88) _ _ => apply D; exact est_88
      | |- est _ (mul32 _ f32_0_87) _ _ => apply D; exact est_87
      | |- est _ (mul32 _ f32_0_82) _ _ => apply D; exact est_82
      | |- _ => rewrite Rmult_1_r; apply (est_weaken 0 3 _ _ S); [lra|lra|exact ER]
      end. }
  pose proof (scaled3 0 3 _ _ _ _ _ _ _ _ _ _ b S ltac:(lra) ltac:(lra) ltac:(lra) ltac:(lra) P EP EP EP) as T. cbv zeta. unfold place_in at 2, reals, scaled_by. rewrite !(Rmult_comm (real (Kicker_radius k) * plate_factor k)).
  destruct (turned_close _ _ _ _ _ _ (b * S / 1000000) T) as [A B]; [lra|]. split; [exact A|exact B].
Qed.
Lemma zero_moderate : moderate f32_zero.
Proof. split; [exact I|]. vm_compute. discriminate. Qed.
Lemma body_parts k : body_of k = (fst (fst (body_of k)), snd (fst (body_of k)), body_angle k) /\ est 1 (snd (fst (body_of k))) (body_rise k) 1.
Proof.
  unfold body_of, body_angle, body_rise. destruct (Kicker_kicker_type k); cbn [fst snd]; (split; [reflexivity|]);
    lazymatch goal with
    | |- est _ f32_minus_0_18 _ _ => exact est_18
    | |- _ => apply (est_weaken 0 1 _ _ 1); [lra|lra|exact est_zero]
    end.
Qed.
Lemma body_place k : moderate (body_angle k) -> up_to S (Kicker_radius k) ->
  at_vertex place_in (b * S / 400000) (body_vertex sin cos k v) (let r := real (Kicker_radius k) in scaled_by r r r (turned_about_z sin cos (body_angle k) (raised_by (body_rise k) (reals (place_in v))))) /\
  at_vertex normal_of (b / 1000000) (body_vertex sin cos k v) (turned_about_z sin cos (body_angle k) (reals (normal_of v))).
Proof.
  intros M UR. destruct (angle_units _ M) as (WC & WS & EC & ES). destruct (vertex_est b v (proj1 LB) U) as [(PX & PY & PZ) _]. destruct (product_large b S LB LS) as [PL PB]. pose proof (up_est _ _ (proj1 LS) UR) as ER.
  destruct (body_parts k) as [BE EO]. unfold body_vertex. rewrite BE. cbv beta iota zeta. set (o := snd (fst (body_of k))) in *. clearbody o. clear BE. split.
  - assert (HZ : est 3 (add32 (v_z v) o) (real (v_z v) + body_rise k) (2 * b)).
    { pose proof (est_add 1 _ _ _ _ b 1 ltac:(lra) ltac:(lra) ltac:(lra) (est_weaken 0 1 _ _ b b ltac:(lra) ltac:(lra) PZ) EO) as E. apply (est_weaken (1 + 2) 3 _ _ (b + 1)); [lra|lra|exact E]. }
    assert (W : forall x X, est 0 x X b -> est 3 x X (2 * b)) by (intros x X E; apply (est_weaken 0 3 _ _ b); [lra|lra|exact E]).
    pose proof (turn_matrix sin cos _ 3 (mkVec3 (v_x v) (v_y v) (add32 (v_z v) o)) _ _ _ (2 * b) WC WS ltac:(lra) ltac:(lra) (W _ _ PX) (W _ _ PY) HZ) as T.
    pose proof (scaled3 (3 + 4) 0 _ _ _ _ _ _ _ _ _ _ (2 * (2 * b)) S ltac:(lra) ltac:(lra) ltac:(lra) ltac:(lra) T ER ER ER) as R. unfold turned_about_z, place_in at 2, reals, raised_by, about_z, scaled_by. rewrite <- EC, <- ES.
    rewrite !(Rmult_comm (real (Kicker_radius k))). apply (place_close _ _ _ _ _ _ _ _ _ R). lra.
  - apply (normal_turned (body_angle k)). exact M.
Qed.
Lemma raised_est p o X Y Z W M : (1 <= M <= 1125899906842624)%R -> turned3 (0 + 4 + 0 + 2) p X Y Z M -> est 0 o W 5 -> turned3 8 (mkVec3 (vec_x p) (vec_y p) (add32 (vec_z p) o)) X Y (Z + W) (M + 5).
Proof.
  intros LM (RX & RY & RZ) HO. unfold turned3. cbn [vec_x vec_y vec_z]. split; [|split].
  - apply (est_weaken (0 + 4 + 0 + 2) 8 _ _ M); [lra|lra|exact RX].
  - apply (est_weaken (0 + 4 + 0 + 2) 8 _ _ M); [lra|lra|exact RY].
  - pose proof (est_add 6 _ _ _ _ M 5 ltac:(lra) ltac:(lra) ltac:(lra) (est_weaken (0 + 4 + 0 + 2) 6 _ _ M M ltac:(lra) ltac:(lra) RZ) (est_weaken 0 6 _ _ 5 5 ltac:(lra) ltac:(lra) HO)) as E.
    apply (est_weaken (6 + 2) 8 _ _ (M + 5)); [lra|lra|exact E].
Qed.
Lemma star_form t : by_radius (Trigger_shape t) = true -> exists n, trigger_vertex sin cos t v =
  with_place (let p := each_by (transform_vertex (rotate_z sin cos (radians (Trigger_rotation t))) (place v)) (Trigger_radius t) (Trigger_radius t) (Trigger_radius t) in mkVec3 (vec_x p) (vec_y p) (add32 (vec_z p) (trigger_offset (Trigger_shape t)))) n v.
Proof.
  intros BR. assert (HM : trigger_matrix sin cos (Trigger_shape t) = fun a => rotate_z sin cos (radians a)) by (destruct (Trigger_shape t); (discriminate BR || reflexivity)).
  assert (HT : has_thickness (Trigger_shape t) = false) by (destruct (Trigger_shape t); (discriminate BR || reflexivity)).
  unfold trigger_vertex. rewrite BR, HT, HM. eexists. reflexivity.
Qed.
Lemma star_offset t : by_radius (Trigger_shape t) = true -> est 0 (trigger_offset (Trigger_shape t)) (star_rise t) 5.
Proof.
  pose proof est_five as F5. pose proof est_zero as F0. unfold star_rise, trigger_offset. revert F5 F0. generalize (int32 5) as five. generalize f32_minus_19 as other. generalize f32_zero as zero. intros zero other five F5 F0 BR.
  destruct (Trigger_shape t); try discriminate BR; [apply (est_weaken 0 0 _ _ 1); [lra|lra|exact F0]|exact F5].
Qed.
Lemma star_place t : by_radius (Trigger_shape t) = true -> moderate (Trigger_rotation t) -> up_to S (Trigger_radius t) ->
  at_vertex place_in (b * S / 100000) (trigger_vertex sin cos t v) (let r := real (Trigger_radius t) in raised_by (star_rise t) (scaled_by r r r (turned_about_z sin cos (Trigger_rotation t) (reals (place_in v))))).
Proof.
  intros BR M UR. destruct (star_form t BR) as (n & ->). pose proof (star_offset t BR) as HO. revert HO. generalize (trigger_offset (Trigger_shape t)) as o. intros o HO.
  destruct (angle_units _ M) as (WC & WS & EC & ES). destruct (vertex_est b v (proj1 LB) U) as [(PX & PY & PZ) _]. destruct (product_large b S LB LS) as [PL PB]. pose proof (up_est _ _ (proj1 LS) UR) as ER.
  pose proof (turn_matrix sin cos _ 0 _ _ _ _ b WC WS ltac:(lra) ltac:(lra) PX PY PZ) as T. pose proof (scaled3 (0 + 4) 0 _ _ _ _ _ _ _ _ _ _ (2 * b) S ltac:(lra) ltac:(lra) ltac:(lra) ltac:(lra) T ER ER ER) as R.
  pose proof (raised_est _ _ _ _ _ _ (2 * b * S) ltac:(lra) R HO) as H. cbv zeta in H |- *. unfold turned_about_z, place_in at 2, reals, about_z, scaled_by, raised_by. rewrite <- EC, <- ES. rewrite !(Rmult_comm (real (Trigger_radius t))).
  apply (place_close _ _ _ _ _ _ _ _ _ H). lra.
Qed.
End Copies.

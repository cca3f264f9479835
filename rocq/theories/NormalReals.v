(** Lemmas about the normals of walls. *)
From Verif Require Import Base Text Json Image Sound Quantize ColorText JsonFloat Cfb Mesh SpecMesh Common Enums ItemRamp QuantizeFacts QuantizeMono FlipFacts Browser Builtin SpecBuiltin BuiltinFacts BuiltinReals Polygon SpecPolygon Smooth FloatBounds SmoothFacts SpecSmooth PropertiesSmooth Walls SpecWalls WallsReals RubberMesh RubberReals PropertiesRubber Ramps SpecRamps RampReals Transform TransformReals ItemFlasher ItemLight ItemDecal Flats SpecFlats FlatReals BaseFacts SpecNormals.
From Coq Require Import Reals Lra Floats.SpecFloat ZifyBool.
From Flocq Require Import Core.Core Relative Mult_error IEEE754.BinarySingleNaN.
Local Open Scope Z_scope.

#[local] Instance P24 : FLX.Prec_gt_0 24 := eq_refl.
#[local] Instance M24 : Prec_lt_emax 24 128 := eq_refl.
#[local] Instance vexp24 : Valid_exp fexp24 := fexp_correct 24 128 P24.
#[local] Instance vrnd24 : Valid_rnd (round_mode mode_NE) := valid_rnd_round_mode mode_NE.

Lemma real_ratio c l s e : (0 < l)%R -> (Rabs (c * l - s) <= l * e)%R -> (Rabs (c - s / l) <= e)%R.
Proof. intros L H. replace (c - s / l)%R with ((c * l - s) / l)%R by (field; lra). unfold Rdiv. rewrite Rabs_mult, Rabs_inv, (Rabs_pos_eq l) by lra. apply (Rmult_le_reg_r l); [exact L|]. rewrite Rmult_assoc, Rinv_l by lra. lra. Qed.
Lemma ratio_small s t : (0 < sqrt (s * s + t * t))%R -> (Rabs (s / sqrt (s * s + t * t)) <= 1)%R.
Proof. intros L. pose proof (axis_below s t) as A. unfold Rdiv. rewrite Rabs_mult, Rabs_inv, (Rabs_pos_eq (sqrt _)) by lra. apply (Rmult_le_reg_r (sqrt (s * s + t * t))); [exact L|]. rewrite Rmult_assoc, Rinv_l by lra. lra. Qed.
(** A vector divided by its length *)
Lemma norm_parts x y s t : within 55 x -> within 55 y -> val x = rnd s -> val y = rnd t -> (pow2 (-60) <= sqrt (s * s + t * t))%R ->
  let len := sqrt32 (add32 (mul32 x x) (mul32 y y)) in
  eq32b len f32_zero = false /\ within 1 (div32 x len) /\ within 1 (div32 y len) /\
  (Rabs (val (div32 x len) - s / sqrt (s * s + t * t)) <= / 1000000)%R /\ (Rabs (val (div32 y len) - t / sqrt (s * s + t * t)) <= / 1000000)%R.
Proof.
  intros WX WY VX VY L len. set (l := sqrt (s * s + t * t)) in *. assert (EL' : (l = sqrt (t * t + s * s))%R) by (unfold l; f_equal; ring).
  destruct (mul_val 55 55 x x ltac:(lia) WX WX) as [MX MVX]. destruct (mul_val 55 55 y y ltac:(lia) WY WY) as [MY MVY]. destruct (add_val 110 _ _ ltac:(lia) MX MY) as [WS VS].
  assert (VN : val len = rnd (sqrt (rnd (rnd (val x * val x) + rnd (val y * val y))))) by (unfold len; rewrite sqrt_rnd, VS, MVX, MVY; reflexivity).
  assert (FN : fin len). { unfold len. refine (proj1 (proj1 (sqrt_val 56 _ ltac:(lia) _ _))); [apply (within_mono 111); [lia|exact WS]|]. rewrite VS. apply round_pos, Rplus_le_le_0_compat; [rewrite MVX|rewrite MVY]; apply round_pos, Rle_0_sqr. }
  destruct (unit_close s t (val x) (val y) l _ _ eq_refl L VX VY VN eq_refl) as [N1 CX].
  destruct (unit_close t s (val y) (val x) l (val len) _ EL' L VY VX ltac:(rewrite VN, (Rplus_comm (rnd (val x * val x))); reflexivity) eq_refl) as [_ CY].
  clearbody len. clear VN VS MVX MVY MX MY WS. assert (PN : (pow2 (-61) <= Rabs (val len))%R) by (apply (Rle_trans _ _ _ N1), Rle_abs). pose proof (bpow_gt_0 radix2 (-61)) as P. pose proof (bpow_gt_0 radix2 (-60)) as P0.
  destruct (div_val 55 (-61) x len ltac:(lia) WX PN) as [[FX _] DX]. destruct (div_val 55 (-61) y len ltac:(lia) WY PN) as [[FY _] DY]. rewrite <- DX in CX. rewrite <- DY in CY.
  assert (LP : (0 < l)%R) by lra. apply real_ratio in CX; [|exact LP]. apply real_ratio in CY; [|exact LP].
  pose proof (ratio_small s t LP) as RX. pose proof (ratio_small t s ltac:(rewrite <- EL'; exact LP)) as RY. rewrite <- EL' in RY. fold l in RX.
  assert (TWO : pow2 1 = 2%R) by reflexivity.
  assert (B : forall c r : R, (Rabs (c - r) <= / 1000000)%R -> (Rabs r <= 1)%R -> (Rabs c <= pow2 1)%R).
  { intros c r C R1. rewrite TWO. replace c with ((c - r) + r)%R by ring. apply (Rle_trans _ _ _ (Rabs_triang _ _)). lra. }
  split; [destruct (eq32b len f32_zero) eqn:Q; [|reflexivity]; destruct zero_val as [FZ VZ]; apply (eq_val _ _ FN FZ) in Q; rewrite VZ in Q; lra|].
  split; [split; [exact FX|exact (B _ _ CX RX)]|]. split; [split; [exact FY|exact (B _ _ CY RY)]|]. split; assumption.
Qed.
Lemma val_round x : val x = rnd (val x).
Proof. symmetry. apply round_generic; [apply vrnd24|]. apply generic_format_B2R. Qed.
(** The lengths of two vectors that are close *)
Lemma lengths_close a b A B d : (0 < sqrt (A * A + B * B))%R -> (Rabs (a - A) <= d)%R -> (Rabs (b - B) <= d)%R -> (Rabs (sqrt (a * a + b * b) - sqrt (A * A + B * B)) <= 2 * d)%R.
Proof.
  intros P HA HB. set (l := sqrt (a * a + b * b)). set (m := sqrt (A * A + B * B)) in *. assert (L0 : (0 <= l)%R) by apply sqrt_pos.
  assert (LL : (l * l = a * a + b * b)%R) by (apply sqrt_sqrt; apply Rplus_le_le_0_compat; apply Rle_0_sqr). assert (MM : (m * m = A * A + B * B)%R) by (apply sqrt_sqrt; apply Rplus_le_le_0_compat; apply Rle_0_sqr).
  pose proof (axis_below a b) as A1. pose proof (axis_below A B) as A2. pose proof (axis_below b a) as B1. pose proof (axis_below B A) as B2. rewrite (Rplus_comm (b * b)) in B1. rewrite (Rplus_comm (B * B)) in B2. fold l in A1, B1. fold m in A2, B2.
  assert (X : ((l - m) * (l + m) = (a - A) * (a + A) + (b - B) * (b + B))%R) by (ring_simplify; rewrite <- !Rsqr_pow2; unfold Rsqr; lra).
  assert (Y : (Rabs (l - m) * (l + m) <= 2 * d * (l + m))%R).
  { rewrite <- (Rabs_pos_eq (l + m)) at 1 by lra. rewrite <- Rabs_mult, X. apply (Rle_trans _ _ _ (Rabs_triang _ _)). rewrite !Rabs_mult. pose proof (Rabs_triang a A) as TA. pose proof (Rabs_triang b B) as TB. pose proof (Rabs_pos (a - A)) as PA.
    assert (U : (Rabs (a - A) * Rabs (a + A) <= d * (l + m))%R) by (apply Rmult_le_compat; try apply Rabs_pos; lra). assert (V : (Rabs (b - B) * Rabs (b + B) <= d * (l + m))%R) by (apply Rmult_le_compat; try apply Rabs_pos; lra). lra. }
  apply (Rmult_le_reg_r (l + m)); [lra|exact Y].
Qed.
Lemma ratio_change a A l M d : (0 < M)%R -> (0 < l)%R -> (Rabs A <= M)%R -> (Rabs (a - A) <= d)%R -> (Rabs (l - M) <= 2 * d)%R -> (Rabs (a / l - A / M) <= 3 * d / l)%R.
Proof.
  intros PM PL AM D L. replace (a / l - A / M)%R with (((a - A) + (A / M) * (M - l)) / l)%R by (field; lra). unfold Rdiv at 1. rewrite Rabs_mult, Rabs_inv, (Rabs_pos_eq l) by lra.
  apply (Rmult_le_compat_r (/ l)); [apply Rlt_le, Rinv_0_lt_compat, PL|]. apply (Rle_trans _ _ _ (Rabs_triang _ _)). rewrite Rabs_mult, (Rabs_minus_sym M).
  assert (Q : (Rabs (A / M) <= 1)%R) by (unfold Rdiv; rewrite Rabs_mult, Rabs_inv, (Rabs_pos_eq M) by lra; apply (Rmult_le_reg_r M); [exact PM|]; rewrite Rmult_assoc, Rinv_l by lra; lra).
  assert (Rabs (A / M) * Rabs (l - M) <= 1 * (2 * d))%R by (apply Rmult_le_compat; try apply Rabs_pos; assumption). lra.
Qed.
Lemma norm_close x y A B d e : within 2 x -> within 2 y -> let M := sqrt (A * A + B * B) in (0 <= d <= / 100000)%R -> (/ 10 <= M)%R -> (Rabs (val x - A) <= d)%R -> (Rabs (val y - B) <= d)%R -> (4 * d / M + / 1000000 <= e)%R ->
  let n := Walls.normalize2 (x, y) in fin (fst n) /\ fin (snd n) /\ (Rabs (val (fst n) - A / M) <= e)%R /\ (Rabs (val (snd n) - B / M) <= e)%R.
Proof.
  intros WX WY M D PM DA DB E n. assert (MP : (0 < M)%R) by lra. pose proof (lengths_close (val x) (val y) A B d MP DA DB) as L. fold M in L. set (l := sqrt (val x * val x + val y * val y)) in *.
  assert (LB : (99 / 100 * M <= l)%R) by (revert L; unfold Rabs; destruct Rcase_abs; lra).
  assert (TINY : (pow2 (-60) <= / 1000)%R) by (apply (Rle_trans _ _ _ small_60); lra).
  destruct (norm_parts x y (val x) (val y) (within_mono 2 55 _ ltac:(lia) WX) (within_mono 2 55 _ ltac:(lia) WY) (val_round x) (val_round y) ltac:(fold l; lra)) as (Q & [FX _] & [FY _] & CX & CY). cbv zeta in *. fold l in CX, CY.
  unfold n, Walls.normalize2. rewrite Q. cbn [fst snd]. split; [exact FX|]. split; [exact FY|].
  pose proof (axis_below A B) as BA. pose proof (axis_below B A) as BB. rewrite (Rplus_comm (B * B)) in BB. fold M in BA, BB. assert (LP : (0 < l)%R) by lra.
  pose proof (ratio_change (val x) A l M d MP LP BA DA L) as RX. pose proof (ratio_change (val y) B l M d MP LP BB DB L) as RY.
  assert (F : (3 * d / l <= 4 * d / M)%R).
  { unfold Rdiv. apply (Rmult_le_reg_r (l * M)); [apply Rmult_lt_0_compat; assumption|]. replace (3 * d * / l * (l * M))%R with (3 * d * M)%R by (field; lra). replace (4 * d * / M * (l * M))%R with (4 * d * l)%R by (field; lra).
    assert (d * M <= d * (100 / 99 * l))%R by (apply Rmult_le_compat_l; lra). assert (0 <= d * l)%R by (apply Rmult_le_pos; lra). lra. }
  revert CX CY. generalize (val (div32 x (sqrt32 (add32 (mul32 x x) (mul32 y y))))) (val (div32 y (sqrt32 (add32 (mul32 x x) (mul32 y y))))). intros c c' CX CY.
  split; [replace (c - A / M)%R with ((c - val x / l) + (val x / l - A / M))%R by ring|replace (c' - B / M)%R with ((c' - val y / l) + (val y / l - B / M))%R by ring]; apply (Rle_trans _ _ _ (Rabs_triang _ _)); lra.
Qed.
(** The normal of a side *)
Lemma edge_close (points : list RenderVertex) i p q : nth i points no_vertex = p -> nth (after_index (List.length points) i) points no_vertex = q -> bounded_vertex p -> bounded_vertex q -> apart p q ->
  let e := edge_normal points i in within 1 (fst e) /\ within 1 (snd e) /\ (Rabs (val (fst e) - fst (right_angle p q)) <= / 1000000)%R /\ (Rabs (val (snd e) + snd (right_angle p q)) <= / 1000000)%R /\ norm (right_angle p q) = 1%R.
Proof.
  intros P Q [PX PY] [QX QY] A e. unfold e, edge_normal. rewrite P, Q. clear e P Q. cbv zeta.
  destruct (sub_val 54 _ _ ltac:(lia) PX QX) as [WX VX]. destruct (sub_val 54 _ _ ltac:(lia) PY QY) as [WY VY].
  unfold right_angle. cbn [fst snd]. rewrite !real_val by (apply PX || apply PY || apply QX || apply QY). set (s := (val (rv_x p) - val (rv_x q))%R) in *. set (t := (val (rv_y p) - val (rv_y q))%R) in *.
  replace (val (rv_x q) - val (rv_x p))%R with (- s)%R by (unfold s; ring). replace (val (rv_y q) - val (rv_y p))%R with (- t)%R by (unfold t; ring). replace (- s * - s + - t * - t)%R with (s * s + t * t)%R by ring.
  assert (L : (pow2 (-60) <= sqrt (s * s + t * t))%R).
  { destruct A as [A|A]; [apply (Rle_trans _ (Rabs s)); [unfold s; rewrite Rabs_minus_sym; apply far_step; assumption|apply axis_below]|].
    apply (Rle_trans _ (Rabs t)); [unfold t; rewrite Rabs_minus_sym; apply far_step; assumption|]. rewrite Rplus_comm. apply axis_below. }
  destruct (norm_parts (sub32 (rv_x p) (rv_x q)) (sub32 (rv_y p) (rv_y q)) s t WX WY VX VY L) as (E & FX & FY & CX & CY). cbv zeta in *. rewrite E. cbn [fst snd]. pose proof (bpow_gt_0 radix2 (-60)) as P0.
  split; [exact FY|]. split; [exact FX|]. split; [rewrite Ropp_involutive; exact CY|]. split; [unfold Rdiv in *; rewrite Ropp_mult_distr_l_reverse; exact CX|].
  unfold norm. cbn [fst snd]. clear - L P0. set (l := sqrt (s * s + t * t)) in *. assert (LL : (l * l = s * s + t * t)%R) by (apply sqrt_sqrt; apply Rplus_le_le_0_compat; apply Rle_0_sqr).
  rewrite Ropp_involutive. replace (t / l * (t / l) + - s / l * (- s / l))%R with ((s * s + t * t) / (l * l))%R by (field; lra). rewrite LL. unfold Rdiv. rewrite Rinv_r by (rewrite <- LL; apply Rgt_not_eq; apply Rmult_lt_0_compat; lra). apply sqrt_1.
Qed.
Lemma neg_close x r e : fin x -> (Rabs (val x + r) <= e)%R -> fin (neg_f32 x) /\ (Rabs (val (neg_f32 x) - r) <= e)%R.
Proof. intros F H. destruct (neg_val x F) as [F' V]. split; [exact F'|]. rewrite V. replace (- val x - r)%R with (- (val x + r))%R by ring. rewrite Rabs_Ropp. exact H. Qed.
Lemma sum_close a b A B : within 1 a -> within 1 b -> (Rabs (val a - A) <= / 1000000)%R -> (Rabs (val b - B) <= / 1000000)%R -> within 2 (add32 a b) /\ (Rabs (val (add32 a b) - (A + B)) <= 23 / 10000000)%R.
Proof.
  intros WA WB CA CB. destruct (add_val 1 a b ltac:(lia) WA WB) as [W V]. split; [exact W|]. rewrite V.
  assert (S : (Rabs (val a + val b) <= 4)%R) by (destruct WA as [_ WA], WB as [_ WB]; change (pow2 1) with 2%R in *; apply (Rle_trans _ _ _ (Rabs_triang _ _)); lra).
  pose proof (rnd_near _ _ S) as N.
  replace (rnd (val a + val b) - (A + B))%R with ((rnd (val a + val b) - (val a + val b)) + ((val a - A) + (val b - B)))%R by ring. apply (Rle_trans _ _ _ (Rabs_triang _ _)). pose proof (Rabs_triang (val a - A) (val b - B)). lra.
Qed.
Lemma corner_close points corner edge other first u v : norm u = 1%R ->
  (let e := edge_normal points edge in within 1 (fst e) /\ within 1 (snd e) /\ (Rabs (val (fst e) - fst u) <= / 1000000)%R /\ (Rabs (val (snd e) + snd u) <= / 1000000)%R) ->
  (rv_smooth (nth corner points no_vertex) = true -> let o := edge_normal points other in within 1 (fst o) /\ within 1 (snd o) /\ (Rabs (val (fst o) - fst v) <= / 1000000)%R /\ (Rabs (val (snd o) + snd v) <= / 1000000)%R) ->
  let n := corner_normal points corner edge other first in corner_normal_between (rv_smooth (nth corner points no_vertex)) u v (fst n) (neg_f32 (snd n)).
Proof.
  intros NU (WE & WF & CE & CF) O n. assert (MINUS : forall x r, (Rabs (x + r) <= / 1000000)%R -> (Rabs (x - - r) <= / 1000000)%R) by (intros x r; replace (x - - r)%R with (x + r)%R by ring; auto). apply MINUS in CF.
  assert (FIN : forall x y p q e, fin x /\ fin y /\ (Rabs (val x - p) <= e)%R /\ (Rabs (val y - q) <= e)%R -> forall r, q = (- r)%R -> near_pair e x (neg_f32 y) (p, r)).
  { intros x y p q e (FX & FY & CX & CY) r ->. destruct (neg_close y r e FY) as [FN CN]; [replace (val y + r)%R with (val y - - r)%R by ring; exact CY|].
    split; [apply fin_finite, FX|]. split; [apply fin_finite, FN|]. rewrite !real_val by assumption. split; [exact CX|exact CN]. }
  unfold corner_normal_between, n, corner_normal. cbv zeta. destruct (rv_smooth _).
  - destruct (O eq_refl) as (WO & WP & CO & CP). clear O. apply MINUS in CP. intros M. set (S := vector_sum u v) in *.
    assert (MM : (norm S = sqrt (fst S * fst S + - snd S * - snd S))%R) by (unfold norm; f_equal; ring). 
    assert (G : forall x y, within 2 x -> within 2 y -> (Rabs (val x - fst S) <= 23 / 10000000)%R -> (Rabs (val y - - snd S) <= 23 / 10000000)%R -> near_pair (/ 10000) (fst (Walls.normalize2 (x, y))) (neg_f32 (snd (Walls.normalize2 (x, y)))) (fst S / norm S, snd S / norm S)%R).
    { intros x y WX WY CX CY. rewrite MM in M. pose proof (norm_close x y (fst S) (- snd S) (23 / 10000000) (/ 10000) WX WY) as K. cbv zeta in K. rewrite <- MM in *. apply (FIN _ _ _ _ _ (K ltac:(lra) M CX CY ltac:(apply (Rle_trans _ (4 * (23 / 10000000) / / 10 + / 1000000)); [apply Rplus_le_compat_r; unfold Rdiv at 1 3; apply Rmult_le_compat_l; [lra|]; apply Rinv_le; lra|lra]))). unfold Rdiv. ring. }
    destruct first.
    + destruct (sum_close _ _ _ _ WO WE CO CE) as [W1 C1]. destruct (sum_close _ _ _ _ WP WF CP CF) as [W2 C2]. apply G; [exact W1|exact W2| |]; unfold S, vector_sum; cbn [fst snd]; [rewrite (Rplus_comm (fst u)); exact C1|replace (- (snd u + snd v))%R with (- snd v + - snd u)%R by ring; exact C2].
    + destruct (sum_close _ _ _ _ WE WO CE CO) as [W1 C1]. destruct (sum_close _ _ _ _ WF WP CF CP) as [W2 C2]. apply G; [exact W1|exact W2| |]; unfold S, vector_sum; cbn [fst snd]; [exact C1|replace (- (snd u + snd v))%R with (- snd u + - snd v)%R by ring; exact C2].
  - clear O. destruct (edge_normal points edge) as [x y] eqn:E. cbn [fst snd] in *. assert (MM : (sqrt (fst u * fst u + - snd u * - snd u) = 1)%R) by (rewrite <- NU; unfold norm; f_equal; ring).
    pose proof (norm_close x y (fst u) (- snd u) (/ 1000000) (/ 100000) (within_mono 1 2 _ ltac:(lia) WE) (within_mono 1 2 _ ltac:(lia) WF)) as K. cbv zeta in K. rewrite MM in K. destruct u as [ux uy]. cbn [fst snd] in *.
    replace (ux, uy)%R with (ux / 1, uy)%R by (f_equal; field). apply (FIN _ _ _ _ _ (K ltac:(lra) ltac:(lra) CE CF ltac:(lra))). field.
Qed.

(** ** The texture of built-in shapes *)
Definition half_ulp : f32 := Z_to_w32 0x33000000.
Lemma half_and_ulp : rnd (/ 2 + pow2 (-25)) = (/ 2)%R.
Proof.
  destruct (known half_ulp false 8388608 (-48) eq_refl) as [F V]. assert (VU : val half_ulp = pow2 (-25)).
  { rewrite V. cbn [cond_Zopp]. change 8388608%Z with (radix_val radix2 ^ 23)%Z. rewrite IZR_Zpower by lia. rewrite <- bpow_plus. reflexivity. }
  destruct half_val as [FO VO].
  assert (WO : within 0 f32_half) by (split; [exact FO|]; rewrite VO, Rabs_pos_eq by lra; change (pow2 0) with 1%R; lra).
  assert (WU : within 0 half_ulp) by (split; [exact F|]; rewrite VU, Rabs_pos_eq by apply bpow_ge_0; apply bpow_le; lia).
  destruct (add_val 0 f32_half half_ulp ltac:(lia) WO WU) as [_ A]. rewrite VO, VU in A. rewrite <- A. transitivity (val f32_half); [|exact VO]. apply (f_equal val). vm_compute. reflexivity.
Qed.
Definition half_share (lo hi x : f32) : f32 := mul32 (sub32 x lo) (div32 f32_half (sub32 hi lo)).
Lemma share_half lo hi x : within 54 lo -> within 54 hi -> within 54 x -> (val lo <= val x <= val hi)%R -> (pow2 (-100) <= val hi - val lo)%R ->
  exists i : R, (0 <= i)%R /\ fin (half_share lo hi x) /\ (0 <= val (half_share lo hi x) <= / 2)%R /\ val (half_share lo hi x) = rnd (rnd (val x - val lo) * i) /\ i = val (div32 f32_half (sub32 hi lo)).
Proof.
  intros WL WH WX [LX XH] D. unfold half_share. destruct (sub_val 54 hi lo ltac:(lia) WH WL) as [WW VW]. destruct (sub_val 54 x lo ltac:(lia) WX WL) as [WA VA].
  assert (W1 : (pow2 (-100) <= val (sub32 hi lo))%R) by (rewrite VW; apply round_ge_generic; auto with typeclass_instances; apply pow_format; lia).
  assert (A0 : (0 <= val (sub32 x lo) <= val (sub32 hi lo))%R) by (rewrite VA, VW; split; [apply round_pos; lra|apply round_le; auto with typeclass_instances; lra]).
  rewrite <- VA. exists (val (div32 f32_half (sub32 hi lo))). clear VW VA. revert WW WA W1 A0. generalize (sub32 hi lo) (sub32 x lo). intros w a WW WA W1 A0. pose proof (bpow_gt_0 radix2 (-100)) as P100.
  destruct half_val as [FO VO]. assert (WO : within 0 f32_half) by (split; [exact FO|]; rewrite VO, Rabs_pos_eq by lra; change (pow2 0) with 1%R; lra).
  destruct (div_val 0 (-100) f32_half w ltac:(lia) WO) as [[FI _] VI]; [rewrite Rabs_pos_eq by lra; exact W1|]. rewrite VO in VI.
  assert (WU : (val w <= pow2 55)%R) by (destruct WW as [_ X]; apply (Rle_trans _ _ _ (Rle_abs _)); exact X).
  set (q := (/ 2 / val w)%R) in *. assert (Q1 : (pow2 (-56) <= q)%R).
  { unfold q. change (-56)%Z with (- (55) + -1)%Z. rewrite bpow_plus, bpow_opp. change (pow2 (-1)) with (/ 2)%R. unfold Rdiv. rewrite (Rmult_comm (/ 2)). apply Rmult_le_compat_r; [lra|]. apply Rinv_le; [lra|exact WU]. }
  pose proof (bpow_gt_0 radix2 (-56)) as P56. assert (Q0 : (0 < q)%R) by lra.
  assert (E : (Rabs (rnd q - q) <= / 2 * pow2 (-24 + 1) * Rabs q)%R).
  { apply (relative_error_N_FLT radix2 (-149) 24 eq_refl). rewrite Rabs_pos_eq by lra. apply (Rle_trans _ (pow2 (-56))); [apply bpow_le; lia|exact Q1]. }
  rewrite (Rabs_pos_eq q) in E by lra. apply Rabs_le_inv in E. rewrite <- VI in E.
  replace (/ 2 * pow2 (-24 + 1))%R with (pow2 (-24)) in E by (change (-24 + 1)%Z with (1 + -24)%Z; rewrite bpow_plus; change (pow2 1) with 2%R; field).
  assert (I0 : (0 <= val (div32 f32_half w))%R) by (rewrite VI; apply round_pos; lra). revert FI I0 E. generalize (div32 f32_half w). intros i FI I0 E. clear VI.
  assert (U : (val i <= q * (1 + pow2 (-24)))%R) by lra.
  assert (H25 : (/ 2 * (1 + pow2 (-24)) = / 2 + pow2 (-25))%R) by (change (-25)%Z with (-1 + -24)%Z; rewrite bpow_plus; change (pow2 (-1)) with (/ 2)%R; ring).
  assert (PW : (val w * val i <= / 2 + pow2 (-25))%R).
  { rewrite <- H25. apply (Rle_trans _ (val w * (q * (1 + pow2 (-24))))); [apply Rmult_le_compat_l; lra|]. right. unfold q. field. lra. }
  assert (PA : (0 <= val a * val i <= / 2 + pow2 (-25))%R) by (split; [apply Rmult_le_pos; lra|apply (Rle_trans _ (val w * val i)); [apply Rmult_le_compat_r; lra|exact PW]]).
  assert (SM : (pow2 (-25) <= 1)%R) by (change 1%R with (pow2 0); apply bpow_le; lia).
  destruct (mul_small a i (proj1 WA) FI) as [FM VM]; [rewrite Rabs_pos_eq by lra; change (pow2 2) with 4%R; lra|].
  split; [exact I0|]. split; [exact FM|]. rewrite VM. split; [|split; reflexivity]. split; [apply round_pos; lra|]. rewrite <- half_and_ulp. apply round_le; auto with typeclass_instances. lra.
Qed.
Lemma share_order lo hi x y : within 54 lo -> within 54 hi -> within 54 x -> within 54 y -> (val lo <= val x)%R -> (val x <= val y)%R -> (val y <= val hi)%R -> (pow2 (-100) <= val hi - val lo)%R ->
  (val (half_share lo hi x) <= val (half_share lo hi y))%R.
Proof.
  intros WL WH WX WY A B C D. destruct (share_half lo hi x WL WH WX ltac:(lra) D) as (i & I0 & _ & _ & -> & EI). destruct (share_half lo hi y WL WH WY ltac:(lra) D) as (j & _ & _ & _ & -> & EJ). rewrite EJ, <- EI.
  apply round_le; auto with typeclass_instances. apply Rmult_le_compat_r; [exact I0|]. apply round_le; auto with typeclass_instances. lra.
Qed.
Lemma beside x : fin x -> (0 <= val x <= / 2)%R -> fin (add32 x f32_half) /\ (/ 2 <= val (add32 x f32_half) <= 1)%R /\ forall y, fin y -> (0 <= val y <= / 2)%R -> (val x <= val y)%R -> (val (add32 x f32_half) <= val (add32 y f32_half))%R.
Proof.
  intros F B. destruct half_val as [FH VH]. assert (W : forall z, fin z -> (0 <= val z <= / 2)%R -> within 0 z) by (intros z FZ BZ; split; [exact FZ|]; rewrite Rabs_pos_eq by lra; change (pow2 0) with 1%R; lra).
  assert (WH : within 0 f32_half) by (apply W; [exact FH|rewrite VH; lra]). destruct (add_val 0 x f32_half ltac:(lia) (W x F B) WH) as [[FA _] VA]. rewrite VH in VA. split; [exact FA|]. rewrite VA.
  assert (G : generic_format radix2 fexp24 (/ 2)) by (replace (/ 2)%R with (pow2 (-1)) by reflexivity; apply pow_format; lia). assert (G1 : generic_format radix2 fexp24 1) by (change 1%R with (pow2 0); apply pow_format; lia).
  split; [split; [apply round_ge_generic; auto with typeclass_instances; lra|apply round_le_generic; auto with typeclass_instances; lra]|].
  intros y FY BY L. destruct (add_val 0 y f32_half ltac:(lia) (W y FY BY) WH) as [_ VY]. rewrite VY, VH. apply round_le; auto with typeclass_instances. lra.
Qed.
(** The shares of all the values on one axis *)
Lemma axis_share n g : 3 <= n -> (forall i, 0 <= i < n -> within 54 (g i)) -> (exists i j, 0 <= i < n /\ 0 <= j < n /\ far_apart (g i) (g j)) ->
  let l := map g (steps n) in let t := fun i => half_share (ring_min l) (ring_max l) (g i) in
  (forall i, 0 <= i < n -> fin (t i) /\ (0 <= val (t i) <= / 2)%R) /\ (forall i j, 0 <= i < n -> 0 <= j < n -> (val (g i) <= val (g j))%R -> (val (t i) <= val (t j))%R).
Proof.
  intros N W (a & b & A & B & F) l t.
  assert (IN : forall i, 0 <= i < n -> In (g i) l) by (intros i I; apply in_map, steps_in, I).
  assert (NE : l <> []) by (intros E; specialize (IN a A); rewrite E in IN; exact IN).
  assert (AL : forall x, In x l -> within 54 x) by (intros x I; apply in_map_iff in I; destruct I as (i & <- & I); apply steps_in in I; apply W, I).
  assert (FN : Forall (fun x => f32_is_nan x = false) l).
  { apply Forall_forall. intros x I. apply AL in I. apply fin_not_nan, I. }
  destruct (ring_min_spec l NE FN) as [IM LM]. destruct (ring_max_spec l NE FN) as [IX LX]. pose proof (AL _ IM) as WM. pose proof (AL _ IX) as WX.
  assert (BT : forall i, 0 <= i < n -> (val (ring_min l) <= val (g i) <= val (ring_max l))%R).
  { intros i I. pose proof (proj1 (W i I)) as FI. split; apply le_val; try exact FI; try exact (proj1 WM); try exact (proj1 WX); [apply LM|apply LX]; apply IN, I. }
  assert (D : (pow2 (-100) <= val (ring_max l) - val (ring_min l))%R).
  { pose proof (far_step _ _ (W a A) (W b B) F) as S. pose proof (BT a A). pose proof (BT b B). assert (L : (pow2 (-100) <= pow2 (-60))%R) by (apply bpow_le; lia). revert S. unfold Rabs. destruct (Rcase_abs _); intros; lra. }
  split.
  - intros i I. destruct (share_half _ _ _ WM WX (W i I) (BT i I) D) as (_ & _ & E & R & _). split; [exact E|exact R].
  - intros i j I J L. pose proof (BT i I). pose proof (BT j J). apply share_order; try apply W; try exact WM; try exact WX; try exact D; try assumption; lra.
Qed.

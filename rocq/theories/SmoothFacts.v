(** Smooth curves: bounds of their coordinates, and the depth of the subdivision. *)
From Verif Require Import Base Text Image Sound Quantize ColorText JsonFloat Cfb Mesh Common BaseFacts BiffFacts CommonFacts QuantizeFacts QuantizeMono FlipFacts Browser Builtin SpecBuiltin BuiltinReals Polygon SpecPolygon Smooth FloatBounds.
From Coq Require Import Reals Lra Floats.SpecFloat ZifyBool Sorted.
From Flocq Require Import Core.Core IEEE754.BinarySingleNaN.

#[local] Instance P24 : FLX.Prec_gt_0 24 := eq_refl.
#[local] Instance M24 : Prec_lt_emax 24 128 := eq_refl.
#[local] Instance vexp24 : Valid_exp fexp24 := fexp_correct 24 128 P24.
#[local] Instance vrnd24 : Valid_rnd (round_mode mode_NE) := valid_rnd_round_mode mode_NE.

(** ** Parameters between 0 and 1 *)
Definition unit_t (t : f32) : Prop := fin t /\ (0 <= val t <= 1)%R.
Lemma unit_within t : unit_t t -> within 0 t.
Proof. intros [F R]. split; [exact F|]. rewrite Rabs_pos_eq by lra. change (pow2 0) with 1%R. lra. Qed.
Lemma val_format x : generic_format radix2 fexp24 (val x).
Proof. apply generic_format_B2R. Qed.
Lemma half_within : within (-1) f32_half.
Proof. destruct half_real32 as [V F]. split; [exact F|]. unfold val. rewrite V. rewrite Rabs_pos_eq by lra. change (pow2 (-1)) with (/ 2)%R. lra. Qed.
Lemma mid_val t1 t2 : unit_t t1 -> unit_t t2 -> (val t1 <= val t2)%R ->
  unit_t (mid_t t1 t2) /\ (val t1 <= val (mid_t t1 t2) <= val t2)%R /\ val (mid_t t1 t2) = rnd (rnd (val t1 + val t2) * / 2)%R.
Proof.
  intros U1 U2 L. pose proof (unit_within _ U1) as W1. pose proof (unit_within _ U2) as W2.
  destruct (add_val 0 t1 t2 ltac:(lia) W1 W2) as [WS VS]. destruct (mul_val (0 + 1) (-1) _ _ ltac:(lia) WS half_within) as [WM VM].
  unfold mid_t. destruct half_real32 as [HV _]. fold (val f32_half) in HV. rewrite HV, VS in VM.
  assert (R : (2 * val t1 <= rnd (val t1 + val t2) <= 2 * val t2)%R).
  { split; [apply round_ge_generic|apply round_le_generic]; auto with typeclass_instances; try (apply twice_format, val_format); lra. }
  assert (R2 : (val t1 <= rnd (rnd (val t1 + val t2) * / 2) <= val t2)%R).
  { split; [apply round_ge_generic|apply round_le_generic]; auto with typeclass_instances; try apply val_format; lra. }
  rewrite VM. split; [|split; [exact R2|reflexivity]]. split; [apply WM|]. rewrite VM. destruct U1 as [_ ?], U2 as [_ ?]. lra.
Qed.
(** A number with few digits is a float. *)
Lemma few_digits m e : (Z.abs m < 2 ^ 24)%Z -> (-149 <= e)%Z -> generic_format radix2 fexp24 (IZR m * pow2 e).
Proof. intros M L. apply (generic_format_FLT radix2 (-149) 24). exists (Float radix2 m e); cbn [Fnum Fexp]; [reflexivity|exact M|exact L]. Qed.
(** A float of 2^(23-k) and more is a multiple of 2^-k. *)
Lemma large_multiple x k : fin x -> (0 <= k <= 149)%Z -> (pow2 (23 - k) <= val x)%R -> exists m, val x = (IZR m * pow2 (- k))%R.
Proof.
  intros F K L. pose proof (val_format x) as G. apply (FLT_format_generic radix2 (-149) 24) in G. destruct G as [[m e] E M LE]. cbn [Fnum Fexp] in M, LE.
  unfold F2R in E. cbn [Fnum Fexp] in E. rewrite E.
  assert (P : (0 < m)%Z).
  { apply lt_IZR. pose proof (bpow_gt_0 radix2 e). pose proof (bpow_gt_0 radix2 (23 - k)). destruct (Rlt_or_le 0 (IZR m)); [assumption|]. rewrite E in L. nra. }
  assert (ME : (-k <= e)%Z).
  { apply Z.nlt_ge. intros LT. rewrite E in L. assert ((IZR m * pow2 e < pow2 (24 + e))%R).
    { rewrite bpow_plus. apply Rmult_lt_compat_r; [apply bpow_gt_0|]. change (pow2 24) with (IZR (2 ^ 24)). apply IZR_lt. change (radix_val radix2) with 2%Z in M. lia. }
    assert ((pow2 (24 + e) <= pow2 (23 - k))%R) by (apply bpow_le; lia). lra. }
  exists (m * 2 ^ (e + k))%Z. rewrite mult_IZR. change 2%Z with (radix_val radix2). rewrite IZR_Zpower by lia. rewrite Rmult_assoc, <- bpow_plus. f_equal. f_equal. lia.
Qed.
Lemma tiny_multiple x : exists m, val x = (IZR m * pow2 (-149))%R.
Proof.
  pose proof (val_format x) as G. apply (FLT_format_generic radix2 (-149) 24) in G. destruct G as [[m e] E M LE]. cbn [Fnum Fexp] in M, LE.
  exists (m * 2 ^ (e + 149))%Z. rewrite E. unfold F2R. cbn [Fnum Fexp]. rewrite mult_IZR. change 2%Z with (radix_val radix2). rewrite IZR_Zpower by lia. rewrite Rmult_assoc, <- bpow_plus. f_equal. f_equal. lia.
Qed.
Definition at_step (k j : Z) (t : f32) : Prop := fin t /\ val t = (IZR j * pow2 (- k))%R.
Lemma step_between k j m : (IZR j * pow2 (- k) <= IZR m * pow2 (- k) <= IZR (j + 1) * pow2 (- k))%R -> m = j \/ m = (j + 1)%Z.
Proof.
  intros [A B]. pose proof (bpow_gt_0 radix2 (- k)) as P. apply Rmult_le_reg_r in A; [|exact P]. apply Rmult_le_reg_r in B; [|exact P]. apply le_IZR in A, B. lia.
Qed.
Lemma step_unit k j t : (0 <= k)%Z -> (0 <= j <= 2 ^ k)%Z -> at_step k j t -> unit_t t.
Proof.
  intros K J [F V]. split; [exact F|]. rewrite V. pose proof (bpow_gt_0 radix2 (- k)) as P. assert (E : (IZR (2 ^ k) * pow2 (- k) = 1)%R).
  { change 2%Z with (radix_val radix2). rewrite IZR_Zpower by lia. rewrite <- bpow_plus. replace (k + - k)%Z with 0%Z by lia. reflexivity. }
  split; [apply Rmult_le_pos; [apply IZR_le; lia|lra]|]. rewrite <- E. apply Rmult_le_compat_r; [lra|]. apply IZR_le. lia.
Qed.
Lemma mid_split k j t1 t2 : (0 <= k <= 149)%Z -> (0 <= j < 2 ^ k)%Z -> at_step k j t1 -> at_step k (j + 1) t2 ->
  (k < 149)%Z /\ at_step (k + 1) (2 * j + 1) (mid_t t1 t2) \/ val (mid_t t1 t2) = val t1 \/ val (mid_t t1 t2) = val t2.
Proof.
  intros K J S1 S2. pose proof (step_unit k j t1 ltac:(lia) ltac:(lia) S1) as U1. pose proof (step_unit k (j + 1) t2 ltac:(lia) ltac:(lia) S2) as U2. destruct S1 as [F1 V1]. destruct S2 as [F2 V2].
  assert (L : (val t1 <= val t2)%R) by (rewrite V1, V2; apply Rmult_le_compat_r; [apply bpow_ge_0|apply IZR_le; lia]).
  destruct (mid_val t1 t2 U1 U2 L) as (UM & B & VM). pose proof (proj1 UM) as FM.
  destruct (Z.lt_ge_cases j (2 ^ 23)) as [SM|LG].
  - destruct (Z.lt_ge_cases k 149) as [KL|KE].
    + left. split; [exact KL|]. split; [exact FM|]. rewrite VM, V1, V2.
      replace (IZR j * pow2 (- k) + IZR (j + 1) * pow2 (- k))%R with (IZR (2 * j + 1) * pow2 (- k))%R by (rewrite !plus_IZR, mult_IZR; ring).
      rewrite (round_generic radix2 fexp24 _ (IZR (2 * j + 1) * pow2 (- k))) by (apply few_digits; lia).
      replace (IZR (2 * j + 1) * pow2 (- k) * / 2)%R with (IZR (2 * j + 1) * pow2 (- (k + 1)))%R.
      * apply round_generic; auto with typeclass_instances. apply few_digits; lia.
      * replace (- (k + 1))%Z with (- k + -1)%Z by lia. rewrite bpow_plus. change (pow2 (-1)) with (/ 2)%R. ring.
    + assert (KE' : k = 149%Z) by lia. subst k. destruct (tiny_multiple (mid_t t1 t2)) as [m M]. right. rewrite M, V1, V2 in B. change (-149)%Z with (- (149))%Z in *. apply step_between in B. rewrite M, V1, V2. destruct B as [-> | ->]; auto.
  - destruct (large_multiple (mid_t t1 t2) k FM K) as [m M].
    + apply Rle_trans with (val t1); [|apply B]. rewrite V1. replace (23 - k)%Z with (23 + - k)%Z by lia. rewrite bpow_plus. apply Rmult_le_compat_r; [apply bpow_ge_0|].
      change (pow2 23) with (IZR (2 ^ 23)). apply IZR_le, LG.
    + right. rewrite M, V1, V2 in B. apply step_between in B. rewrite M, V1, V2. destruct B as [-> | ->]; auto.
Qed.

(** ** The subdivision *)
Section Depth.
Context {V : Type}.
Variable at_ : f32 -> V.
Variable flat : V -> V -> V -> bool.
Variable good : V -> Prop.
Variable same : V -> V -> Prop.
Hypothesis same_trans : forall a b c, same a b -> same b c -> same a c.
Hypothesis at_good : forall t, unit_t t -> good (at_ t).
Hypothesis at_same : forall t t', unit_t t -> unit_t t' -> val t = val t' -> same (at_ t) (at_ t').
Hypothesis flat_first : forall v1 v2 m, good v1 -> good v2 -> good m -> same m v1 -> flat v1 v2 m = true.
Hypothesis flat_second : forall v1 v2 m, good v1 -> good v2 -> good m -> same m v2 -> flat v1 v2 m = true.

Lemma subdivide_inner : forall d k j fuel t1 t2 v1 v2, Z.of_nat d = 149 - k -> (d < fuel)%nat -> 0 <= k -> 0 <= j < 2 ^ k -> at_step k j t1 -> at_step k (j + 1) t2 ->
  good v1 -> good v2 -> same (at_ t1) v1 -> same (at_ t2) v2 -> exists l, subdivide at_ flat fuel t1 t2 v1 v2 = Ok l.
Proof.
  induction d as [|d IH]; intros k j fuel t1 t2 v1 v2 D F K J S1 S2 G1 G2 E1 E2; (destruct fuel as [|fuel]; [lia|]); cbn [subdivide]; cbv zeta.
  all: pose proof (step_unit k j t1 ltac:(lia) ltac:(lia) S1) as U1; pose proof (step_unit k (j + 1) t2 ltac:(lia) ltac:(lia) S2) as U2.
  all: assert (L : (val t1 <= val t2)%R) by (rewrite (proj2 S1), (proj2 S2); apply Rmult_le_compat_r; [apply bpow_ge_0|apply IZR_le; lia]).
  all: destruct (mid_val t1 t2 U1 U2 L) as (UM & _ & _); destruct (mid_split k j t1 t2 ltac:(lia) J S1 S2) as [[KL SM]|[E|E]].
  - lia.
  - rewrite flat_first; [eexists; reflexivity|assumption|assumption|apply at_good, UM|]. apply (same_trans _ (at_ t1)); [apply at_same; assumption|exact E1].
  - rewrite flat_second; [eexists; reflexivity|assumption|assumption|apply at_good, UM|]. apply (same_trans _ (at_ t2)); [apply at_same; assumption|exact E2].
  - destruct (flat v1 v2 _); [eexists; reflexivity|]. assert (P : 2 ^ (k + 1) = 2 * 2 ^ k) by (rewrite Z.pow_add_r by lia; lia).
    assert (SA : at_step (k + 1) (2 * j) t1).
    { destruct S1 as [A B]. split; [exact A|]. rewrite B, mult_IZR. replace (- (k + 1))%Z with (- k + -1)%Z by lia. rewrite bpow_plus. change (pow2 (-1)) with (/ 2)%R. field. }
    assert (SB : at_step (k + 1) (2 * j + 1 + 1) t2).
    { destruct S2 as [A B]. split; [exact A|]. rewrite B. replace (2 * j + 1 + 1)%Z with (2 * (j + 1))%Z by lia. rewrite mult_IZR. replace (- (k + 1))%Z with (- k + -1)%Z by lia. rewrite bpow_plus. change (pow2 (-1)) with (/ 2)%R. field. }
    assert (SE : same (at_ (mid_t t1 t2)) (at_ (mid_t t1 t2))) by (apply at_same; auto).
    destruct (IH (k + 1) (2 * j) fuel t1 (mid_t t1 t2) v1 (at_ (mid_t t1 t2))) as (a & ->); try assumption; try lia; [apply at_good, UM|].
    destruct (IH (k + 1) (2 * j + 1) fuel (mid_t t1 t2) t2 (at_ (mid_t t1 t2)) v2) as (b & ->); try assumption; try lia; [apply at_good, UM|]. eexists. reflexivity.
  - rewrite flat_first; [eexists; reflexivity|assumption|assumption|apply at_good, UM|]. apply (same_trans _ (at_ t1)); [apply at_same; assumption|exact E1].
  - rewrite flat_second; [eexists; reflexivity|assumption|assumption|apply at_good, UM|]. apply (same_trans _ (at_ t2)); [apply at_same; assumption|exact E2].
Qed.
Lemma subdivide_last : forall d k j fuel t1 t2 v1 v2, Z.of_nat d = 149 - k -> (d + 1 < fuel)%nat -> 0 <= k -> 0 <= j < 2 ^ k -> at_step k j t1 -> at_step k (j + 1) t2 ->
  good v1 -> good v2 -> same (at_ t1) v1 -> exists l, subdivide at_ flat fuel t1 t2 v1 v2 = Ok l.
Proof.
  induction d as [|d IH]; intros k j fuel t1 t2 v1 v2 D F K J S1 S2 G1 G2 E1; (destruct fuel as [|fuel]; [lia|]); cbn [subdivide]; cbv zeta.
  all: pose proof (step_unit k j t1 ltac:(lia) ltac:(lia) S1) as U1; pose proof (step_unit k (j + 1) t2 ltac:(lia) ltac:(lia) S2) as U2.
  all: assert (L : (val t1 <= val t2)%R) by (rewrite (proj2 S1), (proj2 S2); apply Rmult_le_compat_r; [apply bpow_ge_0|apply IZR_le; lia]).
  all: destruct (mid_val t1 t2 U1 U2 L) as (UM & BM & VM).
  all: assert (LAST : val (mid_t t1 t2) = val t2 -> exists l, (if flat v1 v2 (at_ (mid_t t1 t2)) then Ok [v1] else
      a <~ subdivide at_ flat fuel t1 (mid_t t1 t2) v1 (at_ (mid_t t1 t2)) ;; b <~ subdivide at_ flat fuel (mid_t t1 t2) t2 (at_ (mid_t t1 t2)) v2 ;; Ok (a ++ b)) = Ok l).
  1, 3: (intros E; destruct (flat v1 v2 _); [eexists; reflexivity|]; destruct fuel as [|fuel]; [lia|]; cbn [subdivide]; cbv zeta;
    destruct (mid_val t1 (mid_t t1 t2) U1 UM ltac:(lra)) as (UA & _ & VA); destruct (mid_val (mid_t t1 t2) t2 UM U2 ltac:(lra)) as (UB & BB & VB);
    rewrite flat_second; [|assumption|apply at_good, UM|apply at_good, UA|apply at_same; [exact UA|exact UM|rewrite VA, VM in *; rewrite E at 1; reflexivity]];
    rewrite flat_first; [|apply at_good, UM|assumption|apply at_good, UB|apply at_same; [exact UB|exact UM|lra]]; eexists; reflexivity).
  all: destruct (mid_split k j t1 t2 ltac:(lia) J S1 S2) as [[KL SM]|[E|E]]; [|rewrite flat_first; [eexists; reflexivity|assumption|assumption|apply at_good, UM|]; apply (same_trans _ (at_ t1)); [apply at_same; assumption|exact E1]|exact (LAST E)].
  - lia.
  - destruct (flat v1 v2 _); [eexists; reflexivity|]. assert (P : 2 ^ (k + 1) = 2 * 2 ^ k) by (rewrite Z.pow_add_r by lia; lia).
    assert (SA : at_step (k + 1) (2 * j) t1).
    { destruct S1 as [A B]. split; [exact A|]. rewrite B, mult_IZR. replace (- (k + 1))%Z with (- k + -1)%Z by lia. rewrite bpow_plus. change (pow2 (-1)) with (/ 2)%R. field. }
    assert (SB : at_step (k + 1) (2 * j + 1 + 1) t2).
    { destruct S2 as [A B]. split; [exact A|]. rewrite B. replace (2 * j + 1 + 1)%Z with (2 * (j + 1))%Z by lia. rewrite mult_IZR. replace (- (k + 1))%Z with (- k + -1)%Z by lia. rewrite bpow_plus. change (pow2 (-1)) with (/ 2)%R. field. }
    assert (SE : same (at_ (mid_t t1 t2)) (at_ (mid_t t1 t2))) by (apply at_same; auto).
    destruct (subdivide_inner d (k + 1) (2 * j) fuel t1 (mid_t t1 t2) v1 (at_ (mid_t t1 t2))) as (a & ->); try assumption; try lia; [apply at_good, UM|].
    destruct (IH (k + 1) (2 * j + 1) fuel (mid_t t1 t2) t2 (at_ (mid_t t1 t2)) v2) as (b & ->); try assumption; try lia; [apply at_good, UM|]. eexists. reflexivity.
Qed.
Lemma zero_step : at_step 0 0 f32_zero.
Proof. destruct zero_val as [F E]. split; [exact F|]. rewrite E. ring. Qed.
Lemma one_step : at_step 0 (0 + 1) f32_one.
Proof. destruct one_val as [F E]. split; [exact F|]. rewrite E. change (pow2 (- 0)) with 1%R. change (0 + 1)%Z with 1%Z. ring. Qed.
Lemma subdivide_ends fuel v1 v2 : (151 <= fuel)%nat -> good v1 -> good v2 -> same (at_ f32_zero) v1 -> exists l, subdivide at_ flat fuel f32_zero f32_one v1 v2 = Ok l.
Proof. intros F G1 G2 E. apply (subdivide_last 149 0 0); try assumption; try lia; [apply zero_step|apply one_step]. Qed.
End Depth.

(** ** Sizes of the coordinates *)
Lemma const_within x s m e k p : f32_value x = S754_finite s m e -> Z.pos m <= 2 ^ k -> 0 <= k -> k + e <= p -> within p x.
Proof. intros H L K P. apply (within_mono (k + e)); [exact P|]. apply (within_known x s m e); assumption. Qed.
Lemma three_within : within 2 f32_three.
Proof. apply (const_within _ false 12582912 (-22) 24); [reflexivity|lia|lia|lia]. Qed.
Lemma minus_three_within : within 2 f32_minus_three.
Proof. apply (const_within _ true 12582912 (-22) 24); [reflexivity|lia|lia|lia]. Qed.
Lemma two_within : within 1 f32_two.
Proof. apply (const_within _ false 8388608 (-22) 23); [reflexivity|lia|lia|lia]. Qed.
Lemma sub_within p x y : -149 <= p < 127 -> within p x -> within p y -> within (p + 1) (sub32 x y).
Proof. intros L X Y. apply (sub_val p x y L X Y). Qed.
Lemma add_within p x y : -149 <= p < 127 -> within p x -> within p y -> within (p + 1) (add32 x y).
Proof. intros L X Y. apply (add_val p x y L X Y). Qed.
Lemma mul_within p q x y : -149 <= p + q < 128 -> within p x -> within q y -> within (p + q) (mul32 x y).
Proof. intros L X Y. apply (mul_val p q x y L X Y). Qed.

(** A step of the parameter: the square root of a distance, or 1 *)
Definition step_size (d : f32) : Prop := within 11 d /\ (pow2 (-14) <= val d)%R.
Lemma one_step_size : step_size f32_one.
Proof.
  destruct one_val as [F V]. split; [split; [exact F|]|]; rewrite V; [rewrite Rabs_R1; change 1%R with (pow2 0); apply bpow_le; lia|].
  change 1%R with (pow2 0). apply bpow_le. lia.
Qed.
Lemma small_known : fin f32_1e4 /\ (pow2 (-14) <= val f32_1e4)%R.
Proof.
  destruct (known f32_1e4 false 13743895 (-37) eq_refl) as [F V]. split; [exact F|]. rewrite V. cbn [cond_Zopp]. change (-14)%Z with (23 + -37)%Z. rewrite bpow_plus. apply Rmult_le_compat_r; [apply bpow_ge_0|].
  change (pow2 23) with (IZR (2 ^ 23)). apply IZR_le. lia.
Qed.
Lemma step_checked d other : within 11 d -> (0 <= val d)%R -> step_size other -> step_size (if lt32 d f32_1e4 then other else d).
Proof.
  intros W P O. destruct small_known as [FS VS]. destruct (lt32 d f32_1e4) eqn:E; [exact O|]. split; [exact W|].
  assert (N : ~ (val d < val f32_1e4)%R) by (intros L; apply (lt_val d f32_1e4 (proj1 W) FS) in L; congruence). lra.
Qed.
Lemma square_pos p x : -149 <= p + p < 128 -> within p x -> within (p + p) (mul32 x x) /\ (0 <= val (mul32 x x))%R.
Proof. intros L W. destruct (mul_val p p x x L W W) as [A B]. split; [exact A|]. rewrite B. apply round_pos. nra. Qed.
Lemma roots_within x : within 44 x -> (0 <= val x)%R -> within 11 (sqrt32 (sqrt32 x)) /\ (0 <= val (sqrt32 (sqrt32 x)))%R.
Proof. intros W P. destruct (sqrt_val 22 x ltac:(lia) W P) as [W1 P1]. exact (sqrt_val 11 _ ltac:(lia) W1 P1). Qed.
Definition moderate_point (p : DragPoint) : Prop := within 20 (dp_x p) /\ within 20 (dp_y p).
Definition moderate_point3 (p : DragPoint) : Prop := within 20 (dp_x p) /\ within 20 (dp_y p) /\ within 20 (dp_z p).
Lemma distance_within p q : moderate_point p -> moderate_point q -> within 11 (distance_root p q) /\ (0 <= val (distance_root p q))%R.
Proof.
  intros [PX PY] [QX QY]. unfold distance_root. cbv zeta. pose proof (sub_within 20 _ _ ltac:(lia) QX PX) as DX. pose proof (sub_within 20 _ _ ltac:(lia) QY PY) as DY.
  destruct (square_pos 21 _ ltac:(lia) DX) as [SX PSX]. destruct (square_pos 21 _ ltac:(lia) DY) as [SY PSY]. destruct (add_val 42 _ _ ltac:(lia) SX SY) as [W E].
  apply roots_within; [apply (within_mono 43); [lia|exact W]|]. rewrite E. apply round_pos. lra.
Qed.
Lemma distance3_within p q : moderate_point3 p -> moderate_point3 q -> within 11 (distance_root3 p q) /\ (0 <= val (distance_root3 p q))%R.
Proof.
  intros (PX & PY & PZ) (QX & QY & QZ). unfold distance_root3. cbv zeta. pose proof (sub_within 20 _ _ ltac:(lia) QX PX) as DX. pose proof (sub_within 20 _ _ ltac:(lia) QY PY) as DY.
  pose proof (sub_within 20 _ _ ltac:(lia) QZ PZ) as DZ.
  destruct (square_pos 21 _ ltac:(lia) DX) as [SX PSX]. destruct (square_pos 21 _ ltac:(lia) DY) as [SY PSY]. destruct (square_pos 21 _ ltac:(lia) DZ) as [SZ PSZ].
  destruct (add_val 42 _ _ ltac:(lia) SX SY) as [W E]. destruct (add_val 43 _ _ ltac:(lia) W (within_mono 42 43 _ ltac:(lia) SZ)) as [W2 E2].
  apply roots_within; [exact W2|]. rewrite E2. apply round_pos. rewrite E. assert ((0 <= rnd (val (mul32 (sub32 (dp_x q) (dp_x p)) (sub32 (dp_x q) (dp_x p))) + val (mul32 (sub32 (dp_y q) (dp_y p)) (sub32 (dp_y q) (dp_y p)))))%R) by (apply round_pos; lra). lra.
Qed.
Lemma steps_within d0 d1 d2 : (within 11 d0 /\ (0 <= val d0)%R) -> (within 11 d1 /\ (0 <= val d1)%R) -> (within 11 d2 /\ (0 <= val d2)%R) ->
  let '(t0, t1, t2) := time_steps d0 d1 d2 in step_size t0 /\ step_size t1 /\ step_size t2.
Proof.
  intros [W0 P0] [W1 P1] [W2 P2]. unfold time_steps. cbv zeta. pose proof (step_checked d1 f32_one W1 P1 one_step_size) as S1.
  split; [apply step_checked; assumption|]. split; [exact S1|apply step_checked; assumption].
Qed.
Lemma tangent_within x0 x1 x2 dt0 dt1 : within 20 x0 -> within 20 x1 -> within 20 x2 -> step_size dt0 -> step_size dt1 -> within 37 (tangent x0 x1 x2 dt0 dt1).
Proof.
  intros X0 X1 X2 [D0 L0] [D1 L1]. unfold tangent.
  assert (S : (pow2 (-14) <= Rabs (val (add32 dt0 dt1)))%R).
  { destruct (add_val 11 dt0 dt1 ltac:(lia) D0 D1) as [_ E]. rewrite E. rewrite Rabs_pos_eq; [|apply round_pos; pose proof (bpow_ge_0 radix2 (-14)); lra].
    apply round_ge_generic; auto with typeclass_instances; [apply pow_format; lia|]. pose proof (bpow_ge_0 radix2 (-14)). lra. }
  pose proof (bpow_gt_0 radix2 (-14)) as P.
  destruct (div_val 21 (-14) (sub32 x1 x0) dt0 ltac:(lia) (sub_within 20 _ _ ltac:(lia) X1 X0)) as [A _]; [rewrite Rabs_pos_eq; lra|].
  destruct (div_val 21 (-14) (sub32 x2 x0) (add32 dt0 dt1) ltac:(lia) (sub_within 20 _ _ ltac:(lia) X2 X0) S) as [B _].
  destruct (div_val 21 (-14) (sub32 x2 x1) dt1 ltac:(lia) (sub_within 20 _ _ ltac:(lia) X2 X1)) as [C _]; [rewrite Rabs_pos_eq; lra|].
  apply (add_within 36); [lia| |apply (within_mono 35); [lia|exact C]]. apply (sub_within 35); [lia|exact A|exact B].
Qed.
Definition bounded_cubic (c : Cubic) : Prop := within 20 (c_0 c) /\ within 48 (c_1 c) /\ within 51 (c_2 c) /\ within 50 (c_3 c).
Lemma catmull_bounded x0 x1 x2 x3 dt0 dt1 dt2 : within 20 x0 -> within 20 x1 -> within 20 x2 -> within 20 x3 -> step_size dt0 -> step_size dt1 -> step_size dt2 ->
  bounded_cubic (catmull_coeffs x0 x1 x2 x3 dt0 dt1 dt2) /\ c_0 (catmull_coeffs x0 x1 x2 x3 dt0 dt1 dt2) = x1.
Proof.
  intros X0 X1 X2 X3 D0 D1 D2. split; [|reflexivity]. unfold catmull_coeffs, cubic_coeffs. cbv zeta.
  pose proof (mul_within 37 11 _ _ ltac:(lia) (tangent_within x0 x1 x2 dt0 dt1 X0 X1 X2 D0 D1) (proj1 D1)) as T0.
  pose proof (mul_within 37 11 _ _ ltac:(lia) (tangent_within x1 x2 x3 dt1 dt2 X1 X2 X3 D1 D2) (proj1 D1)) as T1.
  revert T0 T1. generalize (mul32 (tangent x0 x1 x2 dt0 dt1) dt1) (mul32 (tangent x1 x2 x3 dt1 dt2) dt1). intros t0 t1 T0 T1. unfold bounded_cubic. cbn [c_0 c_1 c_2 c_3].
  split; [exact X1|]. split; [exact T0|]. split.
  - apply (sub_within 50); [lia| |apply (within_mono 48); [lia|exact T1]]. apply (sub_within 49); [lia| |apply (mul_within 1 48); [lia|apply two_within|exact T0]].
    apply (within_mono 23); [lia|]. apply (add_within 22); [lia|apply (mul_within 2 20); [lia|apply minus_three_within|exact X1]|apply (mul_within 2 20); [lia|apply three_within|exact X2]].
  - apply (add_within 49); [lia| |apply (within_mono 48); [lia|exact T1]]. apply (add_within 48); [lia| |exact T0]. apply (within_mono 22); [lia|].
    apply (sub_within 21); [lia|apply (mul_within 1 20); [lia|apply two_within|exact X1]|apply (mul_within 1 20); [lia|apply two_within|exact X2]].
Qed.
(** The value of a cubic at a parameter, with the roundings *)
Definition cubic_real (c0 c1 c2 c3 t : R) : R :=
  let t2 := rnd (t * t) in let t3 := rnd (t2 * t) in rnd (rnd (rnd (rnd (c3 * t3) + rnd (c2 * t2)) + rnd (c1 * t)) + c0).
Lemma cubic_val c t : bounded_cubic c -> unit_t t -> within 54 (cubic c t) /\ val (cubic c t) = cubic_real (val (c_0 c)) (val (c_1 c)) (val (c_2 c)) (val (c_3 c)) (val t).
Proof.
  intros (C0 & C1 & C2 & C3) U. pose proof (unit_within t U) as T. unfold cubic, cubic_real. cbv zeta.
  destruct (mul_val 0 0 t t ltac:(lia) T T) as [T2 E2]. destruct (mul_val 0 0 (mul32 t t) t ltac:(lia) T2 T) as [T3 E3].
  destruct (mul_val 50 0 (c_3 c) _ ltac:(lia) C3 T3) as [A3 F3]. destruct (mul_val 51 0 (c_2 c) _ ltac:(lia) C2 T2) as [A2 F2]. destruct (mul_val 48 0 (c_1 c) _ ltac:(lia) C1 T) as [A1 F1].
  destruct (add_val 51 _ _ ltac:(lia) (within_mono (50 + 0) 51 _ ltac:(lia) A3) A2) as [B1 G1]. destruct (add_val 52 _ _ ltac:(lia) B1 (within_mono (48 + 0) 52 _ ltac:(lia) A1)) as [B2 G2].
  destruct (add_val 53 _ _ ltac:(lia) B2 (within_mono 20 53 _ ltac:(lia) C0)) as [B3 G3].
  split; [exact B3|]. rewrite G3, G2, G1, F1, F2, F3, E3, E2. reflexivity.
Qed.
Lemma rnd_zero : rnd 0 = 0%R.
Proof. apply round_0. auto with typeclass_instances. Qed.
Lemma cubic_start c : bounded_cubic c -> val (cubic c f32_zero) = val (c_0 c).
Proof.
  intros B. destruct (cubic_val c f32_zero B) as [_ E]; [apply (step_unit 0 0); [lia|lia|apply zero_step]|]. rewrite E. unfold cubic_real. destruct zero_val as [_ ->]. cbv zeta.
  repeat (rewrite Rmult_0_r || rewrite rnd_zero || rewrite Rplus_0_l). apply round_generic; auto with typeclass_instances. apply val_format.
Qed.

(** ** Flatness *)
Lemma sub_same p x y : -149 <= p < 127 -> within p x -> within p y -> val x = val y -> within (-149) (sub32 x y) /\ val (sub32 x y) = 0%R.
Proof.
  intros L X Y E. destruct (sub_val p x y L X Y) as [[F _] V]. rewrite E, Rminus_diag_eq, rnd_zero in V by reflexivity. split; [|exact V]. split; [exact F|]. rewrite V, Rabs_R0. apply bpow_ge_0.
Qed.
Lemma zero_within x : fin x -> val x = 0%R -> forall p, within p x.
Proof. intros F E p. split; [exact F|]. rewrite E, Rabs_R0. apply bpow_ge_0. Qed.
Lemma zero_mul q x y : -149 <= q < 128 -> fin x -> val x = 0%R -> within q y -> (fin (mul32 x y) /\ val (mul32 x y) = 0%R) /\ (fin (mul32 y x) /\ val (mul32 y x) = 0%R).
Proof.
  intros L F E Y. destruct (mul_val 0 q x y ltac:(lia) (zero_within x F E 0) Y) as [[A _] B]. destruct (mul_val q 0 y x ltac:(lia) Y (zero_within x F E 0)) as [[C _] D].
  rewrite E, Rmult_0_l, rnd_zero in B. rewrite E, Rmult_0_r, rnd_zero in D. repeat split; assumption.
Qed.
Lemma zero_sub x y : fin x -> fin y -> val x = 0%R -> val y = 0%R -> fin (sub32 x y) /\ val (sub32 x y) = 0%R.
Proof. intros FX FY X Y. destruct (sub_same 0 x y ltac:(lia) (zero_within _ FX X 0) (zero_within _ FY Y 0) ltac:(congruence)) as [[A _] B]. split; assumption. Qed.
Lemma zero_add x y : fin x -> fin y -> val x = 0%R -> val y = 0%R -> fin (add32 x y) /\ val (add32 x y) = 0%R.
Proof. intros FX FY X Y. destruct (add_val 0 x y ltac:(lia) (zero_within _ FX X 0) (zero_within _ FY Y 0)) as [[A _] B]. rewrite X, Y, Rplus_0_l, rnd_zero in B. split; assumption. Qed.
Lemma above_zero_lt x a : fin x -> val x = 0%R -> above_zero a -> lt32 x a = true.
Proof.
  intros F E A. unfold above_zero in A. unfold lt32, fin, val in *. rewrite <- (b32_of_value x). destruct (b32_of x) as [s|s| |s m e B]; try discriminate.
  - destruct (f32_value a) as [| | |]; try discriminate; exact A.
  - exfalso. cbn [B2R] in E. unfold F2R in E. cbn [Fnum Fexp] in E. pose proof (bpow_gt_0 radix2 e). apply Rmult_integral in E. destruct E as [E|E]; [|lra]. apply eq_IZR in E. destruct s; cbn in E; lia.
Qed.
(** The products of two differences and of the same exchanged cancel. *)
Lemma swapped_products p x y : -149 <= p + p < 127 -> within p x -> within p y -> fin (sub32 (mul32 x y) (mul32 y x)) /\ val (sub32 (mul32 x y) (mul32 y x)) = 0%R.
Proof.
  intros L X Y. destruct (mul_val p p x y ltac:(lia) X Y) as [A E]. destruct (mul_val p p y x ltac:(lia) Y X) as [B F].
  destruct (sub_same (p + p) _ _ L A B) as [[C _] D]; [rewrite E, F, Rmult_comm; reflexivity|split; assumption].
Qed.
Lemma mul_same p q x x' y y' : -149 <= p + q < 127 -> within p x -> within p x' -> within q y -> within q y' -> val x = val x' -> val y = val y' ->
  fin (sub32 (mul32 x y) (mul32 y' x')) /\ val (sub32 (mul32 x y) (mul32 y' x')) = 0%R.
Proof.
  intros L X X' Y Y' E F. destruct (mul_val p q x y ltac:(lia) X Y) as [A G]. destruct (mul_val q p y' x' ltac:(lia) Y' X') as [B H]. replace (q + p)%Z with (p + q)%Z in B by lia.
  destruct (sub_same (p + q) _ _ L A B) as [[C _] D]; [rewrite G, H, E, F, Rmult_comm; reflexivity|split; assumption].
Qed.
Lemma sub_val_eq p x x' y : -149 <= p < 127 -> within p x -> within p x' -> within p y -> val x = val x' -> val (sub32 x y) = val (sub32 x' y).
Proof. intros L X X' Y E. destruct (sub_val p x y L X Y) as [_ ->]. destruct (sub_val p x' y L X' Y) as [_ ->]. rewrite E. reflexivity. Qed.

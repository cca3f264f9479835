(** Units as real numbers. *)
From Verif Require Import Base Text Json Image Sound Quantize ColorText JsonFloat Cfb Mesh SpecMesh Common Enums ItemRamp QuantizeFacts QuantizeMono FlipFacts Browser Builtin SpecBuiltin BuiltinFacts BuiltinReals Polygon SpecPolygon Smooth FloatBounds SmoothFacts SpecSmooth PropertiesSmooth Walls SpecWalls WallsReals RubberMesh RubberReals Ramps SpecRamps RampReals Transform BaseFacts.
From Coq Require Import Reals Lra Floats.SpecFloat ZifyBool.
From Flocq Require Import Core.Core Relative Mult_error IEEE754.BinarySingleNaN.
Local Open Scope Z_scope.

#[local] Instance P24 : FLX.Prec_gt_0 24 := eq_refl.
#[local] Instance M24 : Prec_lt_emax 24 128 := eq_refl.
#[local] Instance vexp24 : Valid_exp fexp24 := fexp_correct 24 128 P24.
#[local] Instance vrnd24 : Valid_rnd (round_mode mode_NE) := valid_rnd_round_mode mode_NE.

(** How many of a unit a Visual Pinball unit is: 50 of them are 1 1/16 inch *)
Definition unit_length (u : ExportUnits) : R := match u with Units_Vpu => 1 | Units_Mm => 53975 / 100000 | Units_Cm => 53975 / 1000000 | Units_M => 53975 / 100000000 end.
Lemma unit_val u : exists m e, f32_value (units_scale u) = S754_finite false m e /\ Z.pos m <= 2 ^ 24 /\ e <= -23 /\ -34 <= e /\
  (Rabs (IZR (Z.pos m) * pow2 e - unit_length u) <= unit_length u * (6 / 100000000))%R /\ (0 < unit_length u <= 1)%R.
Proof.
  assert (P : forall k, (0 <= k)%Z -> pow2 (- k) = (/ IZR (2 ^ k))%R) by (intros k K; rewrite bpow_opp, <- (IZR_Zpower radix2) by exact K; reflexivity).
  destruct u; [exists 8388608%positive, (-23)|exists 9055502%positive, (-24)|exists 14488803%positive, (-28)|exists 9272834%positive, (-34)].
  all: split; [vm_compute; reflexivity|]; split; [lia|]; split; [lia|]; split; [lia|]; unfold unit_length.
  - change (-23)%Z with (- (23))%Z. rewrite P by lia. change (2 ^ 23) with 8388608. split; [apply Rabs_le; lra|lra].
  - change (-24)%Z with (- (24))%Z. rewrite P by lia. change (2 ^ 24) with 16777216. split; [apply Rabs_le; lra|lra].
  - change (-28)%Z with (- (28))%Z. rewrite P by lia. change (2 ^ 28) with 268435456. split; [apply Rabs_le; lra|lra].
  - change (-34)%Z with (- (34))%Z. rewrite P by lia. change (2 ^ 34) with 17179869184. split; [apply Rabs_le; lra|lra].
Qed.
Lemma tiny_61 : (pow2 (-61) <= 44 / 100000000000000000000)%R.
Proof.
  change (-61)%Z with (- (61))%Z. rewrite bpow_opp, <- (IZR_Zpower radix2 61) by lia. change (radix2 ^ 61)%Z with 2305843009213693952. lra.
Qed.
Lemma scaled_val u x t : within 20 x -> within 20 t ->
  within 22 (mul32 (add32 x t) (units_scale u)) /\
  (Rabs (val (mul32 (add32 x t) (units_scale u)) - unit_length u * (val x + val t)) <= Rabs (unit_length u * (val x + val t)) / 5000000 + / 1000000000000000000000000000000)%R.
Proof.
  intros X T. destruct (unit_val u) as (m & e & V & M & E1 & E2 & C & L). destruct (add_val 20 x t ltac:(lia) X T) as [A AV].
  destruct (known _ _ _ _ V) as [SF SV]. assert (W : within 1 (units_scale u)) by (apply (within_mono (24 + e)); [lia|apply (within_known _ _ _ _ _ V); lia]).
  destruct (mul_val 21 1 _ _ ltac:(lia) A W) as [B BV]. split; [exact B|]. rewrite BV, AV. cbn [cond_Zopp] in SV.
  set (k := unit_length u) in *. rewrite <- SV in C. set (s := val (units_scale u)) in *. set (d := (val x + val t)%R).
  pose proof (rnd_close d (Rabs d) _ (Rle_refl _) tiny_61) as R1. set (a := rnd d) in *. pose proof (rnd_close (a * s) (Rabs (a * s)) _ (Rle_refl _) tiny_61) as R2. set (r := rnd (a * s)) in *.
  clearbody k s d a r. clear - C L R1 R2. rewrite (Rabs_mult k d), (Rabs_pos_eq k) by lra. rewrite (Rabs_mult a s) in R2.
  set (h := (44 / 100000000000000000000 / 1000000000000)%R) in *.
  (* [a * s - k * d = s * (a - d) + (s - k) * d] *)
  assert (S1 : (Rabs s <= k * (1 + 6 / 100000000))%R) by (apply Rabs_le_inv in C; apply Rabs_le; lra).
  assert (D0 := Rabs_pos d). assert (A1 : (Rabs a <= Rabs d * (1 + / 16777216) + h)%R) by (replace a with (d + (a - d))%R by ring; apply (Rle_trans _ _ _ (Rabs_triang _ _)); lra).
  assert (P1 : (Rabs (a * s - k * d) <= k * (1 + 6 / 100000000) * (Rabs d / 16777216 + h) + k * (6 / 100000000) * Rabs d)%R).
  { replace (a * s - k * d)%R with (s * (a - d) + (s - k) * d)%R by ring. apply (Rle_trans _ _ _ (Rabs_triang _ _)). rewrite !Rabs_mult. apply Rplus_le_compat.
    - apply Rmult_le_compat; try apply Rabs_pos; assumption.
    - apply Rmult_le_compat_r; assumption. }
  assert (P2 : (Rabs a * Rabs s <= (Rabs d * (1 + / 16777216) + h) * (k * (1 + 6 / 100000000)))%R) by (apply Rmult_le_compat; try apply Rabs_pos; assumption).
  replace (r - k * d)%R with ((r - a * s) + (a * s - k * d))%R by ring. apply (Rle_trans _ _ _ (Rabs_triang _ _)).
  set (w := Rabs d) in *. assert (KW : (0 <= k * w)%R) by (apply Rmult_le_pos; lra). assert (HK : (k * h <= h)%R) by (assert (0 <= h)%R by (unfold h; lra); rewrite <- (Rmult_1_l h) at 2; apply Rmult_le_compat_r; lra).
  replace (k * (1 + 6 / 100000000) * (w / 16777216 + h) + k * (6 / 100000000) * w)%R with (k * w * ((1 + 6 / 100000000) / 16777216 + 6 / 100000000) + k * h * (1 + 6 / 100000000))%R in P1 by field.
  replace ((w * (1 + / 16777216) + h) * (k * (1 + 6 / 100000000)))%R with (k * w * ((1 + / 16777216) * (1 + 6 / 100000000)) + k * h * (1 + 6 / 100000000))%R in P2 by ring.
  assert (HV : h = (44 / 100000000000000000000000000000000)%R) by (unfold h; lra). lra.
Qed.
Lemma neg_value x : f32_value (neg_f32 x) = SFopp (f32_value x).
Proof.
  unfold f32_value, neg_f32. pose proof (w32_to_Z_range x) as R. cbv zeta. destruct (2147483648 <=? w32_to_Z x) eqn:E; rewrite w32_to_Z_small by lia.
  - replace (2147483648 <=? w32_to_Z x - 2147483648) with false by lia. replace ((w32_to_Z x - 2147483648) / 8388608 mod 256) with (w32_to_Z x / 8388608 mod 256) by lia.
    replace ((w32_to_Z x - 2147483648) mod 8388608) with (w32_to_Z x mod 8388608) by lia.
    destruct (_ =? 255); [destruct (_ =? 0); reflexivity|]. destruct (_ =? 0); [destruct (w32_to_Z x mod 8388608); reflexivity|destruct (w32_to_Z x mod 8388608 + 8388608); reflexivity].
  - replace (2147483648 <=? w32_to_Z x + 2147483648) with true by lia. replace ((w32_to_Z x + 2147483648) / 8388608 mod 256) with (w32_to_Z x / 8388608 mod 256) by lia.
    replace ((w32_to_Z x + 2147483648) mod 8388608) with (w32_to_Z x mod 8388608) by lia.
    destruct (_ =? 255); [destruct (_ =? 0); reflexivity|]. destruct (_ =? 0); [destruct (w32_to_Z x mod 8388608); reflexivity|destruct (w32_to_Z x mod 8388608 + 8388608); reflexivity].
Qed.
Lemma neg_val x : fin x -> fin (neg_f32 x) /\ val (neg_f32 x) = (- val x)%R.
Proof.
  intros F. assert (E : b32_of (neg_f32 x) = Bopp (b32_of x)).
  { apply B2SF_inj. rewrite b32_of_value, neg_value, <- b32_of_value. destruct (b32_of x); reflexivity. }
  unfold fin, val. rewrite E, is_finite_Bopp, B2R_Bopp. split; [exact F|reflexivity].
Qed.
(** A length in the units of a file: within a five-millionth of the true one *)
Definition near_length (u : ExportUnits) (x : R) (a b : f32) : Prop :=
  let true_length := (unit_length u * (real a + real b))%R in (Rabs (x - true_length) <= Rabs true_length / 5000000 + / 1000000000000000000000000000000)%R.
Lemma moderate_scaled u a b : moderate a -> moderate b -> let x := mul32 (add32 a b) (units_scale u) in
  finite32 x /\ near_length u (real x) a b /\ finite32 (neg_f32 x) /\ near_length u (- real (neg_f32 x)) a b.
Proof.
  intros A B x. apply moderate_within in A, B. destruct (scaled_val u a b A B) as [[F _] N]. fold x in F, N. destruct (neg_val x F) as [NF NV].
  unfold near_length. rewrite (real_val _ F), (real_val _ NF), NV, Ropp_involutive, (real_val a) by apply A. rewrite (real_val b) by apply B.
  split; [apply fin_finite, F|]. split; [exact N|]. split; [apply fin_finite, NF|exact N].
Qed.

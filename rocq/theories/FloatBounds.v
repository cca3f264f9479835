(** Bounds of f32 arithmetic by powers of two: values, sizes, and signs. *)
From Verif Require Import Base Text Image Sound Quantize ColorText JsonFloat Cfb Mesh Common BaseFacts BiffFacts CommonFacts QuantizeFacts QuantizeMono FlipFacts Browser Builtin SpecBuiltin BuiltinReals Polygon SpecPolygon Smooth.
From Coq Require Import Reals Lra Floats.SpecFloat ZifyBool.
From Flocq Require Import Core.Core IEEE754.BinarySingleNaN.

#[local] Instance P24 : FLX.Prec_gt_0 24 := eq_refl.
#[local] Instance M24 : Prec_lt_emax 24 128 := eq_refl.
#[local] Instance vexp24 : Valid_exp fexp24 := fexp_correct 24 128 P24.
#[local] Instance vrnd24 : Valid_rnd (round_mode mode_NE) := valid_rnd_round_mode mode_NE.
Notation pow2 := (bpow radix2).

(** ** Values *)
Definition val (x : f32) : R := B2R (b32_of x).
Definition fin (x : f32) : Prop := is_finite (b32_of x) = true.
Lemma of_mul a b : b32_of (mul32 a b) = Bmult mode_NE (b32_of a) (b32_of b).
Proof. apply B2SF_inj. rewrite b32_of_value, mul_value, <- !b32_of_value. apply mul_equiv. Qed.
Lemma of_add a b : b32_of (add32 a b) = Bplus mode_NE (b32_of a) (b32_of b).
Proof. apply B2SF_inj. rewrite b32_of_value, add_value, <- !b32_of_value. apply add_equiv. Qed.
Lemma of_div a b : b32_of (div32 a b) = Bdiv mode_NE (b32_of a) (b32_of b).
Proof. apply B2SF_inj. rewrite b32_of_value, div_value, <- !b32_of_value. apply (div_equiv 24 128 P24 M24). Qed.
Lemma sub_equiv (x y : b32) : SFsub 24 128 (B2SF x) (B2SF y) = B2SF (Bminus mode_NE x y).
Proof.
  destruct x as [sx|sx| |sx mx ex Bx], y as [sy|sy| |sy my ey By]; try reflexivity.
  - cbn. destruct (Bool.eqb sx (negb sy)); reflexivity.
  - cbn. destruct (Bool.eqb sx (negb sy)); reflexivity.
  - unfold Bminus. cbn [B2SF SFsub Bopp Bplus]. rewrite (normalize_equiv 24 128 P24 M24).
    replace (cond_Zopp sx _ - cond_Zopp sy _)%Z with (cond_Zopp sx (Z.pos (fst (shl_align mx ex (Z.min ex ey)))) + cond_Zopp (negb sy) (Z.pos (fst (shl_align my ey (Z.min ex ey)))))%Z; [reflexivity|].
    destruct sy; cbn [negb cond_Zopp]; lia.
Qed.
Lemma sub_value a b : f32_value (sub32 a b) = SFsub 24 128 (f32_value a) (f32_value b).
Proof. unfold sub32. rewrite <- (b32_of_value a), <- (b32_of_value b), sub_equiv. apply value_bits, valid_b. Qed.
Lemma of_sub a b : b32_of (sub32 a b) = Bminus mode_NE (b32_of a) (b32_of b).
Proof. apply B2SF_inj. rewrite b32_of_value, sub_value, <- !b32_of_value. apply sub_equiv. Qed.
Lemma sqrt_equiv (x : b32) : SFsqrt 24 128 (B2SF x) = B2SF (Bsqrt mode_NE x).
Proof.
  destruct x as [s|[]| |[] m e B]; try reflexivity. cbn [B2SF SFsqrt Bsqrt]. rewrite B2SF_SF2B. destruct (SFsqrt_core_binary 24 128 (Z.pos m) e) as [[mz ez] lz]. apply round_aux_equiv.
Qed.
Lemma sqrt_value a : f32_value (sqrt32 a) = SFsqrt 24 128 (f32_value a).
Proof. unfold sqrt32. rewrite <- (b32_of_value a), sqrt_equiv. apply value_bits, valid_b. Qed.
Lemma of_sqrt a : b32_of (sqrt32 a) = Bsqrt mode_NE (b32_of a).
Proof. apply B2SF_inj. rewrite b32_of_value, sqrt_value, <- !b32_of_value. apply sqrt_equiv. Qed.

(** ** Sizes *)
Definition within (p : Z) (x : f32) : Prop := fin x /\ (Rabs (val x) <= pow2 p)%R.
Lemma within_mono p q x : p <= q -> within p x -> within q x.
Proof. intros L [F V]. split; [exact F|]. apply (Rle_trans _ _ _ V), bpow_le, L. Qed.
Lemma pow_format p : -149 <= p -> generic_format radix2 fexp24 (pow2 p).
Proof. intros L. apply generic_format_bpow. unfold SpecFloat.fexp, SpecFloat.emin. lia. Qed.
Lemma round_small p x : -149 <= p -> (Rabs x <= pow2 p)%R -> (Rabs (rnd x) <= pow2 p)%R.
Proof. intros L A. apply abs_round_le_generic; auto with typeclass_instances. apply pow_format, L. Qed.
Lemma small_bool p x : -149 <= p < 128 -> (Rabs x <= pow2 p)%R -> Rlt_bool (Rabs (rnd x)) (pow2 128) = true.
Proof. intros L A. apply Rlt_bool_true. apply (Rle_lt_trans _ (pow2 p)); [apply round_small; [lia|exact A]|apply bpow_lt; lia]. Qed.
Lemma pow_succ p : pow2 (p + 1) = (2 * pow2 p)%R.
Proof. rewrite bpow_plus. change (pow2 1) with (IZR 2). ring. Qed.
Lemma add_val p x y : -149 <= p < 127 -> within p x -> within p y -> within (p + 1) (add32 x y) /\ val (add32 x y) = rnd (val x + val y).
Proof.
  intros L [FX VX] [FY VY]. unfold val, fin, within in *. rewrite of_add.
  assert (B : (Rabs (val x + val y) <= pow2 (p + 1))%R) by (rewrite pow_succ; apply (Rle_trans _ _ _ (Rabs_triang _ _)); unfold val; lra).
  pose proof (Bplus_correct 24 128 P24 M24 mode_NE _ _ FX FY) as C. rewrite (small_bool (p + 1)) in C by (lia || exact B). destruct C as (C1 & C2 & _).
  unfold val, fin. rewrite of_add, C1. split; [split; [exact C2|apply round_small; [lia|exact B]]|reflexivity].
Qed.
Lemma sub_val p x y : -149 <= p < 127 -> within p x -> within p y -> within (p + 1) (sub32 x y) /\ val (sub32 x y) = rnd (val x - val y).
Proof.
  intros L [FX VX] [FY VY]. unfold val, fin, within in *.
  assert (B : (Rabs (val x - val y) <= pow2 (p + 1))%R) by (rewrite pow_succ; apply (Rle_trans _ _ _ (Rabs_triang _ _)); rewrite Rabs_Ropp; unfold val; lra).
  pose proof (Bminus_correct 24 128 P24 M24 mode_NE _ _ FX FY) as C. rewrite (small_bool (p + 1)) in C by (lia || exact B). destruct C as (C1 & C2 & _).
  unfold val, fin. rewrite of_sub, C1. split; [split; [exact C2|apply round_small; [lia|exact B]]|reflexivity].
Qed.
Lemma mul_val p q x y : -149 <= p + q < 128 -> within p x -> within q y -> within (p + q) (mul32 x y) /\ val (mul32 x y) = rnd (val x * val y).
Proof.
  intros L [FX VX] [FY VY]. unfold val, fin, within in *.
  assert (B : (Rabs (val x * val y) <= pow2 (p + q))%R) by (rewrite bpow_plus, Rabs_mult; apply Rmult_le_compat; try apply Rabs_pos; assumption).
  pose proof (Bmult_correct 24 128 P24 M24 mode_NE (b32_of x) (b32_of y)) as C. rewrite (small_bool (p + q)) in C by (lia || exact B). destruct C as (C1 & C2 & _).
  unfold val, fin. rewrite of_mul, C1. rewrite FX, FY in C2. split; [split; [exact C2|apply round_small; [lia|exact B]]|reflexivity].
Qed.
Lemma div_val p q x y : -149 <= p - q < 128 -> within p x -> (pow2 q <= Rabs (val y))%R -> within (p - q) (div32 x y) /\ val (div32 x y) = rnd (val x / val y).
Proof.
  intros L [FX VX] VY. unfold val, fin, within in *. pose proof (bpow_gt_0 radix2 q) as P.
  assert (NZ : (val y <> 0)%R) by (unfold val; intros E; rewrite E, Rabs_R0 in VY; lra).
  assert (B : (Rabs (val x / val y) <= pow2 (p - q))%R).
  { unfold Rdiv, Zminus. rewrite bpow_plus, bpow_opp, Rabs_mult, Rabs_inv. apply Rmult_le_compat; [apply Rabs_pos| |exact VX|apply Rinv_le; assumption].
    left. apply Rinv_0_lt_compat. apply Rlt_le_trans with (pow2 q); assumption. }
  pose proof (Bdiv_correct 24 128 P24 M24 mode_NE (b32_of x) (b32_of y) NZ) as C. rewrite (small_bool (p - q)) in C by (lia || exact B). destruct C as (C1 & C2 & _).
  unfold val, fin. rewrite of_div, C1. rewrite FX in C2. split; [split; [exact C2|apply round_small; [lia|exact B]]|reflexivity].
Qed.
Lemma round_pos x : (0 <= x)%R -> (0 <= rnd x)%R.
Proof. intros H. apply round_ge_generic; auto with typeclass_instances. apply generic_format_0. Qed.
Lemma sqrt_val p x : 0 <= p -> within (2 * p) x -> (0 <= val x)%R -> within p (sqrt32 x) /\ (0 <= val (sqrt32 x))%R.
Proof.
  intros L [FX VX] P. unfold val, fin, within in *. destruct (Bsqrt_correct 24 128 P24 M24 mode_NE (b32_of x)) as (C1 & C2 & _).
  assert (F : is_finite (Bsqrt mode_NE (b32_of x)) = true).
  { rewrite C2. destruct (b32_of x) as [s|s| |[] m e B]; try discriminate; try reflexivity. exfalso. cbn [B2R] in P. unfold F2R in P. cbn [Fnum Fexp SpecFloat.cond_Zopp] in P.
    pose proof (bpow_gt_0 radix2 e). assert (IZR (Z.opp (Z.pos m)) < 0)%R by (apply IZR_lt; lia). nra. }
  unfold val, fin. rewrite of_sqrt, C1. split; [|apply round_pos, sqrt_pos]. split; [exact F|]. apply round_small; [lia|]. rewrite Rabs_pos_eq by apply sqrt_pos.
  replace (pow2 p) with (sqrt (pow2 (2 * p))); [apply sqrt_le_1_alt; apply (Rle_trans _ _ _ (Rle_abs _)); exact VX|].
  replace (2 * p)%Z with (p + p)%Z by lia. rewrite bpow_plus. apply sqrt_square. left. apply bpow_gt_0.
Qed.

(** ** Comparisons *)
Lemma lt_val x y : fin x -> fin y -> lt32 x y = true <-> (val x < val y)%R.
Proof.
  intros X Y. unfold lt32, val, fin in *. rewrite <- (b32_of_value x), <- (b32_of_value y). change (SFltb (B2SF (b32_of x)) (B2SF (b32_of y))) with (Bltb (b32_of x) (b32_of y)).
  rewrite (Bltb_correct _ _ _ _ X Y). split; intros H; [|apply Rlt_bool_true; exact H]. destruct (Rlt_bool_spec (B2R (b32_of x)) (B2R (b32_of y))); [assumption|discriminate].
Qed.
Lemma le_val x y : fin x -> fin y -> le32 x y <-> (val x <= val y)%R.
Proof. intros X Y. unfold le32. rewrite <- (b32_of_value x), <- (b32_of_value y). apply (le_real _ _ X Y). Qed.
(** A value with its bits known *)
Lemma known x s m e : f32_value x = S754_finite s m e -> fin x /\ val x = (IZR (cond_Zopp s (Z.pos m)) * pow2 e)%R.
Proof.
  intros H. unfold fin, val. rewrite <- (b32_of_value x) in H. destruct (b32_of x) as [| | |s' m' e' B]; try discriminate. cbn in H. injection H as -> -> ->. split; reflexivity.
Qed.
Lemma within_known x s m e k : f32_value x = S754_finite s m e -> Z.pos m <= 2 ^ k -> 0 <= k -> within (k + e) x.
Proof.
  intros H L K. destruct (known x s m e H) as [F V]. split; [exact F|]. rewrite V, Rabs_mult, bpow_plus. rewrite (Rabs_pos_eq (pow2 e)) by apply bpow_ge_0.
  apply Rmult_le_compat_r; [apply bpow_ge_0|]. rewrite <- (IZR_Zpower radix2) by exact K. rewrite <- abs_IZR. apply IZR_le. destruct s; cbn [cond_Zopp]; rewrite ?Z.abs_opp; exact L.
Qed.
Lemma zero_val : fin f32_zero /\ val f32_zero = 0%R.
Proof. unfold fin, val. assert (H : B2SF (b32_of f32_zero) = S754_zero false) by (rewrite b32_of_value; reflexivity). destruct (b32_of f32_zero); try discriminate. split; reflexivity. Qed.
Lemma one_val : fin f32_one /\ val f32_one = 1%R.
Proof.
  destruct (known f32_one false 8388608 (-23) eq_refl) as [F V]. split; [exact F|]. rewrite V. cbn [cond_Zopp]. change 8388608%Z with (radix_val radix2 ^ 23)%Z. rewrite IZR_Zpower by lia. rewrite <- bpow_plus. reflexivity.
Qed.

(** ** Exact values *)
Lemma exact_val x : fin x -> (IZR (exact x) * pow2 (-149))%R = val x.
Proof.
  unfold fin, val, exact. rewrite <- (b32_of_value x). destruct (b32_of x) as [s|s| |s m e B]; try discriminate; intros _; cbn [B2SF B2R]; [ring|].
  unfold F2R. cbn [Fnum Fexp].
  assert (E : -149 <= e).
  { apply andb_prop in B. destruct B as [C _]. unfold canonical_mantissa, SpecFloat.fexp, SpecFloat.emin in C. apply Zeq_bool_eq in C. lia. }
  replace ((if s then -1 else 1) * Z.pos m)%Z with (SpecFloat.cond_Zopp s (Z.pos m)) by (destruct s; cbn [SpecFloat.cond_Zopp]; lia).
  rewrite mult_IZR. change 2%Z with (radix_val radix2). rewrite IZR_Zpower by lia. rewrite Rmult_assoc, <- bpow_plus. f_equal. f_equal. lia.
Qed.
Lemma exact_le x y : fin x -> fin y -> exact x <= exact y <-> (val x <= val y)%R.
Proof.
  intros X Y. rewrite <- (exact_val x X), <- (exact_val y Y). pose proof (bpow_gt_0 radix2 (-149)) as P. split; intros H.
  - apply Rmult_le_compat_r; [lra|]. apply IZR_le, H.
  - apply le_IZR. apply (Rmult_le_reg_r (pow2 (-149))); assumption.
Qed.

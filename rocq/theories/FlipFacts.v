(** Flipping a texture coordinate (1 - v) and flipping it back, through Flocq's real-number semantics. *)
From Verif Require Import Base Text Image Sound Quantize ColorText JsonFloat Cfb Mesh Common BaseFacts BiffFacts CommonFacts QuantizeFacts QuantizeMono.
From Coq Require Import Reals Lra Floats.SpecFloat ZifyBool.
From Flocq Require Import Core.Core IEEE754.BinarySingleNaN.
Require Import Flocq.Prop.Sterbenz.

#[local] Instance P24 : FLX.Prec_gt_0 24 := eq_refl.
#[local] Instance M24 : Prec_lt_emax 24 128 := eq_refl.
#[local] Instance P53 : FLX.Prec_gt_0 53 := eq_refl.
#[local] Instance M53 : Prec_lt_emax 53 1024 := eq_refl.
Notation b64 := (binary_float 53 1024).
Notation fexp24 := (SpecFloat.fexp 24 128).
Notation fexp53 := (SpecFloat.fexp 53 1024).
Notation rnd24 := (round radix2 fexp24 (round_mode mode_NE)).
Notation rnd53 := (round radix2 fexp53 (round_mode mode_NE)).
#[local] Instance vexp24 : Valid_exp fexp24 := fexp_correct 24 128 P24.
#[local] Instance vexp53 : Valid_exp fexp53 := fexp_correct 53 1024 P53.
#[local] Instance mexp24 : Monotone_exp fexp24.
Proof. intros a b H. unfold SpecFloat.fexp, emin. lia. Qed.
#[local] Instance mexp53 : Monotone_exp fexp53.
Proof. intros a b H. unfold SpecFloat.fexp, emin. lia. Qed.
#[local] Instance vrnd : Valid_rnd (round_mode mode_NE) := valid_rnd_round_mode mode_NE.

Lemma minus_equiv (x y : b64) : SFsub 53 1024 (B2SF x) (B2SF y) = B2SF (Bminus mode_NE x y).
Proof.
  destruct x as [sx|sx| |sx mx ex Bx], y as [sy|sy| |sy my ey By]; try reflexivity.
  - cbn. destruct (Bool.eqb sx (negb sy)); reflexivity.
  - cbn. destruct (Bool.eqb sx (negb sy)); reflexivity.
  - cbn [B2SF SFsub Bminus]. rewrite (normalize_equiv 53 1024 P53 M53). f_equal. f_equal. unfold Fplus_naive.
    destruct sy; cbn [negb SpecFloat.cond_Zopp]; lia.
Qed.

(** Bits and values *)
Lemma bits_value w : f32_is_nan w = false -> f32_bits (f32_value w) = w.
Proof.
  unfold f32_is_nan, exponent_bits, mantissa_bits, f32_value, f32_bits. intros H. pose proof (w32_to_Z_range w) as R.
  apply w32_to_Z_inj. rewrite w32_to_Z_of. set (z := w32_to_Z w) in *. cbv zeta.
  pose proof (Z.mod_pos_bound (z / 8388608) 256 ltac:(lia)) as He. pose proof (Z.mod_pos_bound z 8388608 ltac:(lia)) as Hm.
  assert (Hz : z = (if 2147483648 <=? z then 2147483648 else 0) + (z / 8388608) mod 256 * 8388608 + z mod 8388608).
  { destruct (2147483648 <=? z) eqn:E; lia. }
  set (e := (z / 8388608) mod 256) in *. set (m := z mod 8388608) in *. clearbody e m z.
  destruct (e =? 255) eqn:E1.
  - destruct (m =? 0) eqn:E2; [|discriminate]. assert (m = 0) by lia. assert (e = 255) by lia. subst.
    destruct (2147483648 <=? z); rewrite Z.mod_small; lia.
  - destruct (e =? 0) eqn:E2.
    + destruct m as [|p|p] eqn:Em; [| |lia].
      * destruct (2147483648 <=? z); rewrite Z.mod_small; lia.
      * replace (Z.pos p <? 8388608) with true by lia. destruct (2147483648 <=? z); rewrite Z.mod_small; lia.
    + destruct (m + 8388608) as [|p|p] eqn:Em; [lia| |lia].
      replace (Z.pos p <? 8388608) with false by lia. destruct (2147483648 <=? z); rewrite Z.mod_small; lia.
Qed.

Lemma digits_lower p k : 0 < k -> Z.pos (digits2_pos p) = k -> 2 ^ (k - 1) <= Z.pos p < 2 ^ k.
Proof.
  intros Hk E. rewrite Digits.Zpos_digits2_pos in E. pose proof (Digits.Zdigits_correct radix2 (Z.pos p)) as C.
  rewrite E in C. cbn [Z.abs radix_val radix2] in C. exact C.
Qed.
Lemma value_bits v : valid_binary 24 128 v = true -> f32_value (f32_bits v) = v.
Proof.
  intros V. destruct v as [s|s| |s m e]; [destruct s; vm_compute; reflexivity..|vm_compute; reflexivity|].
  cbn [valid_binary] in V. unfold bounded, canonical_mantissa, SpecFloat.fexp, emin in V.
  apply andb_prop in V. destruct V as [V1 V2]. apply Zeq_bool_eq in V1. apply Zle_bool_imp_le in V2.
  unfold f32_bits. destruct (Z.pos m <? 8388608) eqn:Em.
  - assert (D : Z.pos (digits2_pos m) < 24).
    { destruct (Z.lt_ge_cases (Z.pos (digits2_pos m)) 24) as [L|G]; [exact L|exfalso].
      pose proof (digits_lower m (Z.pos (digits2_pos m)) ltac:(lia) eq_refl) as [L _].
      assert (2 ^ 23 <= 2 ^ (Z.pos (digits2_pos m) - 1)) by (apply Z.pow_le_mono_r; lia). change (2 ^ 23) with 8388608 in *. lia. }
    assert (e = -149) by lia. subst e.
    unfold f32_value. rewrite w32_to_Z_small by (destruct s; lia). cbv zeta.
    replace (2147483648 <=? (if s then 2147483648 else 0) + Z.pos m) with s by (destruct s; lia).
    replace (((if s then 2147483648 else 0) + Z.pos m) / 8388608 mod 256) with 0 by (destruct s; lia).
    replace (((if s then 2147483648 else 0) + Z.pos m) mod 8388608) with (Z.pos m) by (destruct s; lia). reflexivity.
  - assert (D : Z.pos (digits2_pos m) = 24).
    { destruct (Z.lt_trichotomy (Z.pos (digits2_pos m)) 24) as [L|[E|G]]; [exfalso|exact E|lia].
      pose proof (digits_lower m (Z.pos (digits2_pos m)) ltac:(lia) eq_refl) as [_ L'].
      assert (2 ^ (Z.pos (digits2_pos m)) <= 2 ^ 23) by (apply Z.pow_le_mono_r; lia). change (2 ^ 23) with 8388608 in *. lia. }
    pose proof (digits_lower m 24 ltac:(lia) D) as [L1 L2]. change (2 ^ (24 - 1)) with 8388608 in L1. change (2 ^ 24) with 16777216 in L2.
    assert (-149 <= e <= 104) by lia.
    unfold f32_value. rewrite w32_to_Z_small by (destruct s; lia). cbv zeta.
    set (z := (if s then 2147483648 else 0) + (e + 150) * 8388608 + (Z.pos m - 8388608)).
    replace (2147483648 <=? z) with s by (unfold z; destruct s; lia).
    replace (z / 8388608 mod 256) with (e + 150) by (unfold z; destruct s; lia).
    replace (z mod 8388608) with (Z.pos m - 8388608) by (unfold z; destruct s; lia).
    replace (e + 150 =? 255) with false by lia. replace (e + 150 =? 0) with false by lia.
    replace (Z.pos m - 8388608 + 8388608) with (Z.pos m) by lia. replace (e + 150 - 150) with e by lia. reflexivity.
Qed.
Lemma nan_value w : f32_is_nan w = false -> f32_value w <> S754_nan.
Proof.
  unfold f32_is_nan, exponent_bits, mantissa_bits, f32_value. pose proof (w32_to_Z_range w) as R. cbv zeta.
  destruct (_ =? 255); [destruct (_ =? 0); [discriminate|intros H; discriminate H]|intros _].
  pose proof (Z.mod_pos_bound (w32_to_Z w) 8388608 ltac:(lia)) as Hm.
  destruct (_ =? 0); [destruct (w32_to_Z w mod 8388608); discriminate|].
  destruct (w32_to_Z w mod 8388608 + 8388608) eqn:E; [lia|discriminate|lia].
Qed.

(** Conversions *)
Definition narrow (v : b64) : b32 :=
  match v with
  | B754_zero s => B754_zero s | B754_infinity s => B754_infinity s | B754_nan => B754_nan
  | B754_finite s m e _ => BinarySingleNaN.binary_normalize 24 128 P24 M24 mode_NE (SpecFloat.cond_Zopp s (Zpos m)) e s
  end.
Lemma narrow_equiv v : f32_of_f64 (B2SF v) = B2SF (narrow v).
Proof. destruct v; try reflexivity. cbn [B2SF f32_of_f64 narrow]. apply (normalize_equiv 24 128 P24 M24). Qed.
Definition widen (v : b32) : b64 :=
  match v with
  | B754_zero s => B754_zero s | B754_infinity s => B754_infinity s | B754_nan => B754_nan
  | B754_finite s m e _ => BinarySingleNaN.binary_normalize 53 1024 P53 M53 mode_NE (SpecFloat.cond_Zopp s (Zpos m)) e s
  end.
Lemma widen_equiv v : f64_of_f32 (B2SF v) = B2SF (widen v).
Proof. destruct v; try reflexivity. cbn [B2SF f64_of_f32 widen]. apply (normalize_equiv 53 1024 P53 M53). Qed.
Lemma narrow_finite (v : b64) : is_finite v = true -> (Rabs (rnd24 (B2R v)) < bpow radix2 128)%R ->
  B2R (narrow v) = rnd24 (B2R v) /\ is_finite (narrow v) = true.
Proof.
  intros F O. destruct v as [s|s| |s m e B]; try discriminate.
  - cbn [narrow B2R is_finite]. rewrite round_0 by exact vrnd. split; reflexivity.
  - pose proof (binary_normalize_correct 24 128 P24 M24 mode_NE (SpecFloat.cond_Zopp s (Zpos m)) e s) as H. cbv zeta in H.
    cbn [B2R] in *. rewrite Rlt_bool_true in H by exact O. cbn [narrow]. tauto.
Qed.
(** When the narrowed value is finite, it is the rounded value. *)
Lemma narrow_finite_rev (v : b64) : is_finite (narrow v) = true ->
  is_finite v = true /\ B2R (narrow v) = rnd24 (B2R v).
Proof.
  intros F. destruct v as [s|s| |s m e B]; try discriminate.
  - cbn [narrow B2R is_finite]. rewrite round_0 by exact vrnd. split; reflexivity.
  - split; [reflexivity|].
    pose proof (binary_normalize_correct 24 128 P24 M24 mode_NE (SpecFloat.cond_Zopp s (Zpos m)) e s) as H. cbv zeta in H.
    cbn [B2R]. cbn [narrow] in *. destruct (Rlt_bool _ _); [tauto|].
    destruct (BinarySingleNaN.binary_normalize _ _ _ _ _ _ _ _); try discriminate; unfold binary_overflow in H; cbn in H; discriminate.
Qed.
Lemma fmt_24_53 x : generic_format radix2 fexp24 x -> generic_format radix2 fexp53 x.
Proof. apply generic_inclusion_mag. intros _. unfold SpecFloat.fexp, emin. lia. Qed.
Lemma widen_finite (v : b32) : is_finite v = true -> B2R (widen v) = B2R v /\ is_finite (widen v) = true.
Proof.
  intros F. destruct v as [s|s| |s m e B]; try discriminate; [split; reflexivity|].
  pose proof (generic_format_B2R 24 128 (B754_finite s m e B)) as G. apply fmt_24_53 in G.
  pose proof (abs_B2R_lt_emax 24 128 (B754_finite s m e B)) as L.
  pose proof (binary_normalize_correct 53 1024 P53 M53 mode_NE (SpecFloat.cond_Zopp s (Zpos m)) e s) as H. cbv zeta in H.
  cbn [B2R] in *. rewrite round_generic in H by auto with typeclass_instances.
  rewrite Rlt_bool_true in H; [cbn [widen]; tauto|]. eapply Rlt_trans; [exact L|apply bpow_lt; lia].
Qed.

Definition one64 : b64 := BinarySingleNaN.binary_normalize 53 1024 P53 M53 mode_NE 1 0 false.
Lemma one64_value : B2SF one64 = f64_one.
Proof. vm_compute. reflexivity. Qed.
Lemma one64_real : B2R one64 = 1%R /\ is_finite one64 = true.
Proof.
  pose proof (normalize_bounds 53 1024 P53 M53 1 1 1 0 false) as H. cbv zeta in H.
  assert (G : generic_format radix2 fexp53 1) by (change 1%R with (bpow radix2 0); apply generic_format_bpow; unfold SpecFloat.fexp, emin; lia).
  assert (F1 : F2R (Float radix2 1 0) = 1%R) by (unfold F2R; cbn; lra).
  rewrite F1 in H. destruct (H G G ltac:(lra)) as [HA HB]; [change 1%R with (bpow radix2 0); apply bpow_lt; lia|lra|].
  split; [fold one64 in HA; lra|exact HB].
Qed.
Lemma one_minus_equiv (v : b64) : one_minus (B2SF v) = B2SF (Bminus mode_NE one64 v).
Proof. unfold one_minus. rewrite <- one64_value. apply minus_equiv. Qed.
Lemma one_minus_finite (v : b64) : is_finite v = true -> (Rabs (B2R v) <= 4)%R ->
  B2R (Bminus mode_NE one64 v) = rnd53 (1 - B2R v) /\ is_finite (Bminus mode_NE one64 v) = true.
Proof.
  intros F L. destruct one64_real as [E1 F1]. pose proof (Bminus_correct 53 1024 P53 M53 mode_NE one64 v F1 F) as H. rewrite E1 in H.
  rewrite Rlt_bool_true in H; [tauto|].
  apply Rle_lt_trans with (bpow radix2 3); [|apply bpow_lt; lia].
  apply abs_round_le_generic; auto with typeclass_instances.
  - apply generic_format_bpow. unfold SpecFloat.fexp, emin; lia.
  - change (bpow radix2 3) with 8%R. apply Rabs_le. destruct (Rabs_le_inv _ _ L). lra.
Qed.

(** Rounding to 24 bits a number that is near a number of the format *)
Lemma round_near t r : generic_format radix2 fexp24 t -> (0 < t)%R -> ((t + pred radix2 fexp24 t) / 2 < r < (t + succ radix2 fexp24 t) / 2)%R -> rnd24 r = t.
Proof.
  intros G T [H1 H2]. apply Rle_antisym.
  - apply (round_N_le_midp radix2 fexp24); assumption.
  - apply (round_N_ge_midp radix2 fexp24); assumption.
Qed.
Lemma ulp24 e x : (-149 <= e - 24)%Z -> (bpow radix2 (e - 1) <= Rabs x < bpow radix2 e)%R -> ulp radix2 fexp24 x = bpow radix2 (e - 24).
Proof.
  intros He H. rewrite ulp_neq_0.
  - unfold cexp. rewrite (mag_unique radix2 x e H). unfold SpecFloat.fexp, emin. f_equal. lia.
  - intros ->. rewrite Rabs_R0 in H. pose proof (bpow_gt_0 radix2 (e - 1)). lra.
Qed.
Lemma neighbours e t : (-149 <= e - 24)%Z -> (bpow radix2 (e - 1) < t < bpow radix2 e)%R ->
  succ radix2 fexp24 t = (t + bpow radix2 (e - 24))%R /\ pred radix2 fexp24 t = (t - bpow radix2 (e - 24))%R.
Proof.
  intros He H. pose proof (bpow_gt_0 radix2 (e - 1)) as P. assert (HA : (bpow radix2 (e - 1) <= Rabs t < bpow radix2 e)%R) by (rewrite Rabs_pos_eq; lra).
  rewrite succ_eq_pos by lra. rewrite pred_eq_pos by lra. unfold pred_pos. rewrite (mag_unique radix2 t e HA).
  rewrite Req_bool_false by lra. rewrite (ulp24 e t He HA). split; reflexivity.
Qed.

Lemma ulp24_le e x : (-149 <= e - 24)%Z -> (Rabs x < bpow radix2 e)%R -> (ulp radix2 fexp24 x <= bpow radix2 (e - 24))%R.
Proof.
  intros He H. destruct (Rle_or_lt (bpow radix2 (e - 1)) (Rabs x)) as [L|L].
  - rewrite (ulp24 e x He (conj L H)). lra.
  - assert (P : Rabs (bpow radix2 (e - 1)) = bpow radix2 (e - 1)) by (apply Rabs_pos_eq, bpow_ge_0).
    assert (L' : (Rabs x <= Rabs (bpow radix2 (e - 1)))%R) by (rewrite P; lra).
    pose proof (ulp_le radix2 fexp24 x (bpow radix2 (e - 1)) L') as U.
    rewrite (ulp24 e (bpow radix2 (e - 1)) He) in U; [exact U|]. rewrite P. split; [lra|apply bpow_lt; lia].
Qed.
Lemma rnd53_error x : (Rabs x <= 4)%R -> (Rabs (rnd53 x - x) <= bpow radix2 (-51))%R.
Proof.
  intros H. pose proof (error_le_half_ulp radix2 fexp53 (fun z => negb (Z.even z)) x) as HE.
  change (Znearest (fun z => negb (Z.even z))) with (round_mode mode_NE) in HE.
  assert (U : (ulp radix2 fexp53 x <= bpow radix2 (-50))%R).
  { assert (P : Rabs (bpow radix2 2) = bpow radix2 2) by (apply Rabs_pos_eq, bpow_ge_0).
    assert (H' : (Rabs x <= Rabs (bpow radix2 2))%R) by (rewrite P; exact H).
    pose proof (ulp_le radix2 fexp53 x (bpow radix2 2) H') as U.
    rewrite ulp_bpow in U. exact U. }
  assert (bpow radix2 (-50) = 2 * bpow radix2 (-51))%R by (change (-50)%Z with (1 + -51)%Z; rewrite bpow_plus; reflexivity).
  lra.
Qed.
Lemma pow_double e : bpow radix2 (e + 1) = (2 * bpow radix2 e)%R.
Proof. rewrite bpow_plus. change (bpow radix2 1) with 2%R. lra. Qed.
Lemma near_one : succ radix2 fexp24 1 = (1 + bpow radix2 (-23))%R /\ pred radix2 fexp24 1 = (1 - bpow radix2 (-24))%R.
Proof.
  assert (M : mag radix2 1 = 1%Z :> Z) by (change 1%R with (bpow radix2 0); rewrite mag_bpow; reflexivity).
  split.
  - rewrite succ_eq_pos by lra. change 1%R with (bpow radix2 0) at 2. rewrite ulp_bpow. reflexivity.
  - rewrite pred_eq_pos by lra. unfold pred_pos. rewrite M. rewrite Req_bool_true by reflexivity. reflexivity.
Qed.

(** The core: [t] in (1/2, 2), [r] rounds to [1 - t], then [1 - r] (rounded to 53 bits) rounds to [t] *)
Lemma flip_back t r : generic_format radix2 fexp24 t -> (/ 2 < t < 2)%R -> rnd24 r = (1 - t)%R -> rnd24 (rnd53 (1 - r)) = t /\ (Rabs r <= 4)%R.
Proof.
  intros G H E.
  pose proof (error_le_half_ulp_round radix2 fexp24 (fun z => negb (Z.even z)) r) as HE.
  change (Znearest (fun z => negb (Z.even z))) with (round_mode mode_NE) in HE. rewrite E in HE.
  assert (S50 : (0 < bpow radix2 (-51))%R) by apply bpow_gt_0.
  assert (S26 : (4 * bpow radix2 (-51) < bpow radix2 (-26))%R).
  { rewrite <- Rmult_1_l. change (-26)%Z with (25 + -51)%Z. rewrite bpow_plus.
    assert (4 < bpow radix2 25)%R by (change 4%R with (bpow radix2 2); apply bpow_lt; lia). nra. }
  pose proof (pow_double (-26)) as D26. pose proof (pow_double (-25)) as D25. pose proof (pow_double (-24)) as D24.
  change (-26 + 1)%Z with (-25)%Z in D26. change (-25 + 1)%Z with (-24)%Z in D25. change (-24 + 1)%Z with (-23)%Z in D24.
  assert (S23 : (bpow radix2 (-23) < 1)%R) by (change 1%R with (bpow radix2 0); apply bpow_lt; lia).
  assert (ST : forall d, (Rabs (1 - t - r) <= d)%R -> (d <= 1)%R -> (Rabs r <= 4)%R /\ (t - d - bpow radix2 (-51) <= rnd53 (1 - r) <= t + d + bpow radix2 (-51))%R).
  { intros d Hd D1. apply Rabs_le_inv in Hd. assert (R4 : (Rabs r <= 4)%R) by (apply Rabs_le; lra). split; [exact R4|].
    assert (R4' : (Rabs (1 - r) <= 4)%R) by (apply Rabs_le; lra).
    pose proof (Rabs_le_inv _ _ (rnd53_error _ R4')). lra. }
  destruct (Rtotal_order t 1) as [L|[->|L]].
  - assert (U : (ulp radix2 fexp24 (1 - t) <= bpow radix2 (-25))%R).
    { apply (ulp24_le (-1)); [lia|]. change (bpow radix2 (-1)) with (/ 2)%R. rewrite Rabs_pos_eq; lra. }
    destruct (ST (bpow radix2 (-26)) ltac:(lra) ltac:(lra)) as [R4 RB]. split; [|exact R4].
    apply round_near; [exact G|lra|].
    destruct (neighbours 0 t ltac:(lia)) as [-> ->]; [change (bpow radix2 (0 - 1)) with (/ 2)%R; change (bpow radix2 0) with 1%R; lra|].
    change (0 - 24)%Z with (-24)%Z. lra.
  - assert (U : (ulp radix2 fexp24 (1 - 1) <= bpow radix2 (-25))%R).
    { apply (ulp24_le (-1)); [lia|]. change (bpow radix2 (-1)) with (/ 2)%R. rewrite Rabs_pos_eq; lra. }
    destruct (ST (bpow radix2 (-26)) ltac:(lra) ltac:(lra)) as [R4 RB]. split; [|exact R4].
    apply round_near; [exact G|lra|]. destruct near_one as [-> ->]. lra.
  - assert (U : (ulp radix2 fexp24 (1 - t) <= bpow radix2 (-24))%R).
    { apply (ulp24_le 0); [lia|]. change (bpow radix2 0) with 1%R. apply Rabs_lt. lra. }
    destruct (ST (bpow radix2 (-25)) ltac:(lra) ltac:(lra)) as [R4 RB]. split; [|exact R4].
    apply round_near; [exact G|lra|].
    destruct (neighbours 1 t ltac:(lia)) as [-> ->]; [change (bpow radix2 (1 - 1)) with 1%R; change (bpow radix2 1) with 2%R; lra|].
    change (1 - 24)%Z with (-23)%Z. lra.
Qed.

Lemma b32_ext (x y : b32) : is_finite x = true -> is_finite y = true -> B2R x = B2R y -> B2R x <> 0%R -> B2SF x = B2SF y.
Proof.
  intros Fx Fy E N. f_equal. apply B2R_inj; [| |exact E].
  - destruct x; try discriminate; [cbn in N; lra|reflexivity].
  - rewrite E in N. destruct y; try discriminate; [cbn in N; lra|reflexivity].
Qed.
Definition b_half : b32 := b32_of f32_half.
Definition b_two : b32 := b32_of f32_two.
Lemma half_real : B2R b_half = (/ 2)%R.
Proof. unfold b_half, b32_of. rewrite B2R_SF2B. vm_compute f32_value. unfold SF2R. cbn [SpecFloat.cond_Zopp]. f2r. lra. Qed.
Lemma two_real : B2R b_two = 2%R.
Proof. unfold b_two, b32_of. rewrite B2R_SF2B. vm_compute f32_value. unfold SF2R. cbn [SpecFloat.cond_Zopp]. f2r. lra. Qed.

Lemma nan_true_value w : f32_is_nan w = true -> f32_value w = S754_nan.
Proof.
  unfold f32_is_nan, exponent_bits, mantissa_bits, f32_value. cbv zeta. intros H. apply andb_prop in H. destruct H as [-> H].
  rewrite negb_true_iff in H. rewrite H. reflexivity.
Qed.
(** The flipped value is a number *)
Lemma flip_not_nan tv : f32_is_nan tv = false ->
  SFleb (f32_value f32_half) (f32_value tv) = true -> SFleb (f32_value tv) (f32_value f32_two) = true ->
  f32_is_nan (as_f32 (one_minus (f64_of_f32 (f32_value tv)))) = false.
Proof.
  intros N L1 L2. destruct (f32_is_nan (as_f32 _)) eqn:E; [exfalso|reflexivity]. apply nan_true_value in E. unfold as_f32 in E.
  pose proof (b32_of_value tv) as Ev. set (x := b32_of tv) in *. clearbody x. rewrite <- Ev, widen_equiv, one_minus_equiv, narrow_equiv in E.
  rewrite value_bits in E by (match goal with |- valid_binary _ _ (B2SF ?z) = _ => destruct z; try reflexivity; assumption end).
  rewrite <- Ev in L1, L2. destruct x as [s|s| |s m e B].
  - destruct s; revert L1; vm_compute; discriminate.
  - destruct s; [revert L1|revert L2]; vm_compute; discriminate.
  - revert L1; vm_compute; discriminate.
  - assert (F : is_finite (widen (B754_finite s m e B)) = true) by (apply (widen_finite (B754_finite s m e B)); reflexivity).
    assert (NN : forall z : b64, is_finite z = true -> B2SF (narrow z) <> S754_nan).
    { intros z Fz. destruct z as [sz|sz| |sz mz ez Bz]; try discriminate. cbn [narrow].
      pose proof (binary_normalize_correct 24 128 P24 M24 mode_NE (SpecFloat.cond_Zopp sz (Zpos mz)) ez sz) as H. cbv zeta in H.
      destruct (Rlt_bool _ _); [destruct H as (_ & H & _)|]; destruct (BinarySingleNaN.binary_normalize _ _ _ _ _ _ _ _); try discriminate. }
    destruct one64_real as [E1 F1].
    pose proof (Bminus_correct 53 1024 P53 M53 mode_NE one64 (widen (B754_finite s m e B)) F1 F) as H.
    set (y := Bminus mode_NE one64 _) in *. destruct (Rlt_bool _ _).
    + destruct H as (_ & H & _). exact (NN y H E).
    + destruct H as (H & _). destruct y; try discriminate.
Qed.

(** Flipping back recovers the coordinate for every f32 in [1/2, 2], given the text of the flipped value is read as an f64 that rounds to it
    (and, at the two ends, exactly) *)
Theorem flip_recovers tv v : f32_is_nan tv = false ->
  SFleb (f32_value f32_half) (f32_value tv) = true -> SFleb (f32_value tv) (f32_value f32_two) = true ->
  valid_binary 53 1024 v = true ->
  f32_of_f64 v = f32_value (as_f32 (one_minus (f64_of_f32 (f32_value tv)))) ->
  (tv = f32_half \/ tv = f32_two -> v = one_minus (f64_of_f32 (f32_value tv))) ->
  as_f32 (one_minus v) = tv.
Proof.
  intros N L1 L2 V E X.
  pose proof (b32_of_value tv) as Ev. set (x := b32_of tv) in *. clearbody x.
  rewrite <- Ev in L1, L2. change (f32_value f32_half) with (f32_value f32_half) in L1.
  rewrite <- (b32_of_value f32_half) in L1. rewrite <- (b32_of_value f32_two) in L2. fold b_half in L1. fold b_two in L2.
  assert (Fh : is_finite b_half = true) by (vm_compute; reflexivity).
  assert (Ft : is_finite b_two = true) by (vm_compute; reflexivity).
  assert (Fx : is_finite x = true).
  { destruct x as [s|s| |s m e B]; try reflexivity.
    - destruct s; [exfalso; revert L1|exfalso; revert L2]; vm_compute; discriminate.
    - exfalso. apply (nan_value tv N). symmetry. exact Ev. }
  change (Bleb b_half x = true) in L1. change (Bleb x b_two = true) in L2.
  rewrite (Bleb_correct 24 128 b_half x Fh Fx) in L1. rewrite (Bleb_correct 24 128 x b_two Fx Ft) in L2.
  rewrite half_real in L1. rewrite two_real in L2. destruct (Rle_bool_spec (/ 2) (B2R x)) as [L1'|?]; [|discriminate].
  destruct (Rle_bool_spec (B2R x) 2) as [L2'|?]; [|discriminate]. clear L1 L2.
  pose proof (generic_format_B2R 24 128 x) as G. 
  assert (G1 : generic_format radix2 fexp24 1) by (change 1%R with (bpow radix2 0); apply generic_format_bpow; unfold SpecFloat.fexp, emin; lia).
  assert (GF : generic_format radix2 fexp24 (1 - B2R x)) by (apply sterbenz; auto with typeclass_instances; lra).
  (* the flipped value *)
  destruct (widen_finite x Fx) as [Wr Wf].
  assert (A4 : (Rabs (B2R (widen x)) <= 4)%R) by (rewrite Wr; apply Rabs_le; lra).
  destruct (one_minus_finite (widen x) Wf A4) as [Mr Mf]. rewrite Wr in Mr.
  rewrite round_generic in Mr; auto with typeclass_instances; [|apply fmt_24_53; exact GF].
  set (fl := Bminus mode_NE one64 (widen x)) in *.
  assert (FL : one_minus (f64_of_f32 (f32_value tv)) = B2SF fl) by (rewrite <- Ev, widen_equiv; apply one_minus_equiv).
  rewrite FL in E, X. unfold as_f32 in E. rewrite narrow_equiv in E.
  rewrite value_bits in E by (destruct (narrow fl); try reflexivity; assumption).
  assert (NO : (Rabs (rnd24 (B2R fl)) < bpow radix2 128)%R).
  { rewrite Mr, round_generic by auto with typeclass_instances. apply Rle_lt_trans with (bpow radix2 1); [|apply bpow_lt; lia].
    change (bpow radix2 1) with 2%R. apply Rabs_le. lra. }
  destruct (narrow_finite fl Mf NO) as [Nr Nf]. rewrite Mr, round_generic in Nr by auto with typeclass_instances.
  (* the value read *)
  set (y := SF2B v V : b64). assert (Ey : B2SF y = v) by apply B2SF_SF2B. clearbody y. subst v.
  rewrite narrow_equiv in E. apply B2SF_inj in E.
  destruct (narrow_finite_rev y) as [Fy Ry]; [rewrite E; exact Nf|]. rewrite E, Nr in Ry.
  rewrite one_minus_equiv. unfold as_f32. rewrite narrow_equiv. rewrite <- (bits_value tv N), <- Ev. f_equal.
  assert (Back : rnd24 (rnd53 (1 - B2R y)) = B2R x /\ (Rabs (B2R y) <= 4)%R).
  { destruct (Req_dec (B2R x) (/ 2)) as [Hh|Hh]; [|destruct (Req_dec (B2R x) 2) as [Ht|Ht]].
    - assert (Ex : tv = f32_half).
      { rewrite <- (bits_value tv N), <- Ev. change f32_half with (f32_bits (f32_value f32_half)). f_equal.
        rewrite <- (b32_of_value f32_half). fold b_half. apply b32_ext; auto; [rewrite half_real; exact Hh|lra]. }
      assert (Ey : y = fl) by (apply B2SF_inj, X; left; exact Ex). rewrite Ey, Mr.
      replace (1 - (1 - B2R x))%R with (B2R x) by lra. rewrite (round_generic radix2 fexp53) by (auto with typeclass_instances; apply fmt_24_53; exact G).
      rewrite round_generic by auto with typeclass_instances. split; [reflexivity|apply Rabs_le; lra].
    - assert (Ex : tv = f32_two).
      { rewrite <- (bits_value tv N), <- Ev. change f32_two with (f32_bits (f32_value f32_two)). f_equal.
        rewrite <- (b32_of_value f32_two). fold b_two. apply b32_ext; auto; [rewrite two_real; exact Ht|lra]. }
      assert (Ey : y = fl) by (apply B2SF_inj, X; right; exact Ex). rewrite Ey, Mr.
      replace (1 - (1 - B2R x))%R with (B2R x) by lra. rewrite (round_generic radix2 fexp53) by (auto with typeclass_instances; apply fmt_24_53; exact G).
      rewrite round_generic by auto with typeclass_instances. split; [reflexivity|apply Rabs_le; lra].
    - apply flip_back; [exact G|lra|symmetry; exact Ry]. }
  destruct Back as [Back Y4]. destruct (one_minus_finite y Fy Y4) as [Zr Zf].
  assert (NO2 : (Rabs (rnd24 (B2R (Bminus mode_NE one64 y))) < bpow radix2 128)%R).
  { rewrite Zr, Back. apply abs_B2R_lt_emax. }
  destruct (narrow_finite _ Zf NO2) as [Qr Qf]. rewrite Zr, Back in Qr.
  apply b32_ext; auto. rewrite Qr. lra.
Qed.

(** Widening and narrowing gives the same number *)
Lemma narrow_widen (x : b32) : B2SF (narrow (widen x)) = B2SF x.
Proof.
  destruct x as [s|s| |s m e B]; try reflexivity. set (x := B754_finite s m e B).
  destruct (widen_finite x eq_refl) as [Wr Wf]. pose proof (generic_format_B2R 24 128 x) as G.
  assert (NO : (Rabs (rnd24 (B2R (widen x))) < bpow radix2 128)%R).
  { rewrite Wr, round_generic by auto with typeclass_instances. apply abs_B2R_lt_emax. }
  destruct (narrow_finite _ Wf NO) as [Nr Nf]. rewrite Wr, round_generic in Nr by auto with typeclass_instances.
  apply b32_ext; auto. rewrite Nr. unfold x. cbn [B2R]. intros Z0. apply eq_0_F2R in Z0. destruct s; discriminate.
Qed.

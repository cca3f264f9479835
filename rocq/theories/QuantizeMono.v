(** Range and monotonicity of quantisation, for every non-negative f32 value (through Flocq's real-number semantics). *)
From Verif Require Import Base Quantize Common BaseFacts BiffFacts CommonFacts QuantizeFacts.
From Coq Require Import Reals Lra Floats.SpecFloat ZifyBool.
From Flocq Require Import Core.Core IEEE754.BinarySingleNaN.

#[local] Instance P24 : FLX.Prec_gt_0 24 := eq_refl.
#[local] Instance M24 : Prec_lt_emax 24 128 := eq_refl.
Notation b32 := (binary_float 24 128).
Notation rnd := (round radix2 (SpecFloat.fexp 24 128) (round_mode mode_NE)).
#[local] Instance vexp24 : Valid_exp (SpecFloat.fexp 24 128) := fexp_correct 24 128 P24.
#[local] Instance vrnd24 : Valid_rnd (round_mode mode_NE) := valid_rnd_round_mode mode_NE.

Lemma mul_equiv (x y : b32) : SFmul 24 128 (B2SF x) (B2SF y) = B2SF (Bmult mode_NE x y).
Proof.
  destruct x as [sx|sx| |sx mx ex Bx], y as [sy|sy| |sy my ey By]; try reflexivity.
  cbn. rewrite B2SF_SF2B. apply round_aux_equiv.
Qed.

(** Every bit pattern is a binary32 datum. *)
Lemma f32_value_valid w : valid_binary 24 128 (f32_value w) = true.
Proof.
  unfold f32_value. pose proof (w32_to_Z_range w) as Hr. set (z := w32_to_Z w) in *.
  cbv zeta. pose proof (Z.mod_pos_bound (z / 8388608) 256 ltac:(lia)) as He.
  pose proof (Z.mod_pos_bound z 8388608 ltac:(lia)) as Hm.
  set (e := (z / 8388608) mod 256) in *. set (m := z mod 8388608) in *.
  destruct (e =? 255) eqn:E1; [destruct (m =? 0); reflexivity|].
  assert (HD : forall p k, Z.pos p < 2 ^ k -> 0 <= k -> Z.pos (digits2_pos p) <= k).
  { intros p k Hp Hk. rewrite Digits.Zpos_digits2_pos. apply Digits.Zdigits_le_Zpower. rewrite Z.abs_eq by lia.
    exact Hp. }
  assert (HD2 : forall p k, 2 ^ (k - 1) <= Z.pos p -> k <= Z.pos (digits2_pos p)).
  { intros p k Hp. rewrite Digits.Zpos_digits2_pos.
    destruct (Z.le_gt_cases k 0) as [Hk|Hk]; [pose proof (Digits.Zdigits_ge_0 radix2 (Z.pos p)); lia|].
    enough (k - 1 < Digits.Zdigits radix2 (Z.pos p)) by lia.
    apply Digits.Zdigits_gt_Zpower. rewrite Z.abs_eq by lia. exact Hp. }
  destruct (e =? 0) eqn:E2.
  - destruct m as [|p|p] eqn:Em; [reflexivity| |reflexivity].
    cbn [valid_binary]. unfold bounded, canonical_mantissa, SpecFloat.fexp, emin.
    assert (Z.pos (digits2_pos p) <= 23) by (apply HD; lia).
    apply andb_true_intro. split; [apply Zeq_bool_true|apply Zle_bool_true]; lia.
  - destruct (m + 8388608) as [|p|p] eqn:Em; [reflexivity| |reflexivity].
    cbn [valid_binary]. unfold bounded, canonical_mantissa, SpecFloat.fexp, emin.
    assert (Z.pos (digits2_pos p) <= 24) by (apply HD; lia).
    assert (24 <= Z.pos (digits2_pos p)) by (apply HD2; change (2 ^ (24 - 1)) with 8388608; lia).
    apply andb_true_intro. split; [apply Zeq_bool_true|apply Zle_bool_true]; lia.
Qed.
Definition b32_of (w : f32) : b32 := SF2B (f32_value w) (f32_value_valid w).
Lemma b32_of_value w : B2SF (b32_of w) = f32_value w.
Proof. apply B2SF_SF2B. Qed.

(** The integer part of a non-negative number, saturating. *)
Lemma float_to_uint_floor max (z : b32) : is_finite z = true -> (0 <= B2R z)%R -> (B2R z <= IZR max)%R ->
  float_to_uint max (B2SF z) = Zfloor (B2R z).
Proof.
  intros HF H0 HM. destruct z as [s|s| |s m e Hb]; cbn [is_finite] in HF; try discriminate.
  - cbn. symmetry. apply (Zfloor_IZR 0).
  - cbn [B2SF B2R float_to_uint] in *. destruct s.
    { exfalso. unfold F2R in H0. cbn [Fnum Fexp cond_Zopp] in H0.
      assert (0 < bpow radix2 e)%R by apply bpow_gt_0. 
      assert (IZR (Z.neg m) < 0)%R by (apply IZR_lt; lia). cbn in H0. nra. }
    unfold F2R in *. cbn [Fnum Fexp SpecFloat.cond_Zopp] in *.
    assert (HF' : Zfloor (IZR (Z.pos m) * bpow radix2 e) = if 0 <=? e then Z.pos m * 2 ^ e else Z.pos m / 2 ^ (- e)).
    { destruct (0 <=? e) eqn:E.
      - rewrite <- IZR_Zpower by lia. rewrite <- mult_IZR. rewrite Zfloor_IZR. reflexivity.
      - rewrite <- (Z.opp_involutive e) at 1. rewrite bpow_opp. rewrite <- IZR_Zpower by lia.
        change (IZR (Z.pos m) * / IZR (radix2 ^ (- e)))%R with (IZR (Z.pos m) / IZR (radix2 ^ (- e)))%R.
        rewrite Zfloor_div; [reflexivity|]. apply Z.pow_nonzero; cbn; lia. }
    cbn [cond_Zopp] in *. rewrite HF'. apply Z.min_r. rewrite <- HF'.
    apply le_IZR. eapply Rle_trans; [apply Zfloor_lb|exact HM].
Qed.

(** An integer below 2^24, as f32. *)
Lemma of_Z_exact n : 0 <= n < 16777216 -> exists z : b32, f32_of_Z n = B2SF z /\ B2R z = IZR n /\ is_finite z = true.
Proof.
  intros Hn. unfold f32_of_Z. rewrite (normalize_equiv 24 128 P24 M24).
  eexists. split; [reflexivity|].
  assert (G : generic_format radix2 (SpecFloat.fexp 24 128) (F2R (Float radix2 n 0))) by (apply gen_F2R; lia).
  assert (HN : (IZR n < IZR 16777216)%R) by (apply IZR_lt; lia). assert (H0 : (0 <= IZR n)%R) by (apply IZR_le; lia).
  assert (EF : F2R (Float radix2 n 0) = IZR n) by (unfold F2R; cbn [Fnum Fexp bpow]; lra).
  pose proof (normalize_bounds 24 128 P24 M24 (F2R (Float radix2 n 0)) (F2R (Float radix2 n 0)) n 0 false G G) as HB.
  cbv zeta in HB. rewrite EF in HB. destruct HB as [HB HF].
  - exact H0.
  - apply Rlt_trans with (bpow radix2 24); [change (bpow radix2 24) with (IZR 16777216); lra|apply bpow_lt; lia].
  - lra.
  - split; [lra|exact HF].
Qed.

Section Quant.
Variables (k n max : Z).
Hypothesis (Hk : 0 < k < 16777216) (Hn : 0 <= n < 16777216) (Hmax : n <= max).

Definition quant_real (x : R) : Z := Zfloor (Rmin (rnd (x * IZR k)) (IZR n)).

Lemma quant_real_mono x y : (x <= y)%R -> quant_real x <= quant_real y.
Proof.
  intros H. unfold quant_real. apply Zfloor_le.
  assert (0 < IZR k)%R by (apply IZR_lt; lia).
  apply Rmin_glb; [|apply Rmin_r]. eapply Rle_trans; [apply Rmin_l|].
  apply round_le; auto with typeclass_instances. nra.
Qed.
Lemma quant_real_range x : (0 <= x)%R -> 0 <= quant_real x <= n.
Proof.
  intros H. unfold quant_real.
  assert (HK : (0 < IZR k)%R) by (apply IZR_lt; lia). assert (HN : (0 <= IZR n)%R) by (apply IZR_le; lia).
  assert (H0 : (0 <= rnd (x * IZR k))%R).
  { apply round_ge_generic; auto with typeclass_instances; [apply generic_format_0|nra]. }
  split.
  - apply Zfloor_lub. apply Rmin_glb; assumption.
  - rewrite <- (Zfloor_IZR n) at 2. apply Zfloor_le, Rmin_r.
Qed.

Definition quant (v : spec_float) : Z := float_to_uint max (f32_min (SFmul 24 128 v (f32_of_Z k)) (f32_of_Z n)).

Lemma quant_inf : quant (S754_infinity false) = n.
Proof.
  unfold quant. destruct (of_Z_exact k) as (zk & -> & Ek & Fk); [lia|].
  destruct (of_Z_exact n) as (zn & En & Rn & Fn); [lia|].
  assert (Hz : float_to_uint max (f32_of_Z n) = n).
  { rewrite En. rewrite float_to_uint_floor; rewrite ?Rn; try (apply IZR_le; lia); try exact Fn. apply Zfloor_IZR. }
  assert (HK : (0 < IZR k)%R) by (apply IZR_lt; lia).
  destruct zk as [s|s| |s m e Hb]; cbn [is_finite B2R] in *; try discriminate; [lra|].
  assert (s = false). { destruct s; [|reflexivity]. exfalso. unfold F2R in Ek. cbn [Fnum Fexp cond_Zopp] in Ek.
      assert (0 < bpow radix2 e)%R by apply bpow_gt_0. 
      assert (IZR (Z.neg m) < 0)%R by (apply IZR_lt; lia). cbn in Ek. nra. }
  subst s. cbn [B2SF SFmul xorb].
  replace (f32_min (S754_infinity false) (f32_of_Z n)) with (f32_of_Z n); [exact Hz|].
  rewrite En. destruct zn as [s'|s'| |s' m' e' Hb']; cbn [is_finite] in Fn; try discriminate; [reflexivity|].
  destruct s'; reflexivity.
Qed.

Lemma quant_finite (x : b32) : is_finite x = true -> (0 <= B2R x)%R -> quant (B2SF x) = quant_real (B2R x).
Proof.
  intros Fx Hx. unfold quant, quant_real.
  destruct (of_Z_exact k) as (zk & -> & Ek & Fk); [lia|].
  destruct (of_Z_exact n) as (zn & -> & En & Fn); [lia|].
  assert (HK : (0 < IZR k)%R) by (apply IZR_lt; lia). assert (HN : (0 <= IZR n)%R) by (apply IZR_le; lia).
  assert (H0 : (0 <= rnd (B2R x * IZR k))%R).
  { apply round_ge_generic; auto with typeclass_instances; [apply generic_format_0|nra]. }
  rewrite mul_equiv. pose proof (Bmult_correct 24 128 P24 M24 mode_NE x zk) as HM. rewrite Ek in HM.
  destruct (Rlt_bool (Rabs (rnd (B2R x * IZR k))) (bpow radix2 128)) eqn:EO.
  - destruct HM as (HR & HF & _). rewrite Fx, Fk in HF. cbn in HF.
    set (y := Bmult mode_NE x zk) in *. 
    assert (EM : f32_min (B2SF y) (B2SF zn) = B2SF (if Bltb zn y then zn else y)).
    { unfold Bltb. destruct y as [s|s| |s m e Hb], zn as [s'|s'| |s' m' e' Hb']; try discriminate; cbn [B2SF f32_min];
        destruct (SFltb _ _); reflexivity. }
    rewrite EM. rewrite (Bltb_correct 24 128 zn y Fn HF), En, HR.
    destruct (Rlt_bool_spec (IZR n) (rnd (B2R x * IZR k))) as [L|L].
    + rewrite Rmin_right by lra. rewrite float_to_uint_floor; rewrite ?En; auto. apply IZR_le; lia.
    + rewrite Rmin_left by lra. rewrite float_to_uint_floor; rewrite ?HR; auto; try lra.
      apply Rle_trans with (IZR n); [lra|apply IZR_le; lia].
  - (* the product overflows to infinity *)
    cbn in HM. 
    assert (HB : (bpow radix2 128 <= rnd (B2R x * IZR k))%R).
    { destruct (Rlt_bool_spec (Rabs (rnd (B2R x * IZR k))) (bpow radix2 128)) as [L|L]; [discriminate|].
      rewrite Rabs_pos_eq in L by lra. exact L. }
    assert (HNB : (IZR n <= bpow radix2 128)%R).
    { apply Rle_trans with (bpow radix2 24); [|apply bpow_le; lia].
      change (bpow radix2 24) with (IZR 16777216). apply IZR_le. lia. }
    rewrite Rmin_right by lra. 
    assert (Sx : Bsign x = false /\ Bsign zk = false).
    { assert (HX0 : (0 < B2R x)%R).
      { destruct (Rle_lt_or_eq_dec _ _ Hx) as [L|L]; [exact L|]. exfalso. rewrite <- L, Rmult_0_l, round_0 in HB by auto with typeclass_instances.
        assert (0 < bpow radix2 128)%R by apply bpow_gt_0. lra. }
      split.
      - destruct x as [s|s| |s m e Hb]; cbn [B2R is_finite] in *; try discriminate; try lra. destruct s; [|reflexivity].
        exfalso. assert (F2R (Float radix2 (cond_Zopp true (Z.pos m)) e) < 0)%R by (apply F2R_lt_0; reflexivity). lra.
      - destruct zk as [s|s| |s m e Hb]; cbn [B2R is_finite] in *; try discriminate; try lra. destruct s; [|reflexivity].
        exfalso. assert (F2R (Float radix2 (cond_Zopp true (Z.pos m)) e) < 0)%R by (apply F2R_lt_0; reflexivity). lra. }
    destruct Sx as [Sx Sk]. rewrite Sx, Sk in HM. cbn in HM. rewrite HM.
    replace (f32_min (S754_infinity false) (B2SF zn)) with (B2SF zn).
    2:{ destruct zn as [s'|s'| |s' m' e' Hb']; cbn [is_finite] in Fn; try discriminate; [reflexivity|].
        destruct s'; reflexivity. }
    rewrite float_to_uint_floor; rewrite ?En; auto. apply IZR_le; lia.
Qed.

(** Non-negative values: finite ones and plus infinity. *)
Lemma ge0_cases (x : b32) : f32_ge0 (B2SF x) = true ->
  B2SF x = S754_infinity false \/ (is_finite x = true /\ (0 <= B2R x)%R).
Proof.
  unfold f32_ge0. intros H. destruct x as [s|s| |s m e Hb]; cbn [B2SF is_finite B2R] in *.
  - right. split; [reflexivity|lra].
  - destruct s; [discriminate H|left; reflexivity].
  - discriminate H.
  - right. split; [reflexivity|]. destruct s; [discriminate H|]. apply F2R_ge_0. cbn. lia.
Qed.
Lemma quant_range w : f32_ge0 (f32_value w) = true -> 0 <= quant (f32_value w) <= n.
Proof.
  rewrite <- b32_of_value. intros H. destruct (ge0_cases _ H) as [->|[HF H0]].
  - rewrite quant_inf. lia.
  - rewrite quant_finite by assumption. apply quant_real_range, H0.
Qed.
Lemma quant_mono v w : f32_ge0 (f32_value v) = true -> SFleb (f32_value v) (f32_value w) = true ->
  quant (f32_value v) <= quant (f32_value w).
Proof.
  rewrite <- !b32_of_value. intros Hv HL.
  assert (Hw : f32_ge0 (B2SF (b32_of w)) = true).
  { destruct (ge0_cases _ Hv) as [E|[Fv Hv0]].
    - rewrite E in HL. destruct (b32_of w) as [s|s| |s m e Hb]; try discriminate HL. destruct s; [discriminate HL|reflexivity].
    - destruct (is_finite (b32_of w)) eqn:Fw.
      + change (f32_ge0 (B2SF (b32_of w))) with (Bleb (B754_zero false : b32) (b32_of w)). rewrite Bleb_correct by auto.
        change (SFleb (B2SF (b32_of v)) (B2SF (b32_of w))) with (Bleb (b32_of v) (b32_of w)) in HL.
        rewrite Bleb_correct in HL by assumption. apply Rle_bool_true. cbn [B2R].
        destruct (Rle_bool_spec (B2R (b32_of v)) (B2R (b32_of w))); [lra|discriminate].
      + destruct (b32_of w) as [s|s| |s m e Hb]; try discriminate Fw.
        * destruct s; [|reflexivity]. destruct (b32_of v) as [s'|s'| |s' m' e' Hb']; try discriminate Fv; destruct s'; discriminate HL.
        * destruct (b32_of v) as [s'|s'| |s' m' e' Hb']; try discriminate Fv; discriminate HL. }
  destruct (ge0_cases _ Hw) as [Ew|[Fw Hw0]].
  - rewrite Ew, quant_inf. rewrite b32_of_value in *. apply quant_range. rewrite <- b32_of_value. rewrite b32_of_value. exact Hv.
  - destruct (ge0_cases _ Hv) as [E|[Fv Hv0]].
    + rewrite E in HL. destruct (b32_of w) as [s|s| |s m e Hb]; try discriminate Fw; try discriminate HL.
    + rewrite !quant_finite by assumption. apply quant_real_mono.
      change (SFleb (B2SF (b32_of v)) (B2SF (b32_of w))) with (Bleb (b32_of v) (b32_of w)) in HL.
      rewrite Bleb_correct in HL by assumption.
      destruct (Rle_bool_spec (B2R (b32_of v)) (B2R (b32_of w))); [assumption|discriminate].
Qed.
End Quant.

(** ** The concrete quantisers *)
Lemma quantize_8_spec x : quantize_unsigned_8 x =
  if f32_ge0 (f32_value x) then Ok (Z_to_w32 (quant 256 255 4294967295 (f32_value x))) else Panic.
Proof. reflexivity. Qed.
Lemma quantize_8_range x q : quantize_unsigned_8 x = Ok q -> w32_to_Z q <= 255.
Proof.
  rewrite quantize_8_spec. destruct (f32_ge0 _) eqn:E; [|discriminate]. intros H; injection H as <-.
  pose proof (quant_range 256 255 4294967295 ltac:(lia) ltac:(lia) ltac:(lia) x E). rewrite w32_to_Z_small; lia.
Qed.
Lemma quantize_8_stable_b : forallb (fun z => match quantize_unsigned_8 (dequantize_unsigned_8 (Z_to_w32 z)) with
                                  | Ok q => w32_to_Z q =? z | _ => false end) all_u8 = true.
Proof. vm_compute. reflexivity. Qed.
Lemma quantize_8_stable q : w32_to_Z q <= 255 -> quantize_unsigned_8 (dequantize_unsigned_8 q) = Ok q.
Proof.
  intros H. pose proof (w32_to_Z_range q) as Hr. pose proof (forall_u8 _ quantize_8_stable_b (w32_to_Z q) ltac:(lia)) as E.
  cbv beta in E. rewrite Z_to_w32_to_Z in E. destruct (quantize_unsigned_8 _) as [q'|]; [|discriminate].
  f_equal. rewrite <- (Z_to_w32_to_Z q'), <- (Z_to_w32_to_Z q). f_equal. lia.
Qed.
Lemma quantize_8_mono x y p q : SFleb (f32_value x) (f32_value y) = true ->
  quantize_unsigned_8 x = Ok p -> quantize_unsigned_8 y = Ok q -> w32_to_Z p <= w32_to_Z q.
Proof.
  rewrite !quantize_8_spec. intros HL. destruct (f32_ge0 (f32_value x)) eqn:Ex; [|discriminate].
  destruct (f32_ge0 (f32_value y)) eqn:Ey; [|discriminate]. intros H1 H2; injection H1 as <-; injection H2 as <-.
  pose proof (quant_range 256 255 4294967295 ltac:(lia) ltac:(lia) ltac:(lia) x Ex).
  pose proof (quant_range 256 255 4294967295 ltac:(lia) ltac:(lia) ltac:(lia) y Ey).
  rewrite !w32_to_Z_small by lia. apply quant_mono; try lia; assumption.
Qed.

Lemma quantize_percent_spec x : quantize_unsigned_percent x =
  if f32_ge0 (f32_value x) then Ok (Z_to_w32 (quant 101 100 4294967295 (f32_value x))) else Panic.
Proof. reflexivity. Qed.
Lemma quantize_u8_spec bits x : quantize_u8 bits x =
  if f32_ge0 (f32_value x) then Ok (Z_to_byte (quant (2 ^ bits) (2 ^ bits - 1) 255 (f32_value x))) else Panic.
Proof. reflexivity. Qed.
Lemma quantize_percent_range x q : quantize_unsigned_percent x = Ok q -> w32_to_Z q <= 100.
Proof.
  rewrite ?quantize_percent_spec. destruct (f32_ge0 _) eqn:E; [|discriminate]. intros H; injection H as <-.
  pose proof (quant_range 101 100 4294967295 ltac:(lia) ltac:(lia) ltac:(lia) x E) as HR.  rewrite w32_to_Z_small; lia.
Qed.
Lemma quantize_percent_stable_b : forallb (fun z => (100 <? z) || match quantize_unsigned_percent (dequantize_unsigned_percent (Z_to_w32 z)) with
                                  | Ok q => w32_to_Z q =? z | _ => false end) all_u8 = true.
Proof. vm_compute. reflexivity. Qed.
Lemma quantize_percent_stable q : w32_to_Z q <= 100 -> quantize_unsigned_percent (dequantize_unsigned_percent q) = Ok q.
Proof.
  intros H. pose proof (w32_to_Z_range q) as Hr. pose proof (forall_u8 _ quantize_percent_stable_b (w32_to_Z q) ltac:(lia)) as E.
  cbv beta in E. rewrite Z_to_w32_to_Z in E. replace (100 <? w32_to_Z q) with false in E by lia. rewrite orb_false_l in E.
  destruct (quantize_unsigned_percent _) as [q'|]; [|discriminate].
  f_equal. rewrite <- (Z_to_w32_to_Z q'), <- (Z_to_w32_to_Z q). f_equal. lia.
Qed.
Lemma quantize_percent_mono x y p q : SFleb (f32_value x) (f32_value y) = true ->
  quantize_unsigned_percent x = Ok p -> quantize_unsigned_percent y = Ok q -> w32_to_Z p <= w32_to_Z q.
Proof.
  rewrite ?quantize_percent_spec. intros HL. destruct (f32_ge0 (f32_value x)) eqn:Ex; [|discriminate].
  destruct (f32_ge0 (f32_value y)) eqn:Ey; [|discriminate]. intros H1 H2; injection H1 as <-; injection H2 as <-.
  pose proof (quant_range 101 100 4294967295 ltac:(lia) ltac:(lia) ltac:(lia) x Ex) as HX.
  pose proof (quant_range 101 100 4294967295 ltac:(lia) ltac:(lia) ltac:(lia) y Ey) as HY.
  pose proof (quant_mono 101 100 4294967295 ltac:(lia) ltac:(lia) ltac:(lia) x y Ex HL) as HM.
  rewrite !w32_to_Z_small by lia. exact HM.
Qed.

(** [quantize_u8] with 7 or 8 bits *)
Lemma quantize_u8_range bits x q : bits = 7 \/ bits = 8 -> quantize_u8 bits x = Ok q -> byte_to_Z q < 2 ^ bits.
Proof.
  rewrite ?quantize_u8_spec. intros Hb. assert (HP : 0 < 2 ^ bits <= 256) by (destruct Hb; subst; cbn; lia). destruct (f32_ge0 _) eqn:E; [|discriminate]. intros H; injection H as <-.
  pose proof (quant_range (2 ^ bits) (2 ^ bits - 1) 255 ltac:(lia) ltac:(lia) ltac:(lia) x E) as HR.
   rewrite byte_to_Z_to_byte. rewrite Z.mod_small; lia.
Qed.
Lemma quantize_u8_stable_b : forallb (fun z => match quantize_u8 8 (dequantize_u8 8 (Z_to_byte z)) with
                                  | Ok q => byte_to_Z q =? z | _ => false end &&
                                 ((128 <=? z) || match quantize_u8 7 (dequantize_u8 7 (Z_to_byte z)) with
                                  | Ok q => byte_to_Z q =? z | _ => false end)) all_u8 = true.
Proof. vm_compute. reflexivity. Qed.
Lemma quantize_u8_stable bits q : bits = 7 \/ bits = 8 -> byte_to_Z q < 2 ^ bits -> quantize_u8 bits (dequantize_u8 bits q) = Ok q.
Proof.
  intros Hb H. pose proof (byte_to_Z_range q) as Hr. pose proof (forall_u8 _ quantize_u8_stable_b (byte_to_Z q) ltac:(lia)) as E.
  cbv beta in E. rewrite Z_to_byte_to_Z in E. apply andb_true_iff in E. destruct E as [E8 E7].
  assert (HG : forall r : res byte, match r with Ok q0 => byte_to_Z q0 =? byte_to_Z q | _ => false end = true -> r = Ok q).
  { intros [q'|] Hq; [|discriminate]. f_equal. rewrite <- (Z_to_byte_to_Z q'), <- (Z_to_byte_to_Z q). f_equal. lia. }
  destruct Hb; subst; [|apply HG, E8]. apply HG. replace (128 <=? byte_to_Z q) with false in E7 by lia. rewrite orb_false_l in E7. exact E7.
Qed.
Lemma quantize_u8_mono bits x y p q : bits = 7 \/ bits = 8 -> SFleb (f32_value x) (f32_value y) = true ->
  quantize_u8 bits x = Ok p -> quantize_u8 bits y = Ok q -> byte_to_Z p <= byte_to_Z q.
Proof.
  rewrite ?quantize_u8_spec. intros Hb HL. assert (HP : 0 < 2 ^ bits <= 256) by (destruct Hb; subst; cbn; lia). destruct (f32_ge0 (f32_value x)) eqn:Ex; [|discriminate].
  destruct (f32_ge0 (f32_value y)) eqn:Ey; [|discriminate]. intros H1 H2; injection H1 as <-; injection H2 as <-.
  pose proof (quant_range (2 ^ bits) (2 ^ bits - 1) 255 ltac:(lia) ltac:(lia) ltac:(lia) x Ex) as HX.
  pose proof (quant_range (2 ^ bits) (2 ^ bits - 1) 255 ltac:(lia) ltac:(lia) ltac:(lia) y Ey) as HY.
  pose proof (quant_mono (2 ^ bits) (2 ^ bits - 1) 255 ltac:(lia) ltac:(lia) ltac:(lia) x y Ex HL) as HM.
  rewrite !byte_to_Z_to_byte.
  rewrite !Z.mod_small; [exact HM| |]; lia.
Qed.

(** ** All together *)
Lemma ge0_leb v : f32_ge0 v = SFleb (S754_zero false) v.
Proof. reflexivity. Qed.
Lemma quantise_8_all :
  (forall x, (exists q, quantize_unsigned_8 x = Ok q) <-> SFleb (S754_zero false) (f32_value x) = true) /\
  (forall x q, quantize_unsigned_8 x = Ok q -> w32_to_Z q <= 255) /\
  (forall q, w32_to_Z q <= 255 -> quantize_unsigned_8 (dequantize_unsigned_8 q) = Ok q) /\
  (forall x y p q, SFleb (f32_value x) (f32_value y) = true ->
     quantize_unsigned_8 x = Ok p -> quantize_unsigned_8 y = Ok q -> w32_to_Z p <= w32_to_Z q).
Proof.
  split; [|exact (conj quantize_8_range (conj quantize_8_stable quantize_8_mono))].
  intros x. rewrite quantize_8_spec, ge0_leb. destruct (SFleb _ _); split; try discriminate; eauto. intros [q E]. discriminate E.
Qed.
Lemma quantise_percent_all :
  (forall x, (exists q, quantize_unsigned_percent x = Ok q) <-> SFleb (S754_zero false) (f32_value x) = true) /\
  (forall x q, quantize_unsigned_percent x = Ok q -> w32_to_Z q <= 100) /\
  (forall q, w32_to_Z q <= 100 -> quantize_unsigned_percent (dequantize_unsigned_percent q) = Ok q) /\
  (forall x y p q, SFleb (f32_value x) (f32_value y) = true ->
     quantize_unsigned_percent x = Ok p -> quantize_unsigned_percent y = Ok q -> w32_to_Z p <= w32_to_Z q).
Proof.
  split; [|exact (conj quantize_percent_range (conj quantize_percent_stable quantize_percent_mono))].
  intros x. rewrite quantize_percent_spec, ge0_leb. destruct (SFleb _ _); split; try discriminate; eauto. intros [q E]. discriminate E.
Qed.
Lemma quantise_u8_all bits : bits = 7 \/ bits = 8 ->
  (forall x, (exists q, quantize_u8 bits x = Ok q) <-> SFleb (S754_zero false) (f32_value x) = true) /\
  (forall x q, quantize_u8 bits x = Ok q -> byte_to_Z q < 2 ^ bits) /\
  (forall q, byte_to_Z q < 2 ^ bits -> quantize_u8 bits (dequantize_u8 bits q) = Ok q) /\
  (forall x y p q, SFleb (f32_value x) (f32_value y) = true ->
     quantize_u8 bits x = Ok p -> quantize_u8 bits y = Ok q -> byte_to_Z p <= byte_to_Z q).
Proof.
  intros H. split; [|exact (conj (fun x q => quantize_u8_range bits x q H) (conj (fun q => quantize_u8_stable bits q H) (fun x y p q => quantize_u8_mono bits x y p q H)))].
  intros x. rewrite quantize_u8_spec, ge0_leb. destruct (SFleb _ _); split; try discriminate; eauto. intros [q E]. discriminate E.
Qed.
